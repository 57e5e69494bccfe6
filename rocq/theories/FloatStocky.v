(** Rounding error of the compression member slenderness factor (S6.3.3) for stocky members, and for all. *)

From Coq Require Import ZArith Reals List Bool Lia Lra Psatz Floats.SpecFloat.
From Verif Require Import Base Num PyNum FloatSpec FloatValSpec FloatRound FloatOps FloatFacts FloatError FloatUtil
  FloatUtilSpec FloatCheck FloatLocs FloatCapacity FloatRoot FloatFormulaSpec FloatCalc FloatFormulas FloatNear FloatAlphaC S5 NumFormulas.
Import ListNotations.
Open Scope R_scope.
Local Opaque SFadd SFsub SFmul SFdiv SFsqrt.

(** ** Exact bounds *)
Section Bounds.
Variables (X ab : R).
Hypotheses (HX : 0 < X <= 27 / 2) (Hab : -1 <= ab <= 1).
Let D := X * X - 153 / 10 * X + 2050.
Let A := 2100 * (X - 27 / 2) / D.
Let L := X + A * ab.

Lemma D_short : 1990 <= D <= 2050 /\ - (59) <= X * X - 153 / 10 * X <= 0 /\ X * X <= 183.
Proof.
  unfold D. pose proof (Rle_0_sqr (X - 765 / 100)). unfold Rsqr in *.
  assert (X * X <= 27 / 2 * X) by (apply Rmult_le_compat_r; lra). repeat split; lra.
Qed.

Lemma A_short : - (14) <= A <= 0 /\ X - A <= 14.
Proof.
  pose proof D_short as (D0 & _). assert (E : A * D = 2100 * (X - 27 / 2)) by (unfold A; field; lra).
  assert (X * X <= 27 / 2 * X) by (apply Rmult_le_compat_r; lra). pose proof (Rle_0_sqr X) as X2. unfold Rsqr in X2.
  repeat split; apply Rmult_le_reg_r with D; try lra.
  - rewrite E. unfold D. lra.
  - rewrite Rmult_minus_distr_r, E. unfold D.
    assert (0 <= (27 / 2 - X) * ((X - 34 / 10) * (X - 34 / 10))) by (apply Rmult_le_pos; [lra|apply Rle_0_sqr]).
    pose proof (Rle_0_sqr (X - 338 / 100)). unfold Rsqr in *. lra.
Qed.

Lemma L_short : L <= 14.
Proof. pose proof A_short as ([A0 A1] & A2). assert (A * ab <= - A) by nra. unfold L. lra. Qed.
End Bounds.

Section Bounds2.
Variable L : R.
Hypothesis HL : 1 <= L <= 14.
Let H := Rmax (326 / 100000 * (L - 27 / 2)) 0.
Let S := L / 90 * (L / 90).
Let X := (S + 1 + H) / (2 * S).
Let Q := 90 / (X * L).

Lemma S_short : 1 / 8100 <= S <= 25 / 1000 /\ 0 <= H <= 2 / 1000.
Proof.
  unfold S. set (y := L / 90). assert (L = 90 * y) by (unfold y; field). assert (1 / 90 <= y <= 14 / 90) by lra.
  repeat split; try nra.
  - apply Rmax_r.
  - unfold H. apply Rmax_lub; lra.
Qed.

Lemma X_short : 20 <= X <= 4100 /\ X * (2 * S) = S + 1 + H.
Proof.
  pose proof S_short as (S0 & S2). assert (E : X * (2 * S) = S + 1 + H) by (unfold X; field; lra).
  split; [|exact E]. split; (apply Rmult_le_reg_r with (2 * S); [lra|]; rewrite E); lra.
Qed.

Lemma Q_short : 0 < Q <= 32 / 100 /\ X * (Q * Q) <= 2 /\ 9 / 10 <= X * (Q * Q) / 2.
Proof.
  pose proof S_short as (S0 & S2). pose proof X_short as (X0 & E). assert (P : 0 < X * L) by nra.
  set (y := L / 90) in *. assert (EL : L = 90 * y) by (unfold y; field). assert (Y : 1 / 90 <= y <= 14 / 90) by lra.
  assert (ES : S = y * y) by reflexivity.
  assert (EQ : Q * (S + 1 + H) = 2 * y) by (rewrite <- E, ES; unfold Q; rewrite EL; field; split; lra).
  assert (EX : X * (Q * Q) * (S + 1 + H) = 2).
  { apply Rmult_eq_reg_r with (S + 1 + H); [|lra]. replace (X * (Q * Q) * (S + 1 + H) * (S + 1 + H)) with (X * (Q * (S + 1 + H) * (Q * (S + 1 + H)))) by ring.
    rewrite EQ. replace (X * (2 * y * (2 * y))) with (2 * (X * (2 * S))) by (rewrite ES; ring). rewrite E. reflexivity. }
  split; [split|].
  - apply Rmult_lt_0_compat; [lra|now apply Rinv_0_lt_compat].
  - apply Rmult_le_reg_r with (S + 1 + H); [lra|]. rewrite EQ. lra.
  - set (z := X * (Q * Q)) in *. split; (apply Rmult_le_reg_r with (S + 1 + H); [lra|]).
    + rewrite EX. lra.
    + replace (z / 2 * (S + 1 + H)) with (z * (S + 1 + H) / 2) by field. rewrite EX. lra.
Qed.
End Bounds2.

Lemma root_gap_up q : 0 <= q <= 1 / 2 -> 1 - sqrt (1 - q) <= 6 / 10 * q.
Proof.
  intros H. assert (1 - 6 / 10 * q <= sqrt (1 - q)).
  { rewrite <- (sqrt_square (1 - 6 / 10 * q)) by lra. apply sqrt_le_1_alt. nra. }
  lra.
Qed.

(** ** Errors in units *)
Lemma k_small a b : 0 <= a <= 10000000 -> 0 <= b <= 10000000 -> 0 <= a * b * u53 <= 2 / 100 /\ 0 <= (a + b) * u53 <= 1 / 1000.
Proof.
  intros Ha Hb. pose proof u53_small as U. pose proof u53_val as U'.
  assert (0 <= a * b <= 10000000 * 10000000) by (split; [apply Rmult_le_pos; lra|apply Rmult_le_compat; lra]).
  split; (split; [apply Rmult_le_pos; lra|]).
  - apply Rle_trans with (10000000 * 10000000 * u53); [apply Rmult_le_compat_r; lra|lra].
  - apply Rle_trans with (20000000 * u53); [apply Rmult_le_compat_r; lra|lra].
Qed.

Lemma k_sub a b C G x y X Y : nr (a * u53) x X -> nr (b * u53) y Y -> Rabs (X - Y) <= C ->
  0 <= a <= 10000000 -> 0 <= b <= 10000000 -> C <= 1000000 -> a + b + C + 1 / 100 <= G -> nr (G * u53) (nsub x y) (X - Y).
Proof.
  intros Nx Ny HC Ha Hb CC HG. destruct (k_small a b Ha Hb) as (_ & K). pose proof u53_small as U. pose proof h_small as Hh.
  apply n_sub with (1 := Nx) (2 := Ny) (3 := HC); [lra|].
  replace (a * u53 + b * u53 + u53 * (C + (a * u53 + b * u53))) with ((a + b + C + (a + b) * u53) * u53) by ring.
  apply Rle_trans with ((a + b + C + 1 / 1000) * u53 + u53 / 1000000); [apply Rplus_le_compat; [apply Rmult_le_compat_r; lra|lra]|].
  replace (u53 / 1000000) with (/ 1000000 * u53) by field. rewrite <- Rmult_plus_distr_r. apply Rmult_le_compat_r; lra.
Qed.

Lemma k_add a b C G x y X Y : nr (a * u53) x X -> nr (b * u53) y Y -> Rabs (X + Y) <= C ->
  0 <= a <= 10000000 -> 0 <= b <= 10000000 -> C <= 1000000 -> a + b + C + 1 / 100 <= G -> nr (G * u53) (nadd x y) (X + Y).
Proof.
  intros Nx Ny HC Ha Hb CC HG. destruct (k_small a b Ha Hb) as (_ & K). pose proof u53_small as U. pose proof h_small as Hh.
  apply n_add with (1 := Nx) (2 := Ny) (3 := HC); [lra|].
  replace (a * u53 + b * u53 + u53 * (C + (a * u53 + b * u53))) with ((a + b + C + (a + b) * u53) * u53) by ring.
  apply Rle_trans with ((a + b + C + 1 / 1000) * u53 + u53 / 1000000); [apply Rplus_le_compat; [apply Rmult_le_compat_r; lra|lra]|].
  replace (u53 / 1000000) with (/ 1000000 * u53) by field. rewrite <- Rmult_plus_distr_r. apply Rmult_le_compat_r; lra.
Qed.

Lemma k_mul a b A B C G x y X Y : nr (a * u53) x X -> nr (b * u53) y Y -> Rabs X <= A -> Rabs Y <= B -> Rabs (X * Y) <= C ->
  0 <= a <= 10000000 -> 0 <= b <= 10000000 -> A <= 10000 -> B <= 10000 -> C <= 1000000 ->
  a * B + b * A + C + 1 / 10 <= G -> nr (G * u53) (nmul x y) (X * Y).
Proof.
  intros Nx Ny HA HB HC Ha Hb AA BB CC HG. destruct (k_small a b Ha Hb) as (K & _). pose proof u53_small as U. pose proof u53_val as U'. pose proof h_small as Hh.
  pose proof (Rabs_pos X). pose proof (Rabs_pos Y). pose proof (Rabs_pos (X * Y)).
  assert (T : 0 <= a * B + b * A <= 200000000000).
  { assert (0 <= a * B <= 10000000 * 10000) by (split; [apply Rmult_le_pos; lra|apply Rmult_le_compat; lra]).
    assert (0 <= b * A <= 10000000 * 10000) by (split; [apply Rmult_le_pos; lra|apply Rmult_le_compat; lra]). lra. }
  set (t := a * B + b * A) in *. 
  assert (Et : a * u53 * B + b * u53 * A + a * u53 * (b * u53) = (t + a * b * u53) * u53) by (unfold t; ring).
  assert (K2 : 0 <= (t + a * b * u53) * u53 <= 3 / 100).
  { split; [apply Rmult_le_pos; lra|]. apply Rle_trans with (200000000001 * u53); [apply Rmult_le_compat_r; lra|lra]. }
  apply n_mul with (1 := Nx) (2 := Ny) (3 := HA) (4 := HB) (5 := HC); rewrite Et; [lra|].
  replace ((t + a * b * u53) * u53 + u53 * (C + (t + a * b * u53) * u53)) with ((t + a * b * u53 + C + (t + a * b * u53) * u53) * u53) by ring.
  apply Rle_trans with ((t + C + 5 / 100) * u53 + u53 / 1000000); [apply Rplus_le_compat; [apply Rmult_le_compat_r; lra|lra]|].
  replace (u53 / 1000000) with (/ 1000000 * u53) by field. rewrite <- Rmult_plus_distr_r. apply Rmult_le_compat_r; lra.
Qed.

Section Pow.
Variable pw : pynum -> pynum -> res pynum.
Hypothesis good : good_pow pw.

Lemma alpha_c_short e x X ab : close 15 e x X -> 0 < X <= 27 / 2 -> finite_double ab -> -1 <= val ab <= 1 ->
  let A := 2100 * (X - 27 / 2) / (X * X - 153 / 10 * X + 2050) in
  let L := X + A * val ab in
  let H := Rmax (326 / 100000 * (L - 27 / 2)) 0 in
  let S := L / 90 * (L / 90) in
  let Xi := (S + 1 + H) / (2 * S) in
  let Q := 90 / (Xi * L) in
  1 <= L ->
  exists aa lam eta xi ac, ns6_3_3_alpha_c pw x ab = Ok [aa; lam; eta; xi; ac] /\
    nr (90000 * u53) ac (Xi * (1 - sqrt (1 - Q * Q))).
Proof.
  intros C0 HX Fab Hab A L H S Xi Q HL.
  pose proof (D_short X HX) as (D0 & D1 & D2). pose proof (A_short X HX) as (A0 & A1). pose proof (L_short X (val ab) HX Hab) as L1.
  set (D := X * X - 153 / 10 * X + 2050) in *. fold A in A0, A1, L1. fold L in L1. assert (L0 : 1 <= L <= 14) by lra.
  pose proof (S_short L L0) as (S0 & H0). pose proof (X_short L L0) as (X0 & X1). pose proof (Q_short L L0) as (Q0 & Q1 & Q2).
  fold H S in S0, H0, X0, X1, Q0, Q1, Q2. fold Xi in X0, X1, Q0, Q1, Q2. fold Q in Q0, Q1, Q2.
  pose proof u53_small as U. pose proof u53_val as U'. pose proof h_small as Hh.
  assert (Ex : forall z, (1 <= z <= 2 ^ 20)%Z -> nr (0 * u53) (PFlt (sf_of_Z z)) (IZR z)) by (intros z Hz; rewrite Rmult_0_l; now apply nint_exact).
  assert (E135 : nr (0 * u53) (nflt 135 10) (27 / 2)) by (rewrite Rmult_0_l; exact lit135).
  unfold ns6_3_3_alpha_c.
  (* x - 13.5 *)
  assert (N0 : nr (203 * u53) x X).
  { apply nr_weak with (2 := close_nr _ _ _ _ C0). replace (15 * u53 * X) with (15 * X * u53) by ring. apply Rmult_le_compat_r; lra. }
  assert (N1 : nr (217 * u53) (nsub x (nflt 135 10)) (X - 27 / 2)).
  { apply k_sub with (1 := N0) (2 := E135) (C := 27 / 2); try lra. apply abs_le; lra. }
  assert (N2 : nr (484100 * u53) (nmul (nint 2100) (nsub x (nflt 135 10))) (2100 * (X - 27 / 2))).
  { change (nint 2100) with (PInt 2100). rewrite imul by apply N1.
    apply k_mul with (1 := Ex 2100%Z ltac:(lia)) (2 := N1) (A := 2100) (B := 27 / 2) (C := 28350); try lra; apply abs_le; lra. }
  (* the denominator *)
  assert (M1 : nr (5700 * u53) (nmul x x) (X * X)).
  { apply k_mul with (1 := N0) (2 := N0) (A := 27 / 2) (B := 27 / 2) (C := 183); try lra; apply abs_pos_le; try lra. split; [apply Rle_0_sqr|lra]. }
  assert (N153 : nr (17 * u53) (nflt 153 10) (153 / 10)).
  { apply nr_weak with (2 := close_nr _ _ _ _ (clit 153 10 ltac:(lia) ltac:(lia))). replace (11 / 10 * u53 * (153 / 10)) with (11 / 10 * (153 / 10) * u53) by ring. apply Rmult_le_compat_r; lra. }
  assert (M2 : nr (3600 * u53) (nmul (nflt 153 10) x) (153 / 10 * X)).
  { apply k_mul with (1 := N153) (2 := N0) (A := 153 / 10) (B := 27 / 2) (C := 207); try lra; apply abs_pos_le; lra. }
  assert (N3 : nr (9400 * u53) (nsub (nmul x x) (nmul (nflt 153 10) x)) (X * X - 153 / 10 * X)).
  { apply k_sub with (1 := M1) (2 := M2) (C := 59); try lra. apply abs_le. lra. }
  assert (N4 : nr (11500 * u53) (nadd (nsub (nmul x x) (nmul (nflt 153 10) x)) (nint 2050)) D).
  { change (nint 2050) with (PInt 2050). rewrite addi by apply N3. unfold D.
    apply k_add with (1 := N3) (2 := Ex 2050%Z ltac:(lia)) (C := 2050); try lra. apply abs_pos_le. fold D. lra. }
  set (den := nadd (nsub (nmul x x) (nmul (nflt 153 10) x)) (nint 2050)) in *.
  set (num := nmul (nint 2100) (nsub x (nflt 135 10))) in *.
  assert (ID : 0 <= 1002 / 1000 / D <= 1002 / 1990000).
  { split; [apply Rmult_le_pos; [lra|apply Rlt_le, Rinv_0_lt_compat; lra]|]. replace (1002 / 1990000) with (1002 / 1000 * / 1990) by field.
    apply Rmult_le_compat_l; [lra|]. apply Rinv_le_contravar; lra. }
  assert (T : 0 <= (484100 * u53 + 14 * (11500 * u53)) * (1002 / 1000 / D) <= 326 * u53).
  { split; [apply Rmult_le_pos; lra|]. apply Rle_trans with ((484100 * u53 + 14 * (11500 * u53)) * (1002 / 1990000)); [apply Rmult_le_compat_l; lra|lra]. }
  destruct (n_div (484100 * u53) (11500 * u53) (345 * u53) D 14 num den (2100 * (X - 27 / 2)) D N2 N4) as [E5 N5].
  { lra. } { lra. } { apply abs_le. fold A. lra. } { lra. }
  { set (t := (484100 * u53 + 14 * (11500 * u53)) * (1002 / 1000 / D)) in *.
    assert (u53 * (14 + t) <= u53 * 15) by (apply Rmult_le_compat_l; lra). lra. }
  rewrite E5. cbn [bind]. clear E5. fold A in N5. set (aa := ndiv num den) in *.
  (* the modified slenderness *)
  assert (Nab : nr (0 * u53) ab (val ab)) by (rewrite Rmult_0_l; now apply nr_exact).
  assert (AB : Rabs (A * val ab) <= 14) by (rewrite Rabs_mult; apply Rle_trans with (14 * 1); [apply Rmult_le_compat; auto using Rabs_pos; apply abs_le; lra|lra]).
  assert (N6 : nr (360 * u53) (nmul aa ab) (A * val ab)).
  { apply k_mul with (1 := N5) (2 := Nab) (A := 14) (B := 1) (C := 14); try lra; apply abs_le; lra. }
  assert (N7 : nr (578 * u53) (nadd x (nmul aa ab)) L).
  { apply k_add with (1 := N0) (2 := N6) (C := 14); try lra. apply abs_pos_le. fold L. lra. }
  set (lam := nadd x (nmul aa ab)) in *.
  assert (C7 : close 578 10 lam L).
  { apply nr_close.
    - apply nr_weak with (2 := N7). rewrite <- (Rmult_1_r (578 * u53)) at 1. apply Rmult_le_compat_l; lra.
    - split; [apply Rle_trans with 1; [rewrite <- bp_0; apply bp_le; lia|lra]|].
      rewrite bp_Z by lia. change (2 ^ 10)%Z with 1024%Z. lra. }
  (* eta *)
  assert (N8 : nr (592 * u53) (nsub lam (nflt 135 10)) (L - 27 / 2)).
  { apply k_sub with (1 := N7) (2 := E135) (C := 27 / 2); try lra. apply abs_le; lra. }
  assert (N326 : nr (1 / 100 * u53) (nflt 326 100000) (326 / 100000)).
  { apply nr_weak with (2 := close_nr _ _ _ _ (clit 326 100000 ltac:(lia) ltac:(lia))).
    replace (11 / 10 * u53 * (326 / 100000)) with (11 / 10 * (326 / 100000) * u53) by ring. apply Rmult_le_compat_r; lra. }
  assert (N9 : nr (3 * u53) (nmul (nflt 326 100000) (nsub lam (nflt 135 10))) (326 / 100000 * (L - 27 / 2))).
  { apply k_mul with (1 := N326) (2 := N8) (A := 326 / 100000) (B := 27 / 2) (C := 5 / 100); try lra; apply abs_le; lra. }
  pose proof (n_max0 _ _ _ N9) as N10. fold H in N10.
  set (eta := pymax (nmul (nflt 326 100000) (nsub lam (nflt 135 10))) (nflt 0 1)) in *.
  (* xi *)
  assert (E90 : pydiv lam (nint 90) = Ok (ndiv lam (PFlt (sf_of_Z 90)))) by (apply divi_ok; lia).
  rewrite E90. cbn [bind].
  destruct (cdiv _ _ _ _ _ _ _ _ C7 (cint 90 ltac:(lia))) as [_ C8]; try side.
  destruct (csquare pw good _ _ _ _ C8) as (s2 & E9 & C9); try side. rewrite E9. cbn [bind]. fold S in C9.
  apply close_weak with (k' := 1163) (e' := 60%Z) in C9; [|lra|lia].
  assert (N9' : nr (30 * u53) s2 S).
  { apply nr_weak with (2 := close_nr _ _ _ _ C9). replace (1163 * u53 * S) with (1163 * S * u53) by ring. apply Rmult_le_compat_r; lra. }
  change (nint 1) with (PInt 1). rewrite (addi 1 s2) by apply C9. set (s1 := nadd s2 (PFlt (sf_of_Z 1))) in *.
  assert (NS1 : nr (32 * u53) s1 (S + 1)) by (apply k_add with (1 := N9') (2 := Ex 1%Z ltac:(lia)) (C := 11 / 10); try lra; apply abs_pos_le; lra).
  assert (NS : nr (37 * u53) (nadd s1 eta) (S + 1 + H)) by (apply k_add with (1 := NS1) (2 := N10) (C := 11 / 10); try lra; apply abs_pos_le; lra).
  assert (C11 : close 37 10 (nadd s1 eta) (S + 1 + H)).
  { apply nr_close.
    - apply nr_weak with (2 := NS). rewrite <- (Rmult_1_r (37 * u53)) at 1. apply Rmult_le_compat_l; lra.
    - split; [apply Rle_trans with 1; [rewrite <- bp_0; apply bp_le; lia|lra]|].
      rewrite bp_Z by lia. change (2 ^ 10)%Z with 1024%Z. lra. }
  change (nint 2) with (PInt 2) in *. rewrite (imul 2 s2) by apply C9.
  pose proof (cmul _ _ _ _ _ _ _ _ (cint 2 ltac:(lia)) C9 ltac:(lra) ltac:(lra) ltac:(lia) ltac:(lia) ltac:(lia)) as C12.
  destruct (cdiv _ _ _ _ _ _ _ _ C11 C12) as [E13 C13]; try side. rewrite E13. cbn [bind]. fold Xi in C13.
  apply close_weak with (k' := 1203) (e' := 90%Z) in C13; [|lra|lia].
  set (xi := ndiv (nadd s1 eta) (nmul (PFlt (sf_of_Z 2)) s2)) in *.
  pose proof (cmul _ _ _ _ _ _ _ _ C13 C7 ltac:(lra) ltac:(lra) ltac:(lia) ltac:(lia) ltac:(lia)) as C14.
  change (nint 90) with (PInt 90). rewrite idiv.
  destruct (cdiv _ _ _ _ _ _ _ _ (cint 90 ltac:(lia)) C14) as [E15 C15]; try side. rewrite E15. cbn [bind]. fold Q in C15.
  destruct (csquare pw good _ _ _ _ C15) as (q2 & E16 & C16); try side. change (nint 2) with (PInt 2) in E16. rewrite E16. cbn [bind].
  set (P := Q * Q) in *. assert (QQ : 0 < P <= 103 / 1000) by (unfold P; split; [apply Rmult_lt_0_compat; lra|apply Rle_trans with (32 / 100 * (32 / 100)); [apply Rmult_le_compat; lra|lra]]).
  apply close_weak with (k' := 3575) (e' := 500%Z) in C16; [|lra|lia].
  assert (N16 : nr (3575 * P * u53) q2 P).
  { apply nr_weak with (2 := close_nr _ _ _ _ C16). lra. }
  rewrite (isub 1 q2) by apply C16.
  assert (N17 : nr ((3575 * P + 102 / 100) * u53) (nsub (PFlt (sf_of_Z 1)) q2) (1 - P)).
  { apply k_sub with (1 := Ex 1%Z ltac:(lia)) (2 := N16) (C := 1); try lra. apply abs_pos_le; lra. }
  destruct (n_root pw good ((3575 * P + 102 / 100) * u53) (94 / 100) _ _ N17) as (r & E18 & N18); [lra|lra| |].
  { apply Rle_trans with (400 * u53); [apply Rmult_le_compat_r; lra|lra]. }
  rewrite E18. cbn [bind].
  assert (N18' : nr ((3804 * P + 52 / 10) * u53) r (sqrt (1 - P))).
  { apply nr_weak with (2 := N18). set (k := 3575 * P + 102 / 100) in *.
    replace (k * u53 / (94 / 100) + 4 * u53 * (1 + k * u53 / (94 / 100))) with ((100 / 94 * k + 4 + 400 / 94 * (k * u53)) * u53) by field.
    assert (k * u53 <= 1 / 100) by (apply Rle_trans with (400 * u53); [apply Rmult_le_compat_r; unfold k; lra|lra]).
    apply Rmult_le_compat_r; [lra|]. unfold k in *. lra. }
  pose proof (root_gap_up P ltac:(lra)) as G. pose proof (sqrt_pos (1 - P)) as SP.
  assert (G0 : 0 <= 1 - sqrt (1 - P)).
  { assert (sqrt (1 - P) <= sqrt 1) by (apply sqrt_le_1_alt; lra). rewrite sqrt_1 in *. lra. }
  rewrite (isub 1 r) by apply N18'.
  assert (N19 : nr ((3805 * P + 53 / 10) * u53) (nsub (PFlt (sf_of_Z 1)) r) (1 - sqrt (1 - P))).
  { apply k_sub with (1 := Ex 1%Z ltac:(lia)) (2 := N18') (C := 6 / 10 * P); try lra. apply abs_pos_le. lra. }
  pose proof (close_nr _ _ _ _ C13) as N13.
  exists aa, lam, eta, xi, (nmul xi (nsub (PFlt (sf_of_Z 1)) r)). split; [reflexivity|].
  assert (N13' : nr (1203 * Xi * u53) xi Xi) by (apply nr_weak with (2 := N13); lra).
  apply k_mul with (1 := N13') (2 := N19) (A := Xi) (B := 6 / 10 * P) (C := 12 / 10); try lra.
  - apply abs_pos_le. lra.
  - apply abs_pos_le. lra.
  - apply abs_pos_le. split; [apply Rmult_le_pos; lra|]. apply Rle_trans with (Xi * (6 / 10 * P)); [apply Rmult_le_compat_l; lra|lra].
Qed.

(** Stocky or not. *)
Lemma alpha_c_any e x X ab : close 15 e x X -> 0 < X <= 1000 -> finite_double ab -> -1 <= val ab <= 1 ->
  let A := 2100 * (X - 27 / 2) / (X * X - 153 / 10 * X + 2050) in
  let L := X + A * val ab in
  let H := Rmax (326 / 100000 * (L - 27 / 2)) 0 in
  let S := L / 90 * (L / 90) in
  let Xi := (S + 1 + H) / (2 * S) in
  let Q := 90 / (Xi * L) in
  1 <= L ->
  exists aa lam eta xi ac, ns6_3_3_alpha_c pw x ab = Ok [aa; lam; eta; xi; ac] /\
    nr (90000 * u53) ac (Xi * (1 - sqrt (1 - Q * Q))).
Proof.
  intros C HX F Hab A L H S Xi Q HL. destruct (Rle_dec X (27 / 2)) as [K|K].
  - apply (alpha_c_short e x X ab C ltac:(lra) F Hab HL).
  - destruct (alpha_c_near pw good e x X ab C ltac:(lra) F Hab) as (aa & lam & eta & xi & ac & E & _ & _ & _ & _ & N).
    exists aa, lam, eta, xi, ac. split; [exact E|exact N].
Qed.
End Pow.
