(** Rounding error of the compression member slenderness factor (S6.3.3). *)

From Coq Require Import ZArith Reals List Bool Lia Lra Psatz Floats.SpecFloat.
From Verif Require Import Base Num PyNum FloatSpec FloatValSpec FloatRound FloatOps FloatFacts FloatError FloatUtil
  FloatUtilSpec FloatCheck FloatLocs FloatCapacity FloatRoot FloatFormulaSpec FloatCalc FloatFormulas FloatNear S5 NumFormulas.
Import ListNotations.
Open Scope R_scope.
Local Opaque SFadd SFsub SFmul SFdiv SFsqrt.

(** ** Exact bounds *)
Section Bounds.
Variables (X ab : R).
Hypotheses (HX : 27 / 2 <= X <= 1000) (Hab : -1 <= ab <= 1).
Let D := X * X - 153 / 10 * X + 2050.
Let A := 2100 * (X - 27 / 2) / D.
Let L := X + A * ab.

Lemma D_bounds : 2000 <= D /\ X * X <= 103 / 100 * D /\ 153 / 10 * X <= 21 / 100 * D /\ 2100 * X <= 28 * D.
Proof.
  unfold D. pose proof (Rle_0_sqr (X - 26265 / 100)). pose proof (Rle_0_sqr (X - 4408 / 100)). pose proof (Rle_0_sqr (X - 4515 / 100)).
  pose proof (Rle_0_sqr (X - 27 / 2)). unfold Rsqr in *. repeat split; lra.
Qed.

Lemma A_eq : A * D = 2100 * (X - 27 / 2).
Proof. pose proof D_bounds. unfold A. field. lra. Qed.

Lemma A_bounds : 0 <= A <= 21 /\ A <= X - 13 /\ 2 * A <= X.
Proof.
  pose proof D_bounds as (D0 & _). pose proof A_eq as E. repeat split.
  - apply Rmult_le_reg_r with D; [lra|]. rewrite E. lra.
  - apply Rmult_le_reg_r with D; [lra|]. rewrite E. unfold D. pose proof (Rle_0_sqr (X - 5765 / 100)). unfold Rsqr in *. lra.
  - apply Rmult_le_reg_r with D; [lra|]. rewrite E. unfold D.
    assert (H : 0 <= (X - 27 / 2) * (X - 27 / 2) * (X - 27 / 2)) by (apply Rmult_le_pos; [apply Rle_0_sqr|lra]).
    pose proof (Rle_0_sqr (X - 27 / 2 - 28 / 10)). unfold Rsqr in *. lra.
  - apply Rmult_le_reg_r with D; [lra|]. rewrite Rmult_assoc, E. unfold D.
    assert (H : 0 <= (X - 324 / 10) * (X - 324 / 10) * (X + 495 / 10)) by (apply Rmult_le_pos; [apply Rle_0_sqr|lra]).
    lra.
Qed.

Lemma L_bounds : 13 <= L <= 1021 /\ X <= 2 * L.
Proof. pose proof A_bounds as ([A0 A1] & A2 & A3). assert (- A <= A * ab <= A) by nra. unfold L. lra. Qed.
End Bounds.

Section Bounds2.
Variable L : R.
Hypothesis HL : 13 <= L <= 1021.
Let H := Rmax (326 / 100000 * (L - 27 / 2)) 0.
Let S := L / 90 * (L / 90).
Let X := (S + 1 + H) / (2 * S).
Let Q := 90 / (X * L).

Lemma S_bounds : 2 / 100 <= S <= 129 /\ L <= 45 * (S + 1) /\ 0 <= H <= 4.
Proof.
  unfold S. set (y := L / 90). assert (L = 90 * y) by (unfold y; field). assert (13 / 90 <= y <= 1021 / 90) by lra.
  repeat split; try nra.
  - pose proof (Rle_0_sqr (y - 1)). unfold Rsqr in *. lra.
  - apply Rmax_r.
  - unfold H. apply Rmax_lub; lra.
Qed.

Lemma X_bounds : 1 / 2 <= X <= 25.
Proof.
  pose proof S_bounds as (S0 & S1 & S2). assert (E : X * (2 * S) = S + 1 + H) by (unfold X; field; lra).
  split; (apply Rmult_le_reg_r with (2 * S); [lra|]; rewrite E).
  - lra.
  - unfold H, Rmax, S. destruct (Rle_dec _ _); nra.
Qed.

Lemma Q_bounds : 0 < Q <= 9 / 10.
Proof.
  pose proof S_bounds as (S0 & S1 & S2). pose proof X_bounds as X0. assert (P : 0 < X * L) by nra. split.
  - apply Rmult_lt_0_compat; [lra|now apply Rinv_0_lt_compat].
  - unfold Q. apply Rmult_le_reg_r with (X * L); [exact P|]. unfold Rdiv at 1. rewrite Rmult_assoc, Rinv_l by lra.
    assert (E : X * (2 * S) = S + 1 + H) by (unfold X; field; lra).
    set (y := L / 90) in *. assert (EL : L = 90 * y) by (unfold y; field). assert (Y : 13 / 90 <= y) by lra.
    assert (ES : S = y * y) by reflexivity. assert (H1 : 2934 / 10000 * y - 44010 / 1000000 <= H).
    { apply Rle_trans with (2 := Rmax_l _ _). rewrite EL. lra. }
    apply Rmult_le_reg_r with (2 * y); [lra|].
    replace (9 / 10 * (X * L) * (2 * y)) with (81 * (X * (2 * S))) by (rewrite EL, ES; field). rewrite E, ES.
    pose proof (Rle_0_sqr (y - 9644 / 10000)). unfold Rsqr in *. nra.
Qed.
End Bounds2.

Lemma abs_pos_le x A : 0 <= x <= A -> Rabs x <= A.
Proof. intros. rewrite Rabs_right; lra. Qed.

Lemma lit135 : nr 0 (nflt 135 10) (27 / 2).
Proof.
  replace (nflt 135 10) with (PFlt (S754_finite false 7599824371187712 (-49))) by (vm_compute; reflexivity). split.
  - apply fin_double. vm_compute. reflexivity.
  - rewrite val_sfR. cbn [sfR signed]. replace (bp (-49)) with (/ bp 49) by apply (bp_inv 49). rewrite bp_Z by lia.
    change (2 ^ 49)%Z with 562949953421312%Z. replace (7599824371187712 * / 562949953421312 - 27 / 2) with 0 by field.
    rewrite Rabs_R0. lra.
Qed.

Lemma lit0 : nr 0 (nflt 0 1) 0.
Proof.
  replace (nflt 0 1) with (PFlt (S754_zero false)) by (vm_compute; reflexivity). split; [apply fin_double; exact I|].
  rewrite val_sfR. cbn [sfR]. rewrite Rminus_eq_0, Rabs_R0. lra.
Qed.

Lemma nint_exact z : (1 <= z <= 2 ^ 20)%Z -> nr 0 (PFlt (sf_of_Z z)) (IZR z).
Proof. intros H. pose proof (close_nr _ _ _ _ (cint z H)) as N. replace (0 * u53 * IZR z) with 0 in N by ring. exact N. Qed.

Lemma n_max0 E x X : nr E x X -> nr E (pymax x (nflt 0 1)) (Rmax X 0).
Proof.
  intros N. pose proof (nr_nonneg _ _ _ N) as E0. destruct lit0 as (F0 & B0). destruct N as (F & B).
  assert (V0 : val (nflt 0 1) = 0) by (vm_compute; reflexivity).
  unfold pymax. change (@nltb pynum PNum) with py_ltb.
  destruct (Rlt_le_dec (val x) (val (nflt 0 1))) as [M|M].
  - rewrite (ltb_t x _ (finite_finp _ F) (finite_finp _ F0) M). split; [exact F0|]. rewrite V0 in *.
    apply abs_le in B. unfold Rmax. destruct (Rle_dec X 0); apply abs_le; lra.
  - rewrite (ltb_f x _ (finite_finp _ F) (finite_finp _ F0) M). split; [exact F|]. rewrite V0 in *.
    apply abs_le in B. unfold Rmax. destruct (Rle_dec X 0); apply abs_le; lra.
Qed.

Section Pow.
Variable pw : pynum -> pynum -> res pynum.
Hypothesis good : good_pow pw.

Lemma n_root E b x X : nr E x X -> 1 / 100 <= b <= 1 -> b * b <= X <= 1 -> E <= 1 / 100000 ->
  exists r, pw x (nflt 1 2) = Ok r /\ nr (E / b + 4 * u53 * (1 + E / b)) r (sqrt X).
Proof.
  intros N Hb HX HE. pose proof (nr_nonneg _ _ _ N) as E0. destruct N as (F & B).
  assert (B1 : 1 / 10000 <= X) by nra. assert (V : 1 / 20000 <= val x <= 2) by (apply abs_le in B; lra).
  destruct (good_root pw good x F) as (r & Er & Fr & Ar).
  { change (powerRZ 2 (-1000)) with (bp (-1000)). change (powerRZ 2 1000) with (bp 1000). split.
    - apply Rle_trans with (2 := proj1 V). apply Rle_trans with (bp (-20)); [apply bp_le; lia|].
      replace (bp (-20)) with (/ bp 20) by apply (bp_inv 20). rewrite bp_Z by lia. change (2 ^ 20)%Z with 1048576%Z. lra.
    - apply Rle_trans with (1 := proj2 V). rewrite <- bp_1. apply bp_le. lia. }
  exists r. split; [exact Er|]. split; [exact Fr|]. change (powerRZ 2 (- (51))) with (bp (-51)) in Ar. rewrite bp51 in Ar.
  assert (Sb : b <= sqrt X <= 1).
  { split; [rewrite <- (sqrt_square b) by lra; now apply sqrt_le_1_alt|rewrite <- sqrt_1; now apply sqrt_le_1_alt]. }
  assert (S1 : 0 <= sqrt (val x)) by apply sqrt_pos.
  assert (Ds : Rabs (sqrt (val x) - sqrt X) <= E / b).
  { replace (sqrt (val x) - sqrt X) with ((val x - X) * / (sqrt (val x) + sqrt X)).
    - rewrite Rabs_mult, (Rabs_right (/ _)) by (apply Rle_ge, Rlt_le, Rinv_0_lt_compat; lra).
      unfold Rdiv. apply Rmult_le_compat; auto using Rabs_pos; [apply Rlt_le, Rinv_0_lt_compat; lra|apply Rinv_le_contravar; lra].
    - rewrite <- (sqrt_sqrt (val x)) at 1 by lra. rewrite <- (sqrt_sqrt X) at 1 by lra. field. lra. }
  rewrite (Rabs_right (sqrt (val x))) in Ar by lra. pose proof u53_small as U.
  assert (4 * u53 * sqrt (val x) <= 4 * u53 * (1 + E / b)) by (apply Rmult_le_compat_l; [lra|apply abs_le in Ds; lra]).
  apply abs_le in Ds, Ar. apply abs_le. lra.
Qed.

Lemma alpha_c_near e x X ab : close 15 e x X -> 27 / 2 <= X <= 1000 -> finite_double ab -> -1 <= val ab <= 1 ->
  let A := 2100 * (X - 27 / 2) / (X * X - 153 / 10 * X + 2050) in
  let L := X + A * val ab in
  let H := Rmax (326 / 100000 * (L - 27 / 2)) 0 in
  let S := L / 90 * (L / 90) in
  let Xi := (S + 1 + H) / (2 * S) in
  let Q := 90 / (Xi * L) in
  exists aa lam eta xi ac, ns6_3_3_alpha_c pw x ab = Ok [aa; lam; eta; xi; ac] /\
    nr (1400 * u53) aa A /\ nr (145 * u53 * L) lam L /\ nr (49 / 100 * u53 * L) eta H /\ nr (625 * u53 * Xi) xi Xi /\
    nr (90000 * u53) ac (Xi * (1 - sqrt (1 - Q * Q))).
Proof.
  intros C0 HX Fab Hab A L H S Xi Q.
  pose proof (D_bounds X HX) as (D0 & D1 & D2 & D3). pose proof (A_bounds X HX) as (A0 & _).
  pose proof (L_bounds X (val ab) HX Hab) as (L0 & L1). set (D := X * X - 153 / 10 * X + 2050) in *. fold A in A0, L0, L1. fold L in L0, L1.
  pose proof (S_bounds L L0) as (S0 & S1 & H0). pose proof (X_bounds L L0) as X0. pose proof (Q_bounds L L0) as Q0.
  fold H S in S0, S1, H0, X0, Q0. fold Xi in X0, Q0. fold Q in Q0.
  pose proof u53_small as U. pose proof u53_val as U'. pose proof h_small as Hh.
  assert (Small : forall r, 0 <= r -> 0 <= u53 * r <= r / 1000000).
  { intros r Hr. split; [apply Rmult_le_pos; lra|]. unfold Rdiv. rewrite (Rmult_comm r). apply Rmult_le_compat_r; lra. }
  unfold ns6_3_3_alpha_c.
  (* x - 13.5 *)
  pose proof (close_nr _ _ _ _ C0) as N0. set (w := u53 * X) in *. assert (Ew : 15 * u53 * X = 15 * w) by (unfold w; ring). rewrite Ew in N0.
  assert (W0 : 13 * u53 <= w) by (unfold w; rewrite (Rmult_comm u53); apply Rmult_le_compat_r; lra).
  assert (W1 : w <= 1 / 1000) by (unfold w; apply Rle_trans with (u53 * 1000); [apply Rmult_le_compat_l; lra|lra]).
  pose proof (Small w ltac:(lra)) as Uw.
  assert (N1 : nr (161 / 10 * w) (nsub x (nflt 135 10)) (X - 27 / 2)).
  { apply n_sub with (15 * w) 0 X; [exact N0|exact lit135|apply abs_pos_le; lra|lra|].
    rewrite Rplus_0_r, Rmult_plus_distr_l. fold w. replace (u53 * (15 * w)) with (15 * (u53 * w)) by ring. lra. }
  assert (N2 : nr (36120 * w) (nmul (nint 2100) (nsub x (nflt 135 10))) (2100 * (X - 27 / 2))).
  { change (nint 2100) with (PInt 2100). rewrite imul by apply N1.
    apply n_mul with 0 (161 / 10 * w) 2100 X (2100 * X); [apply nint_exact; lia|exact N1|apply abs_pos_le; lra|apply abs_pos_le; lra|apply abs_pos_le; lra|lra|].
    replace (0 * X + 161 / 10 * w * 2100 + 0 * (161 / 10 * w)) with (33810 * w) by field.
    rewrite Rmult_plus_distr_l. replace (u53 * (2100 * X)) with (2100 * w) by (unfold w; ring).
    replace (u53 * (33810 * w)) with (33810 * (u53 * w)) by ring. lra. }
  (* the denominator *)
  assert (Ce : close 15 10 x X).
  { destruct C0 as (F & E & _). split; [exact F|]. split; [exact E|]. split.
    - apply Rle_trans with 1; [rewrite <- bp_0; apply bp_le; lia|lra].
    - rewrite bp_Z by lia. change (2 ^ 10)%Z with 1024%Z. lra. }
  pose proof (close_nr _ _ _ _ (cmul _ _ _ _ _ _ _ _ Ce Ce ltac:(lra) ltac:(lra) ltac:(lia) ltac:(lia) ltac:(lia))) as M1.
  pose proof (close_nr _ _ _ _ (cmul _ _ _ _ _ _ _ _ (clit 153 10 ltac:(lia) ltac:(lia)) Ce ltac:(lra) ltac:(lra) ltac:(lia) ltac:(lia) ltac:(lia))) as M2.
  set (d := u53 * D) in *.
  assert (d0 : 2000 * u53 <= d) by (unfold d; rewrite (Rmult_comm u53); apply Rmult_le_compat_r; lra).
  assert (DB : D <= 1100000) by (unfold D; nra).
  assert (d1 : d <= 1 / 1000) by (unfold d; apply Rle_trans with (u53 * 1100000); [apply Rmult_le_compat_l; lra|lra]).
  pose proof (Small d ltac:(lra)) as Ud.
  assert (XX : 0 <= u53 * (X * X) <= 103 / 100 * d).
  { split; [apply Rmult_le_pos; [lra|apply Rle_0_sqr]|]. unfold d. replace (103 / 100 * (u53 * D)) with (u53 * (103 / 100 * D)) by ring. apply Rmult_le_compat_l; lra. }
  assert (XD : 0 <= u53 * (153 / 10 * X) <= 21 / 100 * d).
  { split; [apply Rmult_le_pos; lra|]. unfold d. replace (21 / 100 * (u53 * D)) with (u53 * (21 / 100 * D)) by ring. apply Rmult_le_compat_l; lra. }
  assert (N3 : nr (375 / 10 * d) (nsub (nmul x x) (nmul (nflt 153 10) x)) (X * X - 153 / 10 * X)).
  { apply n_sub with (1 := M1) (2 := M2) (C := X * X + 153 / 10 * X).
    - apply abs_le. pose proof (Rle_0_sqr X). unfold Rsqr in *. lra.
    - replace ((15 + 15 + 11 / 10) * u53 * (X * X)) with (311 / 10 * (u53 * (X * X))) by field.
      replace ((11 / 10 + 15 + 11 / 10) * u53 * (153 / 10 * X)) with (172 / 10 * (u53 * (153 / 10 * X))) by field.
      assert (X * X <= 1000000) by nra. lra.
    - replace ((15 + 15 + 11 / 10) * u53 * (X * X)) with (311 / 10 * (u53 * (X * X))) by field.
      replace ((11 / 10 + 15 + 11 / 10) * u53 * (153 / 10 * X)) with (172 / 10 * (u53 * (153 / 10 * X))) by field.
      set (p := u53 * (X * X)) in *. set (q := u53 * (153 / 10 * X)) in *.
      replace (u53 * (X * X + 153 / 10 * X + (311 / 10 * p + 172 / 10 * q))) with (p + q + (311 / 10 * (u53 * p) + 172 / 10 * (u53 * q))) by (unfold p, q; ring).
      pose proof (Small p ltac:(lra)). pose proof (Small q ltac:(lra)). lra. }
  assert (N4 : nr (40 * d) (nadd (nsub (nmul x x) (nmul (nflt 153 10) x)) (nint 2050)) D).
  { change (nint 2050) with (PInt 2050). rewrite addi by apply N3. unfold D.
    apply n_add with (375 / 10 * d) 0 D; [exact N3|apply nint_exact; lia|apply abs_pos_le; fold D; lra|lra|].
    replace (u53 * (D + (375 / 10 * d + 0))) with (d + 375 / 10 * (u53 * d)) by (unfold d; ring). lra. }
  set (den := nadd (nsub (nmul x x) (nmul (nflt 153 10) x)) (nint 2050)) in *.
  set (num := nmul (nint 2100) (nsub x (nflt 135 10))) in *.
  assert (PD : w * (1002 / 1000 / D) <= u53 * (1002 / 1000 * (28 / 2100))).
  { unfold w. rewrite Rmult_assoc. apply Rmult_le_compat_l; [lra|]. apply Rmult_le_reg_r with D; [lra|].
    replace (X * (1002 / 1000 / D) * D) with (X * (1002 / 1000)) by (field; lra). lra. }
  assert (PD2 : d * (1002 / 1000 / D) = u53 * (1002 / 1000)) by (unfold d; field; lra).
  destruct (n_div (36120 * w) (40 * d) (1400 * u53) D 21 num den (2100 * (X - 27 / 2)) D N2 N4) as [E5 N5].
  { lra. } { lra. } { apply abs_pos_le. exact A0. }
  { replace ((36120 * w + 21 * (40 * d)) * (1002 / 1000 / D)) with (36120 * (w * (1002 / 1000 / D)) + 840 * (d * (1002 / 1000 / D))) by ring. lra. }
  { replace ((36120 * w + 21 * (40 * d)) * (1002 / 1000 / D)) with (36120 * (w * (1002 / 1000 / D)) + 840 * (d * (1002 / 1000 / D))) by ring.
    set (z := 36120 * (w * (1002 / 1000 / D)) + 840 * (d * (1002 / 1000 / D))).
    assert (Z0 : 0 <= z).
    { unfold z. rewrite PD2. assert (0 <= w * (1002 / 1000 / D)) by (apply Rmult_le_pos; [lra|apply Rmult_le_pos; [lra|apply Rlt_le, Rinv_0_lt_compat; lra]]). lra. }
    assert (Z1 : z <= 1325 * u53) by (unfold z; lra). pose proof (Small z Z0). lra. }
  rewrite E5. cbn [bind]. clear E5. fold A in N5. set (aa := ndiv num den) in *.
  (* the modified slenderness *)
  pose proof (Small u53 ltac:(lra)) as Uu.
  assert (N6 : nr (1425 * u53) (nmul aa ab) (A * val ab)).
  { apply n_mul with (1400 * u53) 0 21 1 21; [exact N5|now apply nr_exact|apply abs_pos_le; lra|apply abs_le; lra| |lra|].
    - apply abs_le. nra.
    - replace (1400 * u53 * 1 + 0 * 21 + 1400 * u53 * 0) with (1400 * u53) by ring.
      replace (u53 * (21 + 1400 * u53)) with (21 * u53 + 1400 * (u53 * u53)) by ring. lra. }
  set (l := u53 * L) in *. assert (l0 : 13 * u53 <= l) by (unfold l; rewrite (Rmult_comm u53); apply Rmult_le_compat_r; lra).
  assert (l1 : l <= 1 / 1000) by (unfold l; apply Rle_trans with (u53 * 1021); [apply Rmult_le_compat_l; lra|lra]).
  pose proof (Small l ltac:(lra)) as Ul.
  assert (wl : w <= 2 * l) by (unfold w, l; replace (2 * (u53 * L)) with (u53 * (2 * L)) by ring; apply Rmult_le_compat_l; lra).
  assert (N7 : nr (145 * u53 * L) (nadd x (nmul aa ab)) L).
  { apply n_add with (15 * w) (1425 * u53) L; [exact N0|exact N6|apply abs_pos_le; fold L; lra|lra|].
    replace (145 * u53 * L) with (145 * l) by (unfold l; ring).
    replace (u53 * (L + (15 * w + 1425 * u53))) with (l + 15 * (u53 * w) + 1425 * (u53 * u53)) by (unfold l; ring). lra. }
  set (lam := nadd x (nmul aa ab)) in *.
  assert (C7 : close 145 10 lam L).
  { apply nr_close; [exact N7|]. split; [apply Rle_trans with 1; [rewrite <- bp_0; apply bp_le; lia|lra]|].
    rewrite bp_Z by lia. change (2 ^ 10)%Z with 1024%Z. lra. }
  (* eta *)
  assert (N8 : nr (1462 / 10 * l) (nsub lam (nflt 135 10)) (L - 27 / 2)).
  { apply n_sub with (145 * u53 * L) 0 L; [exact N7|exact lit135|apply abs_le; lra| |].
    - replace (145 * u53 * L) with (145 * l) by (unfold l; ring). lra.
    - replace (145 * u53 * L) with (145 * l) by (unfold l; ring).
      replace (u53 * (L + (145 * l + 0))) with (l + 145 * (u53 * l)) by (unfold l; ring). lra. }
  assert (N9 : nr (49 / 100 * u53 * L) (nmul (nflt 326 100000) (nsub lam (nflt 135 10))) (326 / 100000 * (L - 27 / 2))).
  { pose proof (close_nr _ _ _ _ (clit 326 100000 ltac:(lia) ltac:(lia))) as NL.
    apply n_mul with (11 / 10 * u53 * (326 / 100000)) (1462 / 10 * l) (326 / 100000) L (326 / 100000 * L);
      [exact NL|exact N8|apply abs_pos_le; lra|apply abs_le; lra|apply abs_le; lra| |].
    - replace (11 / 10 * u53 * (326 / 100000) * L) with (11 / 10 * (326 / 100000) * l) by (unfold l; ring).
      replace (11 / 10 * u53 * (326 / 100000) * (1462 / 10 * l)) with (11 / 10 * (326 / 100000) * (1462 / 10) * (u53 * l)) by ring. lra.
    - replace (11 / 10 * u53 * (326 / 100000) * L) with (11 / 10 * (326 / 100000) * l) by (unfold l; ring).
      replace (11 / 10 * u53 * (326 / 100000) * (1462 / 10 * l)) with (11 / 10 * (326 / 100000) * (1462 / 10) * (u53 * l)) by ring.
      replace (49 / 100 * u53 * L) with (49 / 100 * l) by (unfold l; ring).
      set (z := 11 / 10 * (326 / 100000) * l + 1462 / 10 * l * (326 / 100000) + 11 / 10 * (326 / 100000) * (1462 / 10) * (u53 * l)).
      replace (u53 * (326 / 100000 * L + z)) with (326 / 100000 * l + u53 * z) by (unfold l; ring).
      assert (Z0 : 0 <= z) by (unfold z; lra). pose proof (Small z Z0). unfold z in *. lra. }
  pose proof (n_max0 _ _ _ N9) as N10. fold H in N10.
  set (eta := pymax (nmul (nflt 326 100000) (nsub lam (nflt 135 10))) (nflt 0 1)) in *.
  (* xi *)
  assert (E90 : pydiv lam (nint 90) = Ok (ndiv lam (PFlt (sf_of_Z 90)))) by (apply divi_ok; lia).
  rewrite E90. cbn [bind].
  destruct (cdiv _ _ _ _ _ _ _ _ C7 (cint 90 ltac:(lia))) as [_ C8]; try side.
  destruct (csquare pw good _ _ _ _ C8) as (s2 & E9 & C9); try side. rewrite E9. cbn [bind]. fold S in C9.
  apply close_weak with (k' := 297) (e' := 60%Z) in C9; [|lra|lia].
  pose proof (cint 1 ltac:(lia)) as CI. apply close_weak with (k' := 297) (e' := 60%Z) in CI; [|lra|lia].
  pose proof (cadd _ _ _ _ _ _ C9 CI ltac:(lra) ltac:(lia)) as C10.
  change (nint 1) with (PInt 1). rewrite (addi 1 s2) by apply C9. set (s1 := nadd s2 (PFlt (sf_of_Z 1))) in *.
  set (p := u53 * (S + 1)) in *. assert (p0 : u53 <= p) by (unfold p; rewrite <- (Rmult_1_r u53) at 1; apply Rmult_le_compat_l; lra).
  assert (p1 : p <= 1 / 1000) by (unfold p; apply Rle_trans with (u53 * 130); [apply Rmult_le_compat_l; lra|lra]).
  assert (lp : l <= 45 * p) by (unfold l, p; replace (45 * (u53 * (S + 1))) with (u53 * (45 * (S + 1))) by ring; apply Rmult_le_compat_l; lra).
  pose proof (Small p ltac:(lra)) as Up. pose proof (Rmult_le_pos u53 H ltac:(lra) ltac:(lra)) as UH.
  assert (C11 : close 325 10 (nadd s1 eta) (S + 1 + H)).
  { apply nr_close.
    - pose proof (close_nr _ _ _ _ C10) as NN. apply n_add with (1 := NN) (2 := N10) (C := S + 1 + H).
      + apply abs_pos_le. lra.
      + replace ((297 + 11 / 10) * u53 * (S + 1)) with (2981 / 10 * p) by (unfold p; field). replace (49 / 100 * u53 * L) with (49 / 100 * l) by (unfold l; ring). lra.
      + replace ((297 + 11 / 10) * u53 * (S + 1)) with (2981 / 10 * p) by (unfold p; field). replace (49 / 100 * u53 * L) with (49 / 100 * l) by (unfold l; ring).
        replace (u53 * (S + 1 + H + (2981 / 10 * p + 49 / 100 * l))) with (p + u53 * H + (2981 / 10 * (u53 * p) + 49 / 100 * (u53 * l))) by (unfold p; ring).
        replace (325 * u53 * (S + 1 + H)) with (325 * p + 325 * (u53 * H)) by (unfold p; ring). lra.
    - split; [apply Rle_trans with 1; [rewrite <- bp_0; apply bp_le; lia|lra]|].
      rewrite bp_Z by lia. change (2 ^ 10)%Z with 1024%Z. lra. }
  change (nint 2) with (PInt 2) in *. rewrite (imul 2 s2) by apply C9.
  pose proof (cmul _ _ _ _ _ _ _ _ (cint 2 ltac:(lia)) C9 ltac:(lra) ltac:(lra) ltac:(lia) ltac:(lia) ltac:(lia)) as C12.
  destruct (cdiv _ _ _ _ _ _ _ _ C11 C12) as [E13 C13]; try side. rewrite E13. cbn [bind]. fold Xi in C13.
  apply close_weak with (k' := 625) (e' := 90%Z) in C13; [|lra|lia].
  set (xi := ndiv (nadd s1 eta) (nmul (PFlt (sf_of_Z 2)) s2)) in *.
  pose proof (cmul _ _ _ _ _ _ _ _ C13 C7 ltac:(lra) ltac:(lra) ltac:(lia) ltac:(lia) ltac:(lia)) as C14.
  change (nint 90) with (PInt 90). rewrite idiv.
  destruct (cdiv _ _ _ _ _ _ _ _ (cint 90 ltac:(lia)) C14) as [E15 C15]; try side. rewrite E15. cbn [bind]. fold Q in C15.
  destruct (csquare pw good _ _ _ _ C15) as (q2 & E16 & C16); try side. change (nint 2) with (PInt 2) in E16. rewrite E16. cbn [bind].
  assert (QQ : 0 < Q * Q <= 81 / 100) by nra.
  assert (N16 : nr (1260 * u53) q2 (Q * Q)).
  { apply nr_weak with (2 := close_nr _ _ _ _ C16).
    replace ((2 * (0 + (625 + 145 + 11 / 10) + 11 / 10) + 42 / 10) * u53 * (Q * Q)) with (u53 * (15486 / 10 * (Q * Q))) by field.
    rewrite (Rmult_comm 1260). apply Rmult_le_compat_l; lra. }
  rewrite (isub 1 q2) by apply C16.
  assert (N17 : nr (1262 * u53) (nsub (PFlt (sf_of_Z 1)) q2) (1 - Q * Q)).
  { apply n_sub with 0 (1260 * u53) 1; [apply (nint_exact 1); lia|exact N16|apply abs_pos_le; lra|lra|].
    replace (u53 * (1 + (0 + 1260 * u53))) with (u53 + 1260 * (u53 * u53)) by ring. lra. }
  destruct (n_root (1262 * u53) (43 / 100) _ _ N17) as (r & E18 & N18); [lra|lra|lra|]. rewrite E18. cbn [bind].
  assert (N18' : nr (2940 * u53) r (sqrt (1 - Q * Q))).
  { apply nr_weak with (2 := N18). replace (4 * u53 * (1 + 1262 * u53 / (43 / 100))) with (4 * u53 + 4 * 1262 / (43 / 100) * (u53 * u53)) by field. lra. }
  assert (SR : 0 <= sqrt (1 - Q * Q) <= 1).
  { split; [apply sqrt_pos|]. rewrite <- sqrt_1 at 2. apply sqrt_le_1_alt. lra. }
  rewrite (isub 1 r) by apply N18'.
  assert (N19 : nr (2942 * u53) (nsub (PFlt (sf_of_Z 1)) r) (1 - sqrt (1 - Q * Q))).
  { apply n_sub with 0 (2940 * u53) 1; [apply (nint_exact 1); lia|exact N18'|apply abs_pos_le; lra|lra|].
    replace (u53 * (1 + (0 + 2940 * u53))) with (u53 + 2940 * (u53 * u53)) by ring. lra. }
  pose proof (close_nr _ _ _ _ C13) as N13.
  exists aa, lam, eta, xi, (nmul xi (nsub (PFlt (sf_of_Z 1)) r)). split; [reflexivity|].
  split; [exact N5|]. split; [exact N7|]. split; [exact N10|]. split; [exact N13|].
  assert (XU : 0 <= 625 * u53 * Xi <= 15625 * u53).
  { replace (625 * u53 * Xi) with (u53 * (625 * Xi)) by ring. rewrite (Rmult_comm 15625). split; [apply Rmult_le_pos; lra|apply Rmult_le_compat_l; lra]. }
  apply n_mul with (15625 * u53) (2942 * u53) 25 1 25;
    [apply nr_weak with (2 := N13); lra|exact N19|apply abs_pos_le; lra|apply abs_pos_le; lra| |lra|].
  - apply abs_pos_le. split; [apply Rmult_le_pos; lra|]. apply Rle_trans with (25 * 1); [apply Rmult_le_compat; lra|lra].
  - replace (15625 * u53 * (2942 * u53)) with (15625 * 2942 * (u53 * u53)) by ring.
    set (z := 15625 * u53 * 1 + 2942 * u53 * 25 + 15625 * 2942 * (u53 * u53)).
    assert (Z0 : 0 <= z) by (unfold z; lra). pose proof (Small z Z0). rewrite Rmult_plus_distr_l. unfold z in *. lra.
Qed.
End Pow.
