(** The utilisation of one tension load on doubles: the secant method finds load / capacity to
    within a few units in the last place. *)

From Coq Require Import ZArith Reals Lra Lia Bool List Floats.SpecFloat.
From Verif Require Import Base Num PyNum Solvers Beam Material AS4100
  FloatSpec FloatValSpec FloatRound FloatOps FloatFacts FloatInterp FloatError.
Import ListNotations.
Open Scope R_scope.

Lemma u53_val : u53 <= 112 / 1000000000000000000.
Proof.
  unfold u53. assert (E : bp (-53) * bp 53 = 1) by (rewrite <- bp_add; apply bp_0).
  rewrite (bp_Z 53) in E by lia. change (2 ^ 53)%Z with 9007199254740992%Z in E. lra.
Qed.

(** ** Real numbers with errors *)

Lemma abs_le x k : Rabs x <= k <-> - k <= x <= k.
Proof. split; [intros H; unfold Rabs in H; destruct (Rcase_abs x); lra|intros H; apply Rabs_le; lra]. Qed.

Lemma step v w e k V : Rabs (w - v) <= k -> Rabs v <= V -> Rabs e <= u53 ->
  Rabs (w * (1 + e) - v) <= k + u53 * (V + k).
Proof.
  intros H L E. replace (w * (1 + e) - v) with ((w - v) + (v + (w - v)) * e) by ring.
  apply Rle_trans with (1 := Rabs_triang _ _). rewrite Rabs_mult.
  assert (Rabs (v + (w - v)) <= V + k) by (apply Rle_trans with (1 := Rabs_triang _ _); lra).
  assert (Rabs (v + (w - v)) * Rabs e <= (V + k) * u53) by (apply Rmult_le_compat; auto using Rabs_pos). lra.
Qed.
Lemma scale_err c v w k : 0 <= c -> Rabs (w - v) <= k -> Rabs (c * w - c * v) <= c * k.
Proof.
  intros C H. replace (c * w - c * v) with (c * (w - v)) by ring. rewrite Rabs_mult, (Rabs_right c) by lra.
  now apply Rmult_le_compat_l.
Qed.

(** [util_func] at a point where the exact product is [P]. *)
Lemma func_err P s e1 e2 e3 : 0 < P -> s = 1 \/ s = -1 -> Rabs e1 <= u53 -> Rabs e2 <= u53 -> Rabs e3 <= u53 ->
  Rabs ((s * P * (1 + e1) * (1 + e2) - 1) * (1 + e3) - (s * P - 1)) <= 4 * u53 * (P + 1).
Proof.
  intros HP Hs H1 H2 H3. pose proof u53_small as U. pose proof u53_val as U'.
  assert (A : Rabs (s * P) <= P) by (destruct Hs as [-> | ->]; apply abs_le; lra).
  assert (H0 : Rabs (s * P - s * P) <= 0) by (apply abs_le; lra).
  pose proof (step _ _ e1 0 P H0 A H1) as Q1. 
  pose proof (step _ _ e2 _ P Q1 A H2) as Q2.
  set (w := s * P * (1 + e1) * (1 + e2)) in *.
  assert (Q3 : Rabs (w - 1 - (s * P - 1)) <= 0 + u53 * (P + 0) + u53 * (P + (0 + u53 * (P + 0)))) by (replace (w - 1 - (s * P - 1)) with (w - s * P) by ring; exact Q2).
  assert (A' : Rabs (s * P - 1) <= P + 1) by (destruct Hs as [-> | ->]; apply abs_le; lra).
  pose proof (step _ _ e3 _ (P + 1) Q3 A' H3) as Q4. apply Rle_trans with (1 := Q4).
  assert (0 <= u53 * P) by nra. assert (u53 * (u53 * P) <= / 1000 * (u53 * P)) by nra.
  assert (u53 * (u53 * (u53 * P)) <= / 1000 * (u53 * P)) by nra. lra.
Qed.

Lemma mult_abs a b A B : Rabs a <= A -> Rabs b <= B -> Rabs a * Rabs b <= A * B.
Proof. intros. apply Rmult_le_compat; auto using Rabs_pos. Qed.

Lemma mult3 a b c A B C : 0 <= a <= A -> 0 <= b <= B -> 0 <= c <= C -> 0 <= a * b * c <= A * B * C.
Proof.
  intros. assert (0 <= a * b <= A * B) by (split; [apply Rmult_le_pos; lra|apply Rmult_le_compat; lra]).
  split; [apply Rmult_le_pos; lra|apply Rmult_le_compat; lra].
Qed.

Section Steps.
Variables (X r P : R).
Hypothesis HX : X = 100000.
Hypothesis HP : P = X * r.
Hypothesis Hr : 1 / 8192 <= r <= 1048576.

Lemma P_range : 12 <= P <= 104857600000.
Proof. rewrite HP, HX. lra. Qed.

(** The first step, from -X and X. *)
Lemma first_step f1 f2 e5 e6 e7 e8 e9 :
  Rabs (f2 - (P - 1)) <= 4 * u53 * (P + 1) -> Rabs (f1 - (- P - 1)) <= 4 * u53 * (P + 1) ->
  Rabs e5 <= u53 -> Rabs e6 <= u53 -> Rabs e7 <= u53 -> Rabs e8 <= u53 -> Rabs e9 <= u53 ->
  let a := - X * f2 * (1 + e5) in let b := X * f1 * (1 + e6) in
  let n := (a - b) * (1 + e7) in let d := (f2 - f1) * (1 + e8) in
  Rabs (a - - X * (P - 1)) <= 6 * u53 * X * (P + 1) /\ Rabs (b - - X * (P + 1)) <= 6 * u53 * X * (P + 1)
  /\ Rabs (n - 2 * X) <= 15 * u53 * X * (P + 1) /\ Rabs (d - 2 * P) <= 11 * u53 * (P + 1)
  /\ Rabs (r * (n / d * (1 + e9)) - 1) <= 10 * u53 * (P + 1).
Proof.
  intros F2 F1 H5 H6 H7 H8 H9 a b n d. pose proof u53_small as U. pose proof u53_val as U'. pose proof P_range as R.
  set (w := u53 * (P + 1)) in *.
  assert (W : 0 < w <= 12 / 1000000) by (unfold w; split; [nra|nra]).
  assert (WW : u53 * w <= / 1000 * w) by nra.
  assert (UP : u53 * P <= w) by (unfold w; lra). assert (U1 : u53 <= w / 12) by (unfold w; nra).
  replace (4 * u53 * (P + 1)) with (4 * w) in * by (unfold w; ring).
  replace (6 * u53 * X * (P + 1)) with (6 * w * X) by (unfold w; ring).
  replace (15 * u53 * X * (P + 1)) with (15 * w * X) by (unfold w; ring).
  replace (11 * u53 * (P + 1)) with (11 * w) by (unfold w; ring).
  replace (10 * u53 * (P + 1)) with (10 * w) by (unfold w; ring).
  assert (Qa : Rabs (a - - X * (P - 1)) <= 6 * w * X).
  { assert (A0 : Rabs (- X * f2 - - X * (P - 1)) <= X * (4 * w)).
    { replace (- X * f2 - - X * (P - 1)) with (- (X * f2 - X * (P - 1))) by ring. rewrite Rabs_Ropp.
      apply scale_err; [lra|exact F2]. }
    assert (A1 : Rabs (- X * (P - 1)) <= X * (P + 1)) by (apply abs_le; rewrite HX; lra).
    pose proof (step _ _ e5 _ _ A0 A1 H5) as Q. fold a in Q. apply Rle_trans with (1 := Q).
    replace (u53 * (X * (P + 1) + X * (4 * w))) with (X * w + X * (4 * (u53 * w))) by (unfold w; ring). rewrite HX. lra. }
  assert (Qb : Rabs (b - - X * (P + 1)) <= 6 * w * X).
  { assert (A0 : Rabs (X * f1 - - X * (P + 1)) <= X * (4 * w)).
    { replace (X * f1 - - X * (P + 1)) with (X * f1 - X * (- P - 1)) by ring. apply scale_err; [lra|exact F1]. }
    assert (A1 : Rabs (- X * (P + 1)) <= X * (P + 1)) by (apply abs_le; rewrite HX; lra).
    pose proof (step _ _ e6 _ _ A0 A1 H6) as Q. fold b in Q. apply Rle_trans with (1 := Q).
    replace (u53 * (X * (P + 1) + X * (4 * w))) with (X * w + X * (4 * (u53 * w))) by (unfold w; ring). rewrite HX. lra. }
  assert (Qn : Rabs (n - 2 * X) <= 15 * w * X).
  { assert (A0 : Rabs (a - b - 2 * X) <= 12 * w * X).
    { replace (a - b - 2 * X) with ((a - - X * (P - 1)) - (b - - X * (P + 1))) by ring.
      unfold Rminus at 1. apply Rle_trans with (1 := Rabs_triang _ _). rewrite Rabs_Ropp. lra. }
    assert (A1 : Rabs (2 * X) <= 2 * X) by (apply abs_le; lra).
    pose proof (step _ _ e7 _ _ A0 A1 H7) as Q. fold n in Q. apply Rle_trans with (1 := Q).
    rewrite HX in *. lra. }
  assert (Qd : Rabs (d - 2 * P) <= 11 * w).
  { assert (A0 : Rabs (f2 - f1 - 2 * P) <= 8 * w).
    { replace (f2 - f1 - 2 * P) with ((f2 - (P - 1)) - (f1 - (- P - 1))) by ring.
      unfold Rminus at 1. apply Rle_trans with (1 := Rabs_triang _ _). rewrite Rabs_Ropp. lra. }
    assert (A1 : Rabs (2 * P) <= 2 * P) by (apply abs_le; lra).
    pose proof (step _ _ e8 _ _ A0 A1 H8) as Q. fold d in Q. apply Rle_trans with (1 := Q). lra. }
  split; auto. split; auto. split; auto. split; auto.
  assert (D1 : 19 / 10 * P <= d) by (apply abs_le in Qd; lra).
  assert (E1 : Rabs (r * n - d) <= P * (15 * w) + 11 * w).
  { replace (r * n - d) with (r * (n - 2 * X) - (d - 2 * P)) by (rewrite HP; ring).
    unfold Rminus at 1. apply Rle_trans with (1 := Rabs_triang _ _). rewrite Rabs_Ropp, Rabs_mult, (Rabs_right r) by lra.
    assert (r * Rabs (n - 2 * X) <= r * (15 * w * X)) by (apply Rmult_le_compat_l; lra).
    replace (r * (15 * w * X)) with (P * (15 * w)) in H by (rewrite HP; ring). lra. }
  assert (E2 : Rabs (r * (n / d) - 1) <= 9 * w).
  { replace (r * (n / d) - 1) with ((r * n - d) * / d) by (field; lra). rewrite Rabs_mult, Rabs_inv, (Rabs_right d) by lra.
    apply Rmult_le_reg_r with d; [lra|]. rewrite Rmult_assoc, Rinv_l by lra.
    assert (9 * w * (19 / 10 * P) <= 9 * w * d) by (apply Rmult_le_compat_l; lra).
    assert (w * 12 <= w * P) by (apply Rmult_le_compat_l; lra). lra. }
  replace (r * (n / d * (1 + e9))) with (r * (n / d) * (1 + e9)) by ring.
  assert (A1 : Rabs 1 <= 1) by (rewrite Rabs_R1; lra).
  pose proof (step _ _ e9 _ _ E2 A1 H9) as Q. apply Rle_trans with (1 := Q). lra.
Qed.

(** The second step, from X and a point close to 1/r. *)
Lemma second_step x3 f1 f2 e1 e2 e3 e5 h5 e6 e7 e8 e9 :
  Rabs (r * x3 - 1) <= 10 * u53 * (P + 1) ->
  f2 = (r * x3 * (1 + e1) * (1 + e2) - 1) * (1 + e3) -> Rabs e1 <= u53 -> Rabs e2 <= u53 -> Rabs e3 <= u53 ->
  Rabs (f1 - (P - 1)) <= 4 * u53 * (P + 1) ->
  Rabs e5 <= u53 -> Rabs h5 <= bp (-1075) -> Rabs e6 <= u53 -> Rabs e7 <= u53 -> Rabs e8 <= u53 -> Rabs e9 <= u53 ->
  let a := X * f2 * (1 + e5) + h5 in let b := x3 * f1 * (1 + e6) in
  let n := (a - b) * (1 + e7) in let d := (f2 - f1) * (1 + e8) in
  Rabs (f2 - (r * x3 - 1)) <= 3 * u53
  /\ - (11 / 10 * P) <= f2 - f1 <= - (9 / 10 * P)
  /\ Rabs (r * (n / d * (1 + e9)) - 1) <= 9 * u53.
Proof.
  intros T3 E2 H1 H2 H3 F1 H5 Hh H6 H7 H8 H9 a b n d.
  pose proof u53_small as U. pose proof u53_val as U'. pose proof P_range as R.
  set (th := r * x3 - 1) in *.
  assert (Th : Rabs th <= 2 / 10000) by (apply Rle_trans with (1 := T3); nra).
  assert (Y : f2 = ((1 + th) * (1 + e1) * (1 + e2) - 1) * (1 + e3)) by (rewrite E2; unfold th; ring).
  set (et := f2 - th).
  assert (Et : Rabs et <= 3 * u53).
  { assert (A0 : Rabs (1 + th - (1 + th)) <= 0) by (apply abs_le; lra).
    assert (A1 : Rabs (1 + th) <= 1 + / 1000) by (apply abs_le in Th; apply abs_le; lra).
    pose proof (step _ _ e1 _ _ A0 A1 H1) as Q1. pose proof (step _ _ e2 _ _ Q1 A1 H2) as Q2.
    set (w := (1 + th) * (1 + e1) * (1 + e2)) in *.
    assert (Q3 : Rabs (w - 1 - th) <= 0 + u53 * (1 + / 1000 + 0) + u53 * (1 + / 1000 + (0 + u53 * (1 + / 1000 + 0))))
      by (replace (w - 1 - th) with (w - (1 + th)) by ring; exact Q2).
    pose proof (step _ _ e3 _ _ Q3 Th H3) as Q4. rewrite <- Y in Q4. apply Rle_trans with (1 := Q4).
    assert (u53 * u53 <= / 1000 * u53) by nra. assert (u53 * (u53 * u53) <= / 1000 * u53) by nra. lra. }
  split; [exact Et|].
  assert (Ef2 : f2 = th + et) by (unfold et; ring).
  assert (BE : Rabs f2 <= 3 / 10000).
  { rewrite Ef2. apply Rle_trans with (1 := Rabs_triang _ _). lra. }
  set (eps := f1 / (P - 1) - 1).
  assert (Ef1 : f1 = (P - 1) * (1 + eps)) by (unfold eps; field; lra).
  assert (Ep : Rabs eps <= 5 * u53).
  { replace eps with ((f1 - (P - 1)) * / (P - 1)) by (unfold eps; field; lra).
    rewrite Rabs_mult, Rabs_inv, (Rabs_right (P - 1)) by lra. apply Rmult_le_reg_r with (P - 1); [lra|].
    rewrite Rmult_assoc, Rinv_l by lra. nra. }
  assert (B1 : (P - 1) * (999 / 1000) <= f1 <= (P - 1) * (1001 / 1000)).
  { rewrite Ef1. apply abs_le in Ep. split; apply Rmult_le_compat_l; lra. }
  set (D0 := f2 - f1) in *.
  assert (BD : - (11 / 10 * P) <= D0 <= - (9 / 10 * P)) by (unfold D0; apply abs_le in BE; lra).
  split; [exact BD|].
  assert (BD' : (P - 1) * (998 / 1000) <= - D0) by (unfold D0; apply abs_le in BE; lra).
  assert (Hb : bp (-1075) * 1048576 <= / 1000 * u53).
  { unfold u53. assert (bp (-1075) <= bp (-83)) by (apply bp_le; lia).
    assert (E83 : bp (-53) = bp (-83) * bp 30) by (rewrite <- bp_add; reflexivity).
    rewrite (bp_Z 30) in E83 by lia. change (2 ^ 30)%Z with 1073741824%Z in E83. pose proof (bp_pos (-83)). lra. }
  assert (N0 : Rabs (r * (a - b) - D0) <= 41 / 10 * u53 * (P - 1)).
  { replace (r * (a - b) - D0) with ((P - 1) * (et - th * eps) + P * (f2 * e5) + r * h5 - (1 + th) * (f1 * e6)).
    2:{ replace et with (f2 - th) by reflexivity. unfold a, b, D0. replace (r * (X * f2 * (1 + e5) + h5 - x3 * f1 * (1 + e6)))
          with (P * f2 * (1 + e5) + r * h5 - (1 + th) * f1 * (1 + e6)) by (rewrite HP; unfold th; ring).
        rewrite Ef1. ring. }
    assert (T1 : Rabs ((P - 1) * (et - th * eps)) <= (P - 1) * (3001 / 1000 * u53)).
    { rewrite Rabs_mult, (Rabs_right (P - 1)) by lra. apply Rmult_le_compat_l; [lra|].
      unfold Rminus. apply Rle_trans with (1 := Rabs_triang _ _). rewrite Rabs_Ropp, Rabs_mult.
      assert (Rabs th * Rabs eps <= 2 / 10000 * (5 * u53)) by (apply Rmult_le_compat; auto using Rabs_pos). lra. }
    assert (T2 : Rabs (P * (f2 * e5)) <= P * (3 / 10000 * u53)).
    { rewrite Rabs_mult, (Rabs_right P) by lra. apply Rmult_le_compat_l; [lra|]. rewrite Rabs_mult.
      apply Rmult_le_compat; auto using Rabs_pos. }
    assert (T3' : Rabs (r * h5) <= / 1000 * u53).
    { rewrite Rabs_mult, (Rabs_right r) by lra. apply Rle_trans with (2 := Hb). rewrite Rmult_comm.
      apply Rmult_le_compat; auto using Rabs_pos; lra. }
    assert (T4 : Rabs ((1 + th) * (f1 * e6)) <= 1001 / 1000 * ((P - 1) * (1001 / 1000) * u53)).
    { rewrite !Rabs_mult. apply Rmult_le_compat; auto using Rabs_pos.
      - apply Rmult_le_pos; apply Rabs_pos.
      - apply abs_le. apply abs_le in Th. lra.
      - apply Rmult_le_compat; auto using Rabs_pos. rewrite Rabs_right; lra. }
    unfold Rminus at 1. apply Rle_trans with (1 := Rabs_triang _ _). rewrite Rabs_Ropp.
    assert (Q : Rabs ((P - 1) * (et - th * eps) + P * (f2 * e5) + r * h5)
      <= Rabs ((P - 1) * (et - th * eps)) + Rabs (P * (f2 * e5)) + Rabs (r * h5)).
    { apply Rle_trans with (1 := Rabs_triang _ _). apply Rplus_le_compat_r. apply Rabs_triang. }
    assert (0 <= u53 * (P - 12)) by (apply Rmult_le_pos; lra). lra. }
  assert (N1 : Rabs (r * (a - b) / D0 - 1) <= 42 / 10 * u53).
  { replace (r * (a - b) / D0 - 1) with ((r * (a - b) - D0) * / D0) by (field; lra).
    rewrite Rabs_mult, Rabs_inv, (Rabs_left D0) by lra. apply Rmult_le_reg_r with (- D0); [lra|].
    rewrite Rmult_assoc, Rinv_l by lra.
    assert (42 / 10 * u53 * ((P - 1) * (998 / 1000)) <= 42 / 10 * u53 * - D0) by (apply Rmult_le_compat_l; lra).
    assert (0 <= u53 * (P - 1)) by (apply Rmult_le_pos; lra). lra. }
  assert (Z8 : 1 + e8 <> 0). { intros E. pose proof (near_one _ H8) as K. rewrite E in K. rewrite Rabs_left in K; lra. }
  replace (r * (n / d * (1 + e9)) - 1) with (r * (a - b) / D0 * (1 + e7) * / (1 + e8) * (1 + e9) - 1)
    by (unfold n, d; fold D0; field; split; auto; lra).
  pose proof (near_mult _ _ _ _ N1 (near_one _ H7) ltac:(lra)) as Q1.
  pose proof (near_mult _ _ _ _ Q1 (near_inv _ H8) ltac:(lra)) as Q2.
  pose proof (near_mult _ _ _ _ Q2 (near_one _ H9) ltac:(lra)) as Q3. lra.
Qed.
End Steps.

(** ** Numbers and comparisons *)

Definition finp (x : pynum) : Prop := match x with PInt _ => True | PFlt f => fin64 f end.

Lemma leb_val x y : finp x -> finp y -> py_leb x y = true <-> val x <= val y.
Proof.
  destruct x as [a|f], y as [b|g]; cbn [finp]; intros F G; rewrite ?val_sfR; cbn [val].
  - unfold py_leb. cbn [to_ext]. rewrite ext_leb_R, bp_0, !Rmult_1_r. reflexivity.
  - now apply int_fle_R.
  - now apply fle_int_R.
  - now apply fle_R.
Qed.
Lemma leb_f x y : finp x -> finp y -> val y < val x -> py_leb x y = false.
Proof. intros F G L. destruct (py_leb x y) eqn:E; auto. apply leb_val in E; auto. lra. Qed.
Lemma ltb_t x y : finp x -> finp y -> val x < val y -> py_ltb x y = true.
Proof.
  intros F G L. unfold py_ltb. rewrite (proj2 (leb_val x y F G)) by lra. rewrite leb_f; auto.
Qed.
Lemma ltb_f x y : finp x -> finp y -> val y <= val x -> py_ltb x y = false.
Proof.
  intros F G L. unfold py_ltb. rewrite (proj2 (leb_val y x G F)) by lra. apply andb_false_r.
Qed.
Lemma eqb_f x y : finp x -> finp y -> val x <> val y -> py_eqb x y = false.
Proof.
  intros F G N. unfold py_eqb. destruct (Rlt_le_dec (val x) (val y)) as [L|L].
  - rewrite (leb_f y x); auto. apply andb_false_r.
  - rewrite (leb_f x y); auto. lra.
Qed.
Lemma fin_abs x : finp x -> finp (nabs x) /\ val (nabs x) = Rabs (val x).
Proof.
  destruct x as [z|f]; cbn [nabs PNum finp].
  - intros _. split; auto. cbn [val]. now rewrite <- abs_IZR.
  - rewrite !val_sfR. intros F. destruct f as [s| | |s c x]; cbn in F; try contradiction; cbn [SFabs].
    + split; [exact I|]. cbn [sfR]. now rewrite Rabs_R0.
    + split; [exact F|]. pose proof (finite_small c x F). destruct s; cbn [sfR signed]; rewrite ?Rabs_Ropp, Rabs_right; lra.
Qed.
Lemma fin_noinf f : fin64 f -> py_isinf (PFlt f) = false /\ py_isnan (PFlt f) = false.
Proof. destruct f; cbn; try contradiction; auto. Qed.

Definition tol9 : spec_float := S754_finite false 4835703278458517 (-82).
Lemma tol9_eq : (rel_tol : pynum) = PFlt tol9 /\ (default_tol : pynum) = PFlt tol9.
Proof. split; vm_compute; reflexivity. Qed.
Lemma tol9_fin : fin64 tol9.
Proof. reflexivity. Qed.
Lemma tol9_val : 99 / 100000000000 <= sfR tol9 <= 101 / 100000000000.
Proof.
  unfold tol9. cbn [sfR signed]. assert (E : bp (-82) * bp 82 = 1) by (rewrite <- bp_add; apply bp_0).
  rewrite (bp_Z 82) in E by lia. change (2 ^ 82)%Z with 4835703278458516698824704%Z in E. lra.
Qed.
Definition X64 : spec_float := sf_of_Z 100000.
Lemma X64_val : fin64 X64 /\ sfR X64 = 100000.
Proof.
  unfold X64. replace (sf_of_Z 100000) with (S754_finite false 6871947673600000 (-36)) by (vm_compute; reflexivity).
  split; [reflexivity|]. cbn [sfR signed]. assert (E : bp (-36) * bp 36 = 1) by (rewrite <- bp_add; apply bp_0).
  rewrite (bp_Z 36) in E by lia. change (2 ^ 36)%Z with 68719476736%Z in E. lra.
Qed.
Lemma negX_val : fin64 (sf_of_Z (-100000)) /\ sfR (sf_of_Z (-100000)) = Ropp 100000.
Proof.
  replace (sf_of_Z (-100000)) with (S754_finite true 6871947673600000 (-36)) by (vm_compute; reflexivity).
  split; [reflexivity|]. cbn [sfR signed]. assert (E : bp (-36) * bp 36 = 1) by (rewrite <- bp_add; apply bp_0).
  rewrite (bp_Z 36) in E by lia. change (2 ^ 36)%Z with 68719476736%Z in E. lra.
Qed.

(** ** Operations without underflow *)

Lemma nearest_err_normal v w : nearest v w -> bp (-1022) <= v -> Rabs (w - v) <= u53 * v.
Proof.
  intros (M & q & (B1 & B2) & _ & A & _) L. rewrite Rabs_minus_sym. apply Rle_trans with (1 := A).
  assert (LM : (-1022 < M)%Z) by (apply bp_lt_inv; lra).
  rewrite fexp64_eq, Z.max_l by lia. unfold u53.
  replace (bp (M - 53) / 2) with (bp (-53) * bp (M - 1)).
  - apply Rmult_le_compat_l; auto. left. apply bp_pos.
  - replace (M - 53)%Z with (-53 + (M - 1) + 1)%Z by lia. rewrite !bp_add, bp_1. field.
Qed.
Lemma rounds_normal v f : rounds v f -> bp (-1022) <= Rabs v <= bp 1022 ->
  fin64 f /\ exists e, Rabs e <= u53 /\ sfR f = v * (1 + e).
Proof.
  intros R (L & H). destruct (rounds_err v f R H) as (F & _). split; auto. apply rel_of.
  pose proof (bp_pos (-1022)) as P. destruct R as [s E0 ->|w V N S|w V N S].
  - rewrite E0, Rabs_R0 in L. lra.
  - rewrite (Rabs_right v) in * by lra. pose proof (nearest_err_normal v w N L) as E.
    destruct S as [Z|c x B Z|Z]; cbn in F; try contradiction; cbn [sfR signed].
    + rewrite Z in E. exact E.
    + rewrite <- Z. exact E.
  - rewrite (Rabs_left v) in * by lra. pose proof (nearest_err_normal (- v) w N L) as E.
    replace (w - - v) with (- (- w - v)) in E by ring. rewrite Rabs_Ropp in E.
    destruct S as [Z|c x B Z|Z]; cbn in F; try contradiction; cbn [sfR signed].
    + rewrite Z, Ropp_0 in E. exact E.
    + rewrite <- Z. exact E.
Qed.
Lemma mul_norm x y : fin64 x -> fin64 y -> bp (-1022) <= Rabs (sfR x * sfR y) <= bp 1022 ->
  exists e, Rabs e <= u53 /\ fin64 (SFmul f64 e64 x y) /\ sfR (SFmul f64 e64 x y) = sfR x * sfR y * (1 + e).
Proof.
  intros X Y L. destruct (rounds_normal _ _ (mul_rounds x y X Y) L) as (F & e & He & E). eauto.
Qed.
Lemma div_norm x y : fin64 x -> fin64 y -> sfR y <> 0 -> bp (-1022) <= Rabs (sfR x / sfR y) <= bp 1022 ->
  exists e, Rabs e <= u53 /\ fin64 (SFdiv f64 e64 x y) /\ sfR (SFdiv f64 e64 x y) = sfR x / sfR y * (1 + e).
Proof.
  intros X Y Z L. destruct (rounds_normal _ _ (div_rounds x y X Y Z) L) as (F & e & He & E). eauto.
Qed.

Lemma big_bp : 10000000000000000000000000000000000000000 <= bp 140.
Proof. rewrite bp_Z by lia. apply IZR_le. vm_compute. discriminate. Qed.
Lemma small_bp : bp (-140) <= 1 / 1000000000000000000000000000000000000000.
Proof.
  assert (E : bp (-140) * bp 140 = 1) by (rewrite <- bp_add; apply bp_0). pose proof big_bp. pose proof (bp_pos (-140)). nra.
Qed.

(** ** [util_func] and the tests of the loop *)

Definition one64 : spec_float := S754_finite false 4503599627370496 (-52).
Definition F64 (x t cap : spec_float) : spec_float :=
  SFsub f64 e64 (SFdiv f64 e64 (SFmul f64 e64 x t) cap) one64.

Lemma F64_eq x t cap : fin64 cap -> 0 < sfR cap -> util_func (PFlt t) (PFlt cap) x = Ok (PFlt (F64 (tofl x) t cap)).
Proof.
  intros F L. unfold util_func. cbn [neqb nint PNum]. rewrite eqb_f; [| |exact I|rewrite val_sfR; cbn [val]; lra]; [|exact F].
  change (nflt 1 1) with (fl 1 1). rewrite one_fin. destruct x; reflexivity.
Qed.

Lemma abs_range lo hi x k : Rabs x = k -> lo <= k <= hi -> lo <= Rabs x <= hi.
Proof. intros ->. auto. Qed.

Lemma F64_val x t cap : fin64 x -> fin64 t -> fin64 cap ->
  bp (-500) <= sfR cap <= bp 500 -> bp (-140) <= Rabs (sfR x * (sfR t / sfR cap)) <= bp 140 ->
  exists e1 e2 e3, Rabs e1 <= u53 /\ Rabs e2 <= u53 /\ Rabs e3 <= u53 /\ fin64 (F64 x t cap) /\
    sfR (F64 x t cap) = (sfR x * (sfR t / sfR cap) * (1 + e1) * (1 + e2) - 1) * (1 + e3).
Proof.
  intros X T C BC BQ. pose proof (bp_pos (-500)) as P5. pose proof (bp_pos (-140)) as P1. pose proof u53_small as U.
  assert (E0 : sfR x * sfR t = sfR x * (sfR t / sfR cap) * sfR cap) by (field; lra).
  set (q := sfR x * (sfR t / sfR cap)) in *.
  destruct (mul_norm x t X T) as (e1 & H1 & F1 & E1).
  { rewrite E0, Rabs_mult, (Rabs_right (sfR cap)) by lra. split.
    - apply Rle_trans with (bp (-140) * bp (-500)); [rewrite <- bp_add; apply bp_le; lia|apply Rmult_le_compat; lra].
    - apply Rle_trans with (bp 140 * bp 500); [apply Rmult_le_compat; try lra; apply Rabs_pos|rewrite <- bp_add; apply bp_le; lia]. }
  assert (E2' : sfR (SFmul f64 e64 x t) / sfR cap = q * (1 + e1)) by (rewrite E1, E0; field; lra).
  assert (H11 : / 2 <= Rabs (1 + e1) <= 2).
  { apply abs_le in H1. rewrite Rabs_right; lra. }
  assert (Bq : bp (-141) <= Rabs (q * (1 + e1)) <= bp 141).
  { rewrite Rabs_mult. split.
    - replace (bp (-141)) with (bp (-140) * / 2).
      + apply Rmult_le_compat; lra.
      + change (-140)%Z with (-141 + 1)%Z. rewrite bp_add, bp_1. field.
    - change 141%Z with (140 + 1)%Z. rewrite bp_add, bp_1. apply Rmult_le_compat; try lra; apply Rabs_pos. }
  destruct (div_norm _ cap F1 C) as (e2 & H2 & F2 & E2); [lra| |].
  { rewrite E2'. split; [apply Rle_trans with (2 := proj1 Bq)|apply Rle_trans with (1 := proj2 Bq)]; apply bp_le; lia. }
  rewrite E2' in E2.
  destruct (sub_rel _ one64 F2 eq_refl) as (e3 & H3 & F3 & E3).
  { unfold one64. rewrite one_val, E2. unfold Rminus. apply Rle_trans with (1 := Rabs_triang _ _).
    rewrite Rabs_mult, Rabs_Ropp, Rabs_R1.
    assert (Rabs (1 + e2) <= 2) by (apply abs_le in H2; rewrite Rabs_right; lra).
    assert (Rabs (q * (1 + e1)) * Rabs (1 + e2) <= bp 141 * 2) by (apply Rmult_le_compat; try apply Rabs_pos; lra).
    assert (1 <= bp 142) by (apply bp_ge_1; lia).
    assert (bp 141 * 2 = bp 142) by (change 142%Z with (141 + 1)%Z; rewrite bp_add, bp_1; ring).
    assert (bp (142 + 1) <= bp 1022) by (apply bp_le; lia). rewrite <- bp_double in *. lra. }
  exists e1, e2, e3. split; auto. split; auto. split; auto. split; [exact F3|].
  unfold F64. rewrite E3, E2. unfold one64. rewrite one_val. reflexivity.
Qed.

Lemma isclose_eq a b d m1 m2 : finp a -> finp b -> nsub b a = PFlt d -> nmul rel_tol b = PFlt m1 -> nmul rel_tol a = PFlt m2 ->
  fin64 d -> fin64 m1 -> fin64 m2 ->
  (val a <> val b -> Rabs (sfR m1) < Rabs (sfR d) -> Rabs (sfR m2) < Rabs (sfR d) -> sfR tol9 < Rabs (sfR d) ->
     isclose a b default_tol = Ok false)
  /\ (Rabs (sfR d) <= Rabs (sfR m1) \/ Rabs (sfR d) <= Rabs (sfR m2) -> isclose a b default_tol = Ok true).
Proof.
  intros A B Ed E1 E2 D M1 M2.
  assert (NA : forall x, finp x -> py_isinf x = false) by (intros [z|f] Hf; [reflexivity|now apply fin_noinf]).
  assert (T0 : py_ltb default_tol (fl 0 1) = false) by (vm_compute; reflexivity).
  destruct (fin_abs (PFlt d) D) as (Ad & Vd), (fin_abs (PFlt m1) M1) as (A1 & V1), (fin_abs (PFlt m2) M2) as (A2 & V2).
  rewrite val_sfR in Vd, V1, V2.
  unfold isclose. change (nltb default_tol (nflt 0 1)) with (py_ltb default_tol (fl 0 1)). rewrite T0, Ed, E1, E2.
  cbn [neqb nisinf nleb PNum]. rewrite (NA a A), (NA b B). cbn [orb].
  rewrite (proj2 tol9_eq). split.
  - intros N L1 L2 L3. rewrite (eqb_f a b) by auto.
    rewrite (leb_f _ _ Ad A1), (leb_f _ _ Ad A2), (leb_f _ (PFlt tol9) Ad tol9_fin); auto; rewrite ?val_sfR; lra.
  - intros H. destruct (py_eqb a b); auto. destruct H as [H|H].
    + rewrite (proj2 (leb_val _ _ Ad A1)) by lra. reflexivity.
    + rewrite (proj2 (leb_val _ _ Ad A2)) by lra. rewrite orb_true_r. reflexivity.
Qed.

(** ** The two steps of the secant method *)

Lemma sec_step (func : pynum -> res pynum) fuel lo hi na x1 x2 x3 i f1 f2 x3' :
  keep_going x1 x2 default_tol (nsub x2 x1) = Ok true -> func x2 = Ok f2 -> func x1 = Ok f1 ->
  nisinf (nmul x1 f2) = false -> nisinf (nmul x2 f1) = false -> nisinf f2 = false -> nisinf f1 = false ->
  isclose f2 f1 default_tol = Ok false ->
  pydiv (nsub (nmul x1 f2) (nmul x2 f1)) (nsub f2 f1) = Ok x3' -> nisnan x3' = false -> nisinf x3' = false ->
  (i + 1 < 20000)%Z ->
  sec_loop func (S fuel) lo hi default_tol default_max_its false na x1 x2 x3 i
  = sec_loop func fuel lo hi default_tol default_max_its false na x2 x3' (Some x3') (i + 1).
Proof.
  intros K E2 E1 I1 I2 I3 I4 C D N I L.
  cbn [sec_loop]. rewrite K. cbn [bind negb]. rewrite E2. cbn [bind]. rewrite E1. cbn [bind].
  rewrite I1, I2, I3, I4. cbn [orb]. rewrite C. cbn [bind]. rewrite D. cbn [bind]. rewrite N, I. cbn [orb].
  unfold default_max_its. replace (20000 <=? i + 1)%Z with false by (symmetry; apply Z.leb_gt; lia). reflexivity.
Qed.

Local Opaque SFadd SFsub SFmul SFdiv.
Section Secant.
Variables (t cap : spec_float).
Hypothesis Ft : fin64 t.
Hypothesis Fc : fin64 cap.
Hypothesis BC : bp (-500) <= sfR cap <= bp 500.
Let r := sfR t / sfR cap.
Hypothesis Hr : 1 / 8192 <= r <= 1048576.
Let P := 100000 * r.

Let PR : 12 <= P <= 104857600000.
Proof. apply (P_range 100000 r P eq_refl eq_refl Hr). Qed.
Let Cpos : 0 < sfR cap.
Proof. pose proof (bp_pos (-500)). lra. Qed.
Let w := u53 * (P + 1).
Let WR : 0 < w <= 12 / 1000000.
Proof. pose proof u53_small. pose proof u53_val. pose proof PR. unfold w. split; nra. Qed.

Let range v lo hi : 1 / 1000000000000000000000000000000 <= lo -> hi <= 1000000000000000000000000000000000000 ->
  lo <= Rabs v <= hi -> bp (-140) <= Rabs v <= bp 140.
Proof. intros L H B. pose proof big_bp. pose proof small_bp. lra. Qed.
Let wide v : bp (-140) <= Rabs v <= bp 140 -> bp (-1022) <= Rabs v <= bp 1022.
Proof.
  intros (A & B). split; [apply Rle_trans with (2 := A)|apply Rle_trans with (1 := B)]; apply bp_le; lia.
Qed.
Let upper v : Rabs v <= 1000000000000000000000000000000000000 -> Rabs v <= bp 1022.
Proof. intros H. pose proof big_bp. apply Rle_trans with (bp 140); [lra|apply bp_le; lia]. Qed.

(** The function at the two ends. *)
Let f2 := F64 X64 t cap.
Let f1 := F64 (sf_of_Z (-100000)) t cap.
Lemma ends_val : fin64 f2 /\ fin64 f1 /\ Rabs (sfR f2 - (P - 1)) <= 4 * u53 * (P + 1)
  /\ Rabs (sfR f1 - (- P - 1)) <= 4 * u53 * (P + 1).
Proof.
  destruct X64_val as (FX & EX), negX_val as (FN & EN). pose proof PR as PR.
  destruct (F64_val X64 t cap FX Ft Fc BC) as (e1 & e2 & e3 & H1 & H2 & H3 & F2 & E2).
  { rewrite EX. fold r P. apply range with 12 104857600000; try lra. rewrite Rabs_right; lra. }
  destruct (F64_val _ t cap FN Ft Fc BC) as (d1 & d2 & d3 & G1 & G2 & G3 & F1 & E1).
  { rewrite EN. fold r. replace (Ropp 100000 * r) with (- P) by (unfold P; ring).
    apply range with 12 104857600000; try lra. rewrite Rabs_Ropp, Rabs_right; lra. }
  split; [exact F2|]. split; [exact F1|]. rewrite EX in E2. rewrite EN in E1. fold r in E1, E2. split.
  - unfold f2. rewrite E2. fold P. pose proof (func_err P 1 e1 e2 e3 ltac:(lra) (or_introl eq_refl) H1 H2 H3) as Q.
    rewrite !Rmult_1_l in Q. exact Q.
  - unfold f1. rewrite E1. replace (Ropp 100000 * r) with (-1 * P) by (unfold P; ring).
    replace (- P - 1) with (-1 * P - 1) by ring.
    exact (func_err P (-1) d1 d2 d3 ltac:(lra) (or_intror eq_refl) G1 G2 G3).
Qed.

Let ends_range : P - 1 - / 10000 <= sfR f2 <= P - 1 + / 10000 /\ - P - 1 - / 10000 <= sfR f1 <= - P - 1 + / 10000.
Proof.
  destruct ends_val as (_ & _ & A & B). pose proof WR as W.
  replace (4 * u53 * (P + 1)) with (4 * w) in * by (unfold w; ring). apply abs_le in A, B. lra.
Qed.

Let a1 := SFmul f64 e64 (sf_of_Z (-100000)) f2.
Let b1 := SFmul f64 e64 X64 f1.
Let x3 := SFdiv f64 e64 (SFsub f64 e64 a1 b1) (SFsub f64 e64 f2 f1).
Lemma x3_val : fin64 a1 /\ fin64 b1 /\ fin64 (SFsub f64 e64 f2 f1) /\ sfR (SFsub f64 e64 f2 f1) <> 0
  /\ fin64 x3 /\ Rabs (r * sfR x3 - 1) <= 10 * u53 * (P + 1).
Proof.
  destruct X64_val as (FX & EX), negX_val as (FN & EN). pose proof PR as PR. pose proof WR as W.
  destruct ends_val as (F2 & F1 & V2 & V1). destruct ends_range as (R2 & R1).
  pose proof u53_small as U.
  destruct (mul_norm _ f2 FN F2) as (e5 & H5 & Fa & Ea).
  { rewrite EN. apply wide, range with 1 1000000000000000000; try lra. rewrite Rabs_left; lra. }
  destruct (mul_norm X64 f1 FX F1) as (e6 & H6 & Fb & Eb).
  { rewrite EX. apply wide, range with 1 1000000000000000000; try lra. rewrite Rabs_left; lra. }
  rewrite EN in Ea. rewrite EX in Eb. fold a1 in Fa, Ea. fold b1 in Fb, Eb.
  destruct (sub_rel f2 f1 F2 F1) as (e8 & H8 & Fd & Ed). { apply upper. rewrite Rabs_right; lra. }
  assert (Z0 : Rabs 0 <= u53) by (rewrite Rabs_R0; lra).
  destruct (first_step 100000 r P eq_refl eq_refl Hr (sfR f1) (sfR f2) e5 e6 0 e8 0 V2 V1 H5 H6 Z0 H8 Z0) as (Qa & Qb & _).
  rewrite <- Ea in Qa. rewrite <- Eb in Qb.
  replace (6 * u53 * 100000 * (P + 1)) with (600000 * w) in * by (unfold w; ring).
  destruct (sub_rel a1 b1 Fa Fb) as (e7 & H7 & Fn & En). { apply upper. apply abs_le. apply abs_le in Qa, Qb. lra. }
  destruct (first_step 100000 r P eq_refl eq_refl Hr (sfR f1) (sfR f2) e5 e6 e7 e8 0 V2 V1 H5 H6 H7 H8 Z0) as (_ & _ & Qn & Qd & Q0).
  rewrite <- Ea, <- Eb, <- En, <- Ed in *.
  replace (15 * u53 * 100000 * (P + 1)) with (1500000 * w) in * by (unfold w; ring).
  replace (11 * u53 * (P + 1)) with (11 * w) in * by (unfold w; ring).
  replace (10 * u53 * (P + 1)) with (10 * w) in * by (unfold w; ring).
  apply abs_le in Qn, Qd. rewrite Rplus_0_r, Rmult_1_r in Q0.
  set (n := SFsub f64 e64 a1 b1) in *. set (d := SFsub f64 e64 f2 f1) in *.
  destruct (div_norm n d Fn Fd) as (e9 & H9 & F3 & E3); [lra| |].
  { assert (V : 9 / 10 <= r * (sfR n / sfR d) <= 11 / 10) by (apply abs_le in Q0; lra).
    apply wide, range with (1 / 10000000) 100000; try lra.
    assert (0 < sfR n / sfR d) by (apply Rdiv_lt_0_compat; lra). rewrite Rabs_right by lra. split.
    - apply Rmult_le_reg_l with r; [lra|]. lra.
    - apply Rmult_le_reg_l with r; [lra|]. lra. }
  fold x3 in F3, E3.
  split; [exact Fa|]. split; [exact Fb|]. split; [exact Fd|]. split; [lra|]. split; [exact F3|].
  destruct (first_step 100000 r P eq_refl eq_refl Hr (sfR f1) (sfR f2) e5 e6 e7 e8 e9 V2 V1 H5 H6 H7 H8 H9) as (_ & _ & _ & _ & Q).
  rewrite <- Ea, <- Eb, <- En, <- Ed, <- E3 in Q. replace (10 * w) with (10 * u53 * (P + 1)) by (unfold w; ring). exact Q.
Qed.

Let x3_range : 9 / 10 <= r * sfR x3 <= 11 / 10 /\ 1 / 2000000 <= sfR x3 <= 10000.
Proof.
  destruct x3_val as (_ & _ & _ & _ & _ & Q). pose proof WR as W.
  replace (10 * u53 * (P + 1)) with (10 * w) in Q by (unfold w; ring). apply abs_le in Q.
  split; [lra|]. split; apply Rmult_le_reg_l with r; lra.
Qed.

Let g2 := F64 x3 t cap.
Let a2 := SFmul f64 e64 X64 g2.
Let b2 := SFmul f64 e64 x3 f2.
Let x4 := SFdiv f64 e64 (SFsub f64 e64 a2 b2) (SFsub f64 e64 g2 f2).
Lemma x4_val : fin64 g2 /\ Rabs (sfR g2) <= / 1000 /\ fin64 a2 /\ fin64 b2 /\ fin64 (SFsub f64 e64 g2 f2)
  /\ sfR (SFsub f64 e64 g2 f2) <> 0 /\ fin64 x4 /\ Rabs (r * sfR x4 - 1) <= 9 * u53.
Proof.
  destruct X64_val as (FX & EX). pose proof PR as PR. pose proof WR as W. pose proof u53_small as U.
  destruct ends_val as (F2 & _ & V2 & _). destruct ends_range as (R2 & _).
  destruct x3_val as (_ & _ & _ & _ & F3 & V3). destruct x3_range as (R3 & S3).
  assert (Z0 : Rabs 0 <= u53) by (rewrite Rabs_R0; lra).
  assert (Zh : Rabs 0 <= bp (-1075)) by (rewrite Rabs_R0; left; apply bp_pos).
  destruct (F64_val x3 t cap F3 Ft Fc BC) as (e1 & e2 & e3 & H1 & H2 & H3 & Fg & Eg).
  { fold r. apply range with (9 / 10) (11 / 10); try lra. rewrite Rmult_comm, Rabs_right; lra. }
  fold g2 in Fg, Eg. fold r in Eg. rewrite (Rmult_comm (sfR x3) r) in Eg.
  pose proof (second_step 100000 r P eq_refl eq_refl Hr (sfR x3) (sfR f2) (sfR g2) e1 e2 e3) as ST.
  destruct (ST 0 0 0 0 0 0 V3 Eg H1 H2 H3 V2 Z0 Zh Z0 Z0 Z0 Z0) as (Qg & QD & _).
  assert (Bg : Rabs (sfR g2) <= / 1000).
  { replace (10 * u53 * (P + 1)) with (10 * w) in V3 by (unfold w; ring).
    apply abs_le in Qg, V3. pose proof u53_val. apply abs_le. lra. }
  destruct (mul_rel X64 g2 FX Fg) as (e5 & h5 & H5 & Hh & Fa & Ea).
  { apply upper. rewrite EX. apply abs_le in Bg. apply abs_le. lra. }
  destruct (mul_norm x3 f2 F3 F2) as (e6 & H6 & Fb & Eb).
  { assert (V : 5 <= r * (sfR x3 * sfR f2) <= 1000000000000).
    { rewrite <- Rmult_assoc. split.
      - apply Rle_trans with (9 / 10 * 10); [lra|apply Rmult_le_compat; lra].
      - apply Rle_trans with (11 / 10 * 200000000000); [apply Rmult_le_compat; lra|lra]. }
    assert (0 < sfR x3 * sfR f2) by (apply Rmult_lt_0_compat; lra).
    apply wide, range with (1 / 10000000) 10000000000000000; try lra. rewrite Rabs_right by lra.
    split; apply Rmult_le_reg_l with r; lra. }
  rewrite EX in Ea. fold a2 in Fa, Ea. fold b2 in Fb, Eb.
  destruct (sub_rel g2 f2 Fg F2) as (e8 & H8 & Fd & Ed). { apply upper. apply abs_le. lra. }
  destruct (sub_rel a2 b2 Fa Fb) as (e7 & H7 & Fn & En).
  { apply upper. apply abs_le.
    assert (Bb : 0 <= sfR x3 * sfR f2 <= 10000 * 200000000000).
    { split; [apply Rmult_le_pos; lra|apply Rmult_le_compat; lra]. }
    assert (Ba : Rabs (sfR a2) <= 1000).
    { rewrite Ea. apply Rle_trans with (1 := Rabs_triang _ _). rewrite Rabs_mult.
      assert (bp (-1075) <= 1) by (rewrite <- bp_0; apply bp_le; lia).
      assert (Rabs (100000 * sfR g2) <= 100) by (apply abs_le in Bg; apply abs_le; lra).
      assert (Rabs (1 + e5) <= 2) by (apply abs_le in H5; apply abs_le; lra).
      pose proof (mult_abs (100000 * sfR g2) (1 + e5) 100 2 H0 H4). lra. }
    assert (Bb' : Rabs (sfR b2) <= 10000 * 200000000000 * 2).
    { rewrite Eb, Rabs_mult. apply mult_abs; [rewrite Rabs_right; lra|apply abs_le in H6; apply abs_le; lra]. }
    apply abs_le in Ba, Bb'. lra. }
  destruct (ST e5 h5 e6 e7 e8 0 V3 Eg H1 H2 H3 V2 H5 Hh H6 H7 H8 Z0) as (_ & _ & Q0).
  rewrite <- Ea, <- Eb, <- En, <- Ed, Rplus_0_r, Rmult_1_r in Q0.
  assert (Dn : sfR (SFsub f64 e64 g2 f2) < 0).
  { rewrite Ed. apply abs_le in H8. rewrite <- (Rmult_0_l (1 + e8)). apply Rmult_lt_compat_r; lra. }
  set (n := SFsub f64 e64 a2 b2) in *. set (d := SFsub f64 e64 g2 f2) in *.
  destruct (div_norm n d Fn Fd) as (e9 & H9 & F4 & E4); [lra| |].
  { assert (V : 9 / 10 <= r * (sfR n / sfR d) <= 11 / 10) by (apply abs_le in Q0; lra).
    assert (0 < sfR n / sfR d).
    { apply Rmult_lt_reg_l with r; lra. }
    apply wide, range with (1 / 10000000) 100000; try lra. rewrite Rabs_right by lra.
    split; apply Rmult_le_reg_l with r; lra. }
  fold x4 in F4, E4.
  split; [exact Fg|]. split; [exact Bg|]. split; [exact Fa|]. split; [exact Fb|]. split; [exact Fd|]. split; [lra|]. split; [exact F4|].
  destruct (ST e5 h5 e6 e7 e8 e9 V3 Eg H1 H2 H3 V2 H5 Hh H6 H7 H8 H9) as (_ & _ & Q).
  rewrite <- Ea, <- Eb, <- En, <- Ed, <- E4 in Q. exact Q.
Qed.

(** The tests of the loop. *)
Lemma close_first : isclose (PFlt f2) (PFlt f1) default_tol = Ok false.
Proof.
  destruct ends_val as (F2 & F1 & _). destruct ends_range as (R2 & R1). pose proof PR as PR. pose proof u53_small as U.
  pose proof tol9_val as TV.
  destruct (sub_rel f1 f2 F1 F2) as (e & He & Fd & Ed). { apply upper. apply abs_le. lra. }
  destruct (mul_norm tol9 f1 tol9_fin F1) as (e1 & H1 & M1 & V1).
  { apply wide, range with (1 / 1000000000) 1000000000000; try lra. rewrite Rabs_left1; nra. }
  destruct (mul_norm tol9 f2 tol9_fin F2) as (e2 & H2 & M2 & V2).
  { apply wide, range with (1 / 1000000000) 1000000000000; try lra. rewrite Rabs_right; nra. }
  apply abs_le in He.
  assert (Ld : P <= Rabs (sfR (SFsub f64 e64 f1 f2))).
  { rewrite Ed, Rabs_mult, (Rabs_left (sfR f1 - sfR f2)), (Rabs_right (1 + e)) by lra. nra. }
  assert (small : forall f e', Rabs f <= 2 * P -> Rabs e' <= u53 -> Rabs (sfR tol9 * f * (1 + e')) < P).
  { intros f e' Hf He'. rewrite !Rabs_mult, (Rabs_right (sfR tol9)) by lra.
    assert (Rabs (1 + e') <= 2) by (apply abs_le in He'; apply abs_le; lra).
    apply Rle_lt_trans with (101 / 100000000000 * (2 * P) * 2); [|lra].
    apply Rmult_le_compat; auto using Rabs_pos; [apply Rmult_le_pos; [lra|apply Rabs_pos]|].
    apply Rmult_le_compat; auto using Rabs_pos; lra. }
  refine (proj1 (isclose_eq (PFlt f2) (PFlt f1) _ _ _ F2 F1 eq_refl _ _ Fd M1 M2) _ _ _ _).
  - now rewrite (proj1 tol9_eq).
  - now rewrite (proj1 tol9_eq).
  - rewrite !val_sfR. lra.
  - rewrite V1. apply Rlt_le_trans with (2 := Ld). apply small; auto. rewrite Rabs_left; lra.
  - rewrite V2. apply Rlt_le_trans with (2 := Ld). apply small; auto. rewrite Rabs_right; lra.
  - apply Rlt_le_trans with (2 := Ld). lra.
Qed.

Lemma go_second : keep_going (PInt 100000) (PFlt x3) default_tol (nsub (PFlt x3) (PInt 100000)) = Ok true.
Proof.
  destruct X64_val as (FX & EX). destruct x3_val as (_ & _ & _ & _ & F3 & _). destruct x3_range as (_ & S3).
  pose proof u53_small as U. pose proof tol9_val as TV.
  destruct (sub_rel x3 X64 F3 FX) as (e & He & Fd & Ed). { apply upper. rewrite EX. apply abs_le. lra. }
  destruct (mul_norm tol9 x3 tol9_fin F3) as (e1 & H1 & M1 & V1).
  { apply wide, range with (1 / 10000000000000000000) 1; try lra. rewrite Rabs_right; nra. }
  destruct (mul_norm tol9 X64 tol9_fin FX) as (e2 & H2 & M2 & V2).
  { rewrite EX. apply wide, range with (1 / 10000000000000000000) 1; try lra. rewrite Rabs_right; nra. }
  apply abs_le in He, H1, H2. rewrite EX in *.
  assert (Ld : 1 < Rabs (sfR (SFsub f64 e64 x3 X64))).
  { rewrite Ed, Rabs_mult, (Rabs_left (sfR x3 - 100000)), (Rabs_right (1 + e)) by lra. nra. }
  assert (C : isclose (PInt 100000) (PFlt x3) default_tol = Ok false).
  { refine (proj1 (isclose_eq (PInt 100000) (PFlt x3) _ _ _ I F3 eq_refl _ _ Fd M1 M2) _ _ _ _).
    - now rewrite (proj1 tol9_eq).
    - now rewrite (proj1 tol9_eq).
    - rewrite val_sfR. cbn [val]. lra.
    - rewrite V1. apply Rlt_trans with (2 := Ld). pose proof (mult3 (sfR tol9) (sfR x3) (1 + e1) (101 / 100000000000) 10000 2 ltac:(lra) ltac:(lra) ltac:(lra)). rewrite Rabs_right; lra.
    - rewrite V2. apply Rlt_trans with (2 := Ld). pose proof (mult3 (sfR tol9) 100000 (1 + e2) (101 / 100000000000) 100000 2 ltac:(lra) ltac:(lra) ltac:(lra)). rewrite Rabs_right; lra.
    - apply Rlt_trans with (2 := Ld). lra. }
  unfold keep_going. rewrite C. cbn [bind negb].
  change (nsub (PFlt x3) (PInt 100000)) with (PFlt (SFsub f64 e64 x3 X64)).
  destruct (fin_abs (PFlt (SFsub f64 e64 x3 X64)) Fd) as (Ad & Vd). rewrite val_sfR in Vd.
  change (nltb default_tol ?y) with (py_ltb default_tol y). rewrite (proj2 tol9_eq).
  rewrite ltb_t; [reflexivity|exact tol9_fin|exact Ad|rewrite Vd, val_sfR; lra].
Qed.

Lemma close_second : isclose (PFlt g2) (PFlt f2) default_tol = Ok false.
Proof.
  destruct ends_val as (F2 & _). destruct ends_range as (R2 & _). destruct x4_val as (Fg & Bg & _).
  pose proof PR as PR. pose proof u53_small as U. pose proof tol9_val as TV.
  destruct (sub_rel f2 g2 F2 Fg) as (e & He & Fd & Ed). { apply upper. apply abs_le in Bg. apply abs_le. lra. }
  destruct (mul_norm tol9 f2 tol9_fin F2) as (e1 & H1 & M1 & V1).
  { apply wide, range with (1 / 1000000000) 1000000000000; try lra. rewrite Rabs_right; nra. }
  destruct (mul_rel tol9 g2 tol9_fin Fg) as (e2 & h2 & H2 & Hh & M2 & V2).
  { apply upper. apply abs_le in Bg. apply abs_le. nra. }
  apply abs_le in He, H1, Bg.
  assert (Ld : P / 2 <= Rabs (sfR (SFsub f64 e64 f2 g2))).
  { rewrite Ed, Rabs_mult, (Rabs_right (sfR f2 - sfR g2)), (Rabs_right (1 + e)) by lra. nra. }
  refine (proj1 (isclose_eq (PFlt g2) (PFlt f2) _ _ _ Fg F2 eq_refl _ _ Fd M1 M2) _ _ _ _).
  - now rewrite (proj1 tol9_eq).
  - now rewrite (proj1 tol9_eq).
  - rewrite !val_sfR. lra.
  - rewrite V1. apply Rlt_le_trans with (2 := Ld).
    pose proof (mult3 (sfR tol9) (sfR f2) (1 + e1) (101 / 100000000000) (2 * P) 2 ltac:(lra) ltac:(lra) ltac:(lra)).
    rewrite Rabs_right; lra.
  - rewrite V2. apply Rlt_le_trans with (2 := Ld). apply Rle_lt_trans with (1 := Rabs_triang _ _).
    assert (bp (-1075) <= 1) by (rewrite <- bp_0; apply bp_le; lia).
    assert (Rabs (sfR tol9 * sfR g2) <= 1) by (apply abs_le; nra).
    assert (Rabs (1 + e2) <= 2) by (apply abs_le in H2; apply abs_le; lra).
    rewrite Rabs_mult. pose proof (mult_abs (sfR tol9 * sfR g2) (1 + e2) 1 2 H0 H3). lra.
  - apply Rlt_le_trans with (2 := Ld). lra.
Qed.

Lemma stop_third : keep_going (PFlt x3) (PFlt x4) default_tol (nsub (PFlt x4) (PFlt x3)) = Ok false.
Proof.
  destruct x3_val as (_ & _ & _ & _ & F3 & V3). destruct x3_range as (_ & S3).
  destruct x4_val as (_ & _ & _ & _ & _ & _ & F4 & V4). pose proof u53_small as U. pose proof u53_val as U'.
  pose proof tol9_val as TV. pose proof PR as PR.
  assert (S4 : 1 / 2000000 <= sfR x4 <= 10000).
  { apply abs_le in V4. split; apply Rmult_le_reg_l with r; lra. }
  destruct (sub_rel x4 x3 F4 F3) as (e & He & Fd & Ed). { apply upper. apply abs_le. lra. }
  destruct (mul_norm tol9 x4 tol9_fin F4) as (e1 & H1 & M1 & V1).
  { apply wide, range with (1 / 10000000000000000000) 1; try lra. rewrite Rabs_right; nra. }
  destruct (mul_norm tol9 x3 tol9_fin F3) as (e2 & H2 & M2 & V2).
  { apply wide, range with (1 / 10000000000000000000) 1; try lra. rewrite Rabs_right; nra. }
  assert (D : Rabs (r * (sfR x4 - sfR x3)) <= 9 * u53 + 10 * u53 * (P + 1)).
  { replace (r * (sfR x4 - sfR x3)) with ((r * sfR x4 - 1) - (r * sfR x3 - 1)) by ring.
    unfold Rminus at 1. apply Rle_trans with (1 := Rabs_triang _ _). rewrite Rabs_Ropp. lra. }
  rewrite Rabs_mult, (Rabs_right r) in D by lra. set (dx := Rabs (sfR x4 - sfR x3)) in *.
  assert (Pd : 0 <= dx) by apply Rabs_pos.
  assert (Bd : Rabs (sfR (SFsub f64 e64 x4 x3)) <= dx * (1001 / 1000)).
  { rewrite Ed, Rabs_mult. fold dx. apply Rmult_le_compat_l; auto. apply abs_le in He. apply abs_le. lra. }
  destruct (fin_abs (PFlt (SFsub f64 e64 x4 x3)) Fd) as (Ad & Vd). rewrite val_sfR in Vd.
  unfold keep_going. change (nsub (PFlt x4) (PFlt x3)) with (PFlt (SFsub f64 e64 x4 x3)).
  change (nltb default_tol ?y) with (py_ltb default_tol y). rewrite (proj2 tol9_eq).
  destruct (Rle_lt_dec 1 r) as [L|L].
  - rewrite ltb_f; [reflexivity|exact tol9_fin|exact Ad|]. rewrite Vd, val_sfR.
    assert (D2 : r * dx <= r * (12 / 100000000000)).
    { apply Rle_trans with (1 := D). unfold P. nra. }
    apply Rmult_le_reg_l in D2; lra.
  - destruct (py_ltb (PFlt tol9) _); auto. rewrite <- (proj2 tol9_eq).
    rewrite (proj2 (isclose_eq (PFlt x3) (PFlt x4) (SFsub f64 e64 x4 x3) (SFmul f64 e64 tol9 x4) (SFmul f64 e64 tol9 x3) F3 F4 eq_refl
      ltac:(now rewrite (proj1 tol9_eq)) ltac:(now rewrite (proj1 tol9_eq)) Fd M1 M2)); [reflexivity|].
    left. apply Rle_trans with (1 := Bd). rewrite V1.
    apply abs_le in H1, V4.
    pose proof (mult3 (sfR tol9) (sfR x4) (1 + e1) 1 10000 2 ltac:(lra) ltac:(lra) ltac:(lra)). rewrite Rabs_right by lra.
    apply Rmult_le_reg_l with r; [lra|].
    assert (D2 : r * dx <= 12 / 100000000000) by (apply Rle_trans with (1 := D); unfold P; nra).
    assert (Q1 : 98 / 100000000000 <= sfR tol9 * (r * sfR x4)) by nra.
    replace (r * (sfR tol9 * sfR x4 * (1 + e1))) with (sfR tol9 * (r * sfR x4) * (1 + e1)) by ring.
    assert (98 / 100000000000 * (999 / 1000) <= sfR tol9 * (r * sfR x4) * (1 + e1)) by (apply Rmult_le_compat; lra).
    lra.
Qed.

Lemma root_close : exists n, secant (util_func (PFlt t) (PFlt cap)) (Z.to_nat 20000)
  (nint (-100000)) (nint 100000) default_tol default_max_its false 2 = Ok (PFlt x4, n, false).
Proof.
  destruct ends_val as (F2 & F1 & _). destruct x3_val as (Fa & Fb & Fd & Zd & F3 & _).
  destruct x4_val as (Fg & _ & Fa2 & Fb2 & Fd2 & Zd2 & F4 & _).
  exists 2%Z. unfold secant. cbn [nint nisinf nisnan PNum py_isinf py_isnan orb].
  replace (isclose (PInt 100000) (PInt (-100000)) default_tol) with (@Ok bool false) by (vm_compute; reflexivity).
  cbn [bind]. replace (Z.to_nat 20000) with (S (S (Z.to_nat 19998))) by lia.
  rewrite (sec_step _ _ _ _ _ _ _ _ _ (PFlt f1) (PFlt f2) (PFlt x3));
    [|vm_compute; reflexivity|apply F64_eq; auto|apply F64_eq; auto|apply (fin_noinf a1 Fa)|apply (fin_noinf b1 Fb)
     |apply (fin_noinf f2 F2)|apply (fin_noinf f1 F1)|exact close_first| |apply (fin_noinf x3 F3)|apply (fin_noinf x3 F3)|lia].
  2:{ change (nsub (nmul (PInt (-100000)) (PFlt f2)) (nmul (PInt 100000) (PFlt f1))) with (PFlt (SFsub f64 e64 a1 b1)).
      change (nsub (PFlt f2) (PFlt f1)) with (PFlt (SFsub f64 e64 f2 f1)).
      unfold pydiv. cbn [neqb nint PNum]. rewrite eqb_f; [reflexivity|exact Fd|exact I|]. rewrite val_sfR. exact Zd. }
  rewrite (sec_step _ _ _ _ _ _ _ _ _ (PFlt f2) (PFlt g2) (PFlt x4));
    [|exact go_second|apply F64_eq; auto|apply F64_eq; auto|apply (fin_noinf a2 Fa2)|apply (fin_noinf b2 Fb2)
     |apply (fin_noinf g2 Fg)|apply (fin_noinf f2 F2)|exact close_second| |apply (fin_noinf x4 F4)|apply (fin_noinf x4 F4)|lia].
  2:{ change (nsub (nmul (PInt 100000) (PFlt g2)) (nmul (PFlt x3) (PFlt f2))) with (PFlt (SFsub f64 e64 a2 b2)).
      change (nsub (PFlt g2) (PFlt f2)) with (PFlt (SFsub f64 e64 g2 f2)).
      unfold pydiv. cbn [neqb nint PNum]. rewrite eqb_f; [reflexivity|exact Fd2|exact I|]. rewrite val_sfR. exact Zd2. }
  generalize (Z.to_nat 19998). intros fuel. destruct fuel; cbn [sec_loop]; rewrite stop_third; reflexivity.
Qed.

Lemma util_one_close : exists u, util_one (PFlt t) (PFlt cap) = Ok (PFlt u) /\ fin64 u /\ Rabs (sfR u - r) <= 16 * u53 * r.
Proof.
  destruct root_close as (n & E). destruct x4_val as (_ & _ & _ & _ & _ & _ & F4 & V4).
  pose proof u53_small as U. pose proof PR as PR.
  assert (Tp : 0 < sfR t). { replace (sfR t) with (r * sfR cap) by (unfold r; field; lra). apply Rmult_lt_0_compat; lra. }
  assert (R4 : 9 / 10 <= r * sfR x4 <= 11 / 10) by (apply abs_le in V4; lra).
  assert (S4 : 1 / 2000000 <= sfR x4 <= 10000) by (split; apply Rmult_le_reg_l with r; lra).
  destruct (div_norm one64 x4 eq_refl F4) as (e & He & Fu & Eu); [lra| |].
  { unfold one64. rewrite one_val. apply wide, range with (1 / 100000) 10000000; try lra.
    assert (0 < 1 / sfR x4) by (apply Rdiv_lt_0_compat; lra). rewrite Rabs_right by lra.
    assert (1 / sfR x4 * sfR x4 = 1) by (field; lra). split; apply Rmult_le_reg_r with (sfR x4); lra. }
  exists (SFdiv f64 e64 one64 x4). split.
  - unfold util_one. change (nleb (PFlt t) (nflt 0 1)) with (py_leb (PFlt t) (fl 0 1)). rewrite fl_zero.
    rewrite leb_f; [|exact Ft|exact I|rewrite !val_sfR; exact Tp]. rewrite E. cbn [bind fst].
    change (neqb (PFlt x4) (nflt 0 1)) with (py_eqb (PFlt x4) (fl 0 1)). rewrite fl_zero.
    rewrite eqb_f; [|exact F4|exact I|rewrite !val_sfR; cbn [sfR]; lra].
    unfold pydiv. cbn [neqb nint PNum]. rewrite eqb_f; [|exact F4|exact I|rewrite val_sfR; cbn [val]; lra].
    cbn [ndiv PNum tofl]. change (sf_of_Z 1) with one64. reflexivity.
  - split; [exact Fu|]. rewrite Eu. unfold one64. rewrite one_val.
    set (q := r * sfR x4) in *. assert (Eq : 1 / sfR x4 = r * / q) by (unfold q; field; lra). rewrite Eq.
    assert (Qi : Rabs (/ q - 1) <= 10 * u53).
    { replace (/ q - 1) with (- (q - 1) * / q) by (field; lra). rewrite Rabs_mult, Rabs_Ropp, Rabs_inv, (Rabs_right q) by lra.
      apply Rmult_le_reg_r with q; [lra|]. rewrite Rmult_assoc, Rinv_l by lra.
      assert (9 / 10 * u53 <= q * u53) by (apply Rmult_le_compat_r; lra). pose proof u53_val.
      assert (1 - 9 * u53 <= q) by (apply abs_le in V4; lra). nra. }
    pose proof (near_mult _ _ _ _ Qi (near_one _ He) ltac:(lra)) as Q.
    replace (r * / q * (1 + e) - r) with (r * (/ q * (1 + e) - 1)) by ring.
    rewrite Rabs_mult, (Rabs_right r) by lra. rewrite (Rmult_comm (16 * u53)). apply Rmult_le_compat_l; lra.
Qed.
End Secant.
