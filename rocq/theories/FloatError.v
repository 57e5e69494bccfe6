(** How far interpolated loads on doubles are from exact linear interpolation. *)

From Coq Require Import ZArith Reals Lra Lia Bool List Sorted Floats.SpecFloat.
From Verif Require Import Base Num PyNum OrdFacts Numpy LoadCase LoadSpec LoadFacts LoadProofs
  FloatSpec FloatValSpec FloatRound FloatOps FloatFacts FloatInterp.
Import ListNotations.
Open Scope R_scope.

Definition u53 : R := bp (-53).
Lemma u53_small : 0 < u53 <= 1 / 1000.
Proof.
  unfold u53. split; [apply bp_pos|].
  replace (bp (-53)) with (/ bp 53).
  - rewrite bp_Z by lia. apply Rmult_le_reg_l with 1000; [lra|].
    apply Rmult_le_reg_r with (IZR (2 ^ 53)); [apply IZR_lt; lia|].
    rewrite Rmult_assoc, Rinv_l by (apply not_0_IZR; lia). 
    replace (1000 * (1 / 1000) * IZR (2 ^ 53)) with (IZR (2 ^ 53)) by lra. rewrite Rmult_1_r. apply IZR_le. lia.
  - apply Rmult_eq_reg_r with (bp 53); [|pose proof (bp_pos 53); lra].
    rewrite Rinv_l by (pose proof (bp_pos 53); lra). rewrite <- bp_add. cbn [Z.add]. symmetry. apply bp_0.
Qed.

(** ** One operation *)

Lemma nearest_err v w : nearest v w -> Rabs (w - v) <= u53 * v + bp (-1075).
Proof.
  intros (M & q & (B1 & B2) & -> & A & _). rewrite Rabs_minus_sym. apply Rle_trans with (1 := A).
  rewrite fexp64_eq. pose proof (bp_pos (-1075)). unfold u53.
  assert (H2 : forall e, bp e / 2 = bp (e - 1)).
  { intros e. replace e with (1 + (e - 1))%Z at 1 by lia. rewrite bp_add, bp_1. field. }
  rewrite H2. destruct (Z.max_spec (M - 53) (-1074)) as [(L & ->)|(L & ->)].
  - assert (0 <= bp (-53) * v). { pose proof (bp_pos (M - 1)). pose proof (bp_pos (-53)). apply Rmult_le_pos; lra. }
    change (-1074 - 1)%Z with (-1075)%Z. lra.
  - replace (M - 53 - 1)%Z with (-53 + (M - 1))%Z by lia. rewrite bp_add.
    assert (bp (-53) * bp (M - 1) <= bp (-53) * v) by (apply Rmult_le_compat_l; [left; apply bp_pos|auto]). lra.
Qed.

(** Whole multiples of the least double are not affected by underflow. *)
Lemma nearest_err_mult v w n : nearest v w -> v = IZR n * bp (-1074) -> Rabs (w - v) <= u53 * v.
Proof.
  intros (M & q & (B1 & B2) & Ew & A & _) E. rewrite Rabs_minus_sym.
  rewrite fexp64_eq in *. unfold u53.
  assert (H2 : forall e, bp e / 2 = bp (e - 1)).
  { intros e. replace e with (1 + (e - 1))%Z at 1 by lia. rewrite bp_add, bp_1. field. }
  pose proof (bp_pos (-53)) as P53. pose proof (bp_pos (M - 1)) as PM.
  destruct (Z.max_spec (M - 53) (-1074)) as [(L & Ex)|(L & Ex)]; rewrite Ex in *.
  - rewrite Ew, E in *. pose proof (bp_pos (-1074)) as P.
    replace (IZR n * bp (-1074) - IZR q * bp (-1074)) with (IZR (n - q) * bp (-1074)) in * by (rewrite minus_IZR; ring).
    assert (n - q = 0)%Z.
    { rewrite Rabs_mult, (Rabs_right (bp (-1074))) in A by lra.
      assert (Rabs (IZR (n - q)) <= 1 / 2) by (apply Rmult_le_reg_r with (bp (-1074)); lra).
      rewrite <- abs_IZR in H. assert (IZR (Z.abs (n - q)) < 1) by lra. apply lt_IZR in H0. lia. }
    rewrite H, Rmult_0_l, Rabs_R0. apply Rmult_le_pos; lra.
  - apply Rle_trans with (1 := A). rewrite H2. replace (M - 53 - 1)%Z with (-53 + (M - 1))%Z by lia. rewrite bp_add.
    apply Rmult_le_compat_l; lra.
Qed.

Lemma nearest_lt v w : nearest v w -> v <= bp 1022 -> w < bp 1024.
Proof.
  intros H L. pose proof (nearest_err v w H) as E. pose proof u53_small as U.
  assert (bp (-1075) <= bp 1022) by (apply bp_le; lia). pose proof (bp_pos 1022).
  assert (bp 1024 = 4 * bp 1022) by (rewrite (bp_shift 1024 1022); change (1024 - 1022)%Z with (1 + 1)%Z; rewrite (bp_add 1 1), bp_1; ring).
  assert (0 <= v). { destruct H as (M & q & (B & _) & _). pose proof (bp_pos (M - 1)). lra. }
  assert (u53 * v <= v) by nra. pose proof (Rle_abs (w - v)). lra.
Qed.

Lemma rounds_err v f : rounds v f -> Rabs v <= bp 1022 ->
  fin64 f /\ Rabs (sfR f - v) <= u53 * Rabs v + bp (-1075).
Proof.
  pose proof u53_small as U. pose proof (bp_pos (-1075)).
  intros [s -> ->|w P N S|w P N S] L.
  - split; [exact I|]. cbn [sfR]. rewrite Rminus_eq_0, !Rabs_R0. lra.
  - rewrite (Rabs_right v) in * by lra. pose proof (nearest_lt v w N L) as Lt. pose proof (nearest_err v w N) as E.
    destruct S as [Z|c x B Z|Z]; try lra; (split; [cbn; auto|]); cbn [sfR signed].
    + rewrite Z in E. exact E.
    + rewrite <- Z. exact E.
  - rewrite (Rabs_left v) in * by lra. pose proof (nearest_lt (- v) w N L) as Lt. pose proof (nearest_err (- v) w N) as E.
    replace (w - - v) with (- (- w - v)) in E by ring. rewrite Rabs_Ropp in E.
    destruct S as [Z|c x B Z|Z]; try lra; (split; [cbn; auto|]); cbn [sfR signed].
    + rewrite Z, Ropp_0 in E. exact E.
    + rewrite <- Z. exact E.
Qed.

Lemma rounds_err_mult v f n : rounds v f -> v = IZR n * bp (-1074) -> Rabs v <= bp 1022 ->
  fin64 f /\ Rabs (sfR f - v) <= u53 * Rabs v.
Proof.
  pose proof u53_small as U.
  intros [s E0 ->|w P N S|w P N S] En L.
  - split; [exact I|]. cbn [sfR]. rewrite E0, Rminus_eq_0, !Rabs_R0. lra.
  - rewrite (Rabs_right v) in * by lra. pose proof (nearest_lt v w N L) as Lt. pose proof (nearest_err_mult v w n N En) as E.
    destruct S as [Z|c x B Z|Z]; try lra; (split; [cbn; auto|]); cbn [sfR signed].
    + rewrite Z in E. exact E.
    + rewrite <- Z. exact E.
  - rewrite (Rabs_left v) in * by lra. pose proof (nearest_lt (- v) w N L) as Lt.
    assert (En' : - v = IZR (- n) * bp (-1074)) by (rewrite En, opp_IZR; ring).
    pose proof (nearest_err_mult (- v) w (- n) N En') as E.
    replace (w - - v) with (- (- w - v)) in E by ring. rewrite Rabs_Ropp in E.
    destruct S as [Z|c x B Z|Z]; try lra; (split; [cbn; auto|]); cbn [sfR signed].
    + rewrite Z, Ropp_0 in E. exact E.
    + rewrite <- Z. exact E.
Qed.

Lemma fin_mult f : fin64 f -> exists q, sfR f = IZR q * bp (-1074).
Proof.
  intros F. destruct (sfR_quantum f F) as (q & e & E & _ & He).
  exists (q * 2 ^ (e + 1074))%Z. rewrite E, mult_IZR, <- bp_Z by lia. rewrite Rmult_assoc, <- bp_add.
  do 2 f_equal. lia.
Qed.

(** The computed value as the exact one with a relative error. *)
Lemma rel_of v w : Rabs (w - v) <= u53 * Rabs v -> exists e, Rabs e <= u53 /\ w = v * (1 + e).
Proof.
  intros H. pose proof u53_small. destruct (Req_dec v 0) as [->|Z].
  - exists 0. rewrite Rabs_R0, Rmult_0_r in H. split; [rewrite Rabs_R0; lra|].
    assert (w - 0 = 0); [|lra]. destruct (Req_dec (w - 0) 0) as [|K]; auto. apply Rabs_pos_lt in K. lra.
  - exists ((w - v) / v). split; [|field; auto]. unfold Rdiv. rewrite Rabs_mult, Rabs_inv by auto.
    apply Rmult_le_reg_r with (Rabs v); [now apply Rabs_pos_lt|].
    rewrite Rmult_assoc, Rinv_l by now apply Rabs_no_R0. lra.
Qed.
Lemma rel_abs_of v w : Rabs (w - v) <= u53 * Rabs v + bp (-1075) ->
  exists e h, Rabs e <= u53 /\ Rabs h <= bp (-1075) /\ w = v * (1 + e) + h.
Proof.
  intros H. pose proof u53_small. pose proof (bp_pos (-1075)) as Bp.
  destruct (Rle_lt_dec (Rabs (w - v)) (u53 * Rabs v)) as [L|L].
  - destruct (rel_of v w L) as (e & He & ->). exists e, 0. rewrite Rabs_R0. split; auto. split; lra.
  - exists (if Rle_lt_dec (w - v) 0 then - (u53 * Rabs v) / v else u53 * Rabs v / v).
    destruct (Req_dec v 0) as [->|Z].
    + exists w. rewrite Rabs_R0, Rmult_0_r, Rplus_0_l, Rminus_0_r in *.
      split; [|split; [lra|destruct (Rle_lt_dec w 0); ring]].
      destruct (Rle_lt_dec w 0); unfold Rdiv; rewrite ?Ropp_0, !Rmult_0_l, Rabs_R0; lra.
    + exists (if Rle_lt_dec (w - v) 0 then w - v + u53 * Rabs v else w - v - u53 * Rabs v).
      assert (Av : 0 < Rabs v) by now apply Rabs_pos_lt.
      destruct (Rle_lt_dec (w - v) 0) as [N|P].
      * rewrite (Rabs_left1 (w - v)) in * by auto. split.
        { unfold Rdiv. rewrite Rabs_mult, Rabs_Ropp, Rabs_inv, Rabs_mult, Rabs_Rabsolu, (Rabs_right u53) by (auto; lra).
          rewrite Rmult_assoc, Rinv_r by lra. lra. }
        split; [rewrite Rabs_left1; lra|field; auto].
      * rewrite (Rabs_right (w - v)) in * by lra. split.
        { unfold Rdiv. rewrite Rabs_mult, Rabs_inv, Rabs_mult, Rabs_Rabsolu, (Rabs_right u53) by (auto; lra).
          rewrite Rmult_assoc, Rinv_r by lra. lra. }
        split; [rewrite Rabs_right; lra|field; auto].
Qed.

Lemma add_rel x y : fin64 x -> fin64 y -> Rabs (sfR x + sfR y) <= bp 1022 ->
  exists e, Rabs e <= u53 /\ fin64 (SFadd f64 e64 x y) /\ sfR (SFadd f64 e64 x y) = (sfR x + sfR y) * (1 + e).
Proof.
  intros X Y L. destruct (fin_mult x X) as (a & Ea), (fin_mult y Y) as (b & Eb).
  destruct (rounds_err_mult _ _ (a + b) (add_rounds x y X Y)) as (F & E); auto.
  { rewrite Ea, Eb, plus_IZR. ring. }
  destruct (rel_of _ _ E) as (e & He & W). eauto.
Qed.
Lemma sub_rel x y : fin64 x -> fin64 y -> Rabs (sfR x - sfR y) <= bp 1022 ->
  exists e, Rabs e <= u53 /\ fin64 (SFsub f64 e64 x y) /\ sfR (SFsub f64 e64 x y) = (sfR x - sfR y) * (1 + e).
Proof.
  intros X Y L. destruct (fin_mult x X) as (a & Ea), (fin_mult y Y) as (b & Eb).
  destruct (rounds_err_mult _ _ (a - b) (sub_rounds x y X Y)) as (F & E); auto.
  { rewrite Ea, Eb, minus_IZR. ring. }
  destruct (rel_of _ _ E) as (e & He & W). eauto.
Qed.
Lemma mul_rel x y : fin64 x -> fin64 y -> Rabs (sfR x * sfR y) <= bp 1022 ->
  exists e h, Rabs e <= u53 /\ Rabs h <= bp (-1075) /\ fin64 (SFmul f64 e64 x y)
  /\ sfR (SFmul f64 e64 x y) = sfR x * sfR y * (1 + e) + h.
Proof.
  intros X Y L. destruct (rounds_err _ _ (mul_rounds x y X Y) L) as (F & E).
  destruct (rel_abs_of _ _ E) as (e & h & He & Hh & W). exists e, h. auto.
Qed.
Lemma div_rel x y : fin64 x -> fin64 y -> sfR y <> 0 -> Rabs (sfR x / sfR y) <= bp 1022 ->
  exists e h, Rabs e <= u53 /\ Rabs h <= bp (-1075) /\ fin64 (SFdiv f64 e64 x y)
  /\ sfR (SFdiv f64 e64 x y) = sfR x / sfR y * (1 + e) + h.
Proof.
  intros X Y Z L. destruct (rounds_err _ _ (div_rounds x y X Y Z) L) as (F & E).
  destruct (rel_abs_of _ _ E) as (e & h & He & Hh & W). exists e, h. auto.
Qed.

(** ** Chains of operations *)

Lemma near_mult a b A B : Rabs (a - 1) <= A -> Rabs (b - 1) <= B -> A <= 1 / 10 ->
  Rabs (a * b - 1) <= A + 11 / 10 * B.
Proof.
  intros H1 H2 L. replace (a * b - 1) with (a * (b - 1) + (a - 1)) by ring.
  apply Rle_trans with (1 := Rabs_triang _ _). rewrite Rabs_mult.
  assert (Rabs a <= 11 / 10). { replace a with (1 + (a - 1)) by ring. apply Rle_trans with (1 := Rabs_triang _ _). rewrite Rabs_R1. lra. }
  assert (Rabs a * Rabs (b - 1) <= 11 / 10 * B) by (apply Rmult_le_compat; auto using Rabs_pos). lra.
Qed.
Lemma near_one e : Rabs e <= u53 -> Rabs (1 + e - 1) <= u53.
Proof. replace (1 + e - 1) with e by ring. auto. Qed.
Lemma near_inv e : Rabs e <= u53 -> Rabs (/ (1 + e) - 1) <= 11 / 10 * u53.
Proof.
  intros H. pose proof u53_small as U. assert (P : - u53 <= e <= u53) by (split; [pose proof (Rle_abs (- e)); rewrite Rabs_Ropp in *; lra|pose proof (Rle_abs e); lra]).
  replace (/ (1 + e) - 1) with (- e * / (1 + e)) by (field; lra).
  rewrite Rabs_mult, Rabs_Ropp, Rabs_inv, (Rabs_right (1 + e)) by lra.
  rewrite (Rmult_comm (11 / 10)). apply Rmult_le_compat; auto using Rabs_pos.
  - left. apply Rinv_0_lt_compat. lra.
  - replace (11 / 10) with (/ (10 / 11)) by field. apply Rinv_le_contravar; lra.
Qed.

(** The six operations of an interpolation, as real numbers with their errors. *)
Lemma interp_error Y D X t y1 e1 e2 e3 e4 e5 e6 h1 h2 w :
  0 < t < X -> X <= 1 -> Rabs y1 <= Y -> Rabs (y1 + D) <= Y ->
  Rabs e1 <= u53 -> Rabs e2 <= u53 -> Rabs e3 <= u53 -> Rabs e4 <= u53 -> Rabs e5 <= u53 -> Rabs e6 <= u53 ->
  Rabs h1 <= bp (-1075) -> Rabs h2 <= bp (-1075) ->
  w = (((D * (1 + e1) / (X * (1 + e2)) * (1 + e3) + h1) * (t * (1 + e4)) * (1 + e5) + h2) + y1) * (1 + e6) ->
  Rabs (w - (y1 + D * (t / X))) <= 16 * u53 * Y + 4 * bp (-1075).
Proof.
  intros T X1 B1 B2 H1 H2 H3 H4 H5 H6 Hh1 Hh2 ->. pose proof u53_small as U. pose proof (bp_pos (-1075)) as Pb.
  assert (Z2 : 1 + e2 <> 0). { intros E. pose proof (near_one _ H2) as K. rewrite E in K. rewrite Rabs_left in K; lra. }
  set (K := (1 + e1) * (1 + e3) * (1 + e4) * (1 + e5) * / (1 + e2)).
  set (h := h1 * (t * (1 + e4)) * (1 + e5) + h2). set (W := D * (t / X)).
  assert (BK : Rabs (K - 1) <= 55 / 10 * u53 + u53 * (1 / 10)).
  { unfold K. pose proof (near_mult _ _ _ _ (near_one _ H1) (near_one _ H3) ltac:(lra)) as Q.
    pose proof (near_mult _ _ _ _ Q (near_one _ H4) ltac:(lra)) as Q1.
    pose proof (near_mult _ _ _ _ Q1 (near_one _ H5) ltac:(lra)) as Q2.
    pose proof (near_mult _ _ _ _ Q2 (near_inv _ H2) ltac:(lra)) as Q3. lra. }
  assert (B11 : forall e, Rabs e <= u53 -> Rabs (1 + e) <= 11 / 10).
  { intros e He. apply Rle_trans with (1 := Rabs_triang _ _). rewrite Rabs_R1. lra. }
  assert (Bh : Rabs h <= 3 * bp (-1075)).
  { unfold h. apply Rle_trans with (1 := Rabs_triang _ _). rewrite !Rabs_mult.
    assert (Q : Rabs h1 * (Rabs t * Rabs (1 + e4)) * Rabs (1 + e5) <= bp (-1075) * (1 * (11 / 10)) * (11 / 10)).
    { repeat (apply Rmult_le_compat; auto using Rabs_pos; try (repeat apply Rmult_le_pos; apply Rabs_pos)).
      rewrite Rabs_right; lra. }
    lra. }
  assert (BT : 0 < t / X < 1).
  { split; [apply Rdiv_lt_0_compat; lra|]. apply Rmult_lt_reg_r with X; [lra|]. unfold Rdiv. rewrite Rmult_assoc, Rinv_l by lra. lra. }
  assert (BD : Rabs D <= 2 * Y).
  { replace D with ((y1 + D) + - y1) by ring. apply Rle_trans with (1 := Rabs_triang _ _). rewrite Rabs_Ropp. lra. }
  assert (BW : Rabs W <= 2 * Y).
  { unfold W. rewrite Rabs_mult, (Rabs_right (t / X)) by lra. pose proof (Rabs_pos D). nra. }
  assert (BV : Rabs (W + y1) <= Y).
  { unfold W. set (q := t / X) in *. replace (D * q + y1) with ((y1 + D) * q + y1 * (1 - q)) by ring.
    apply Rle_trans with (1 := Rabs_triang _ _). rewrite !Rabs_mult, (Rabs_right q), (Rabs_right (1 - q)) by lra. nra. }
  replace (_ - _) with (W * (K - 1) * (1 + e6) + h * (1 + e6) + (W + y1) * e6)
    by (unfold W, h, K; field; split; auto; lra).
  apply Rle_trans with (1 := Rabs_triang _ _). rewrite (Rabs_mult (W + y1)).
  assert (Q1 : Rabs (W + y1) * Rabs e6 <= Y * u53) by (apply Rmult_le_compat; auto using Rabs_pos).
  assert (Q2 : Rabs (W * (K - 1) * (1 + e6) + h * (1 + e6)) <= 2 * Y * (56 / 10 * u53) * (11 / 10) + 3 * bp (-1075) * (11 / 10)).
  { apply Rle_trans with (1 := Rabs_triang _ _). rewrite !Rabs_mult. apply Rplus_le_compat.
    - apply Rmult_le_compat; auto using Rabs_pos; [apply Rmult_le_pos; apply Rabs_pos|].
      apply Rmult_le_compat; auto using Rabs_pos. lra.
    - apply Rmult_le_compat; auto using Rabs_pos. }
  assert (0 <= Y) by (pose proof (Rabs_pos y1); lra). assert (0 <= Y * u53) by (apply Rmult_le_pos; lra). lra.
Qed.

(** ** Interpolation on doubles *)

Lemma bp_double e : 2 * bp e = bp (e + 1).
Proof. rewrite bp_add, bp_1. ring. Qed.

Lemma between_error Y x1 x2 y1 y2 p :
  fin64 x1 -> fin64 x2 -> fin64 y1 -> fin64 y2 -> fin64 p ->
  sfR x1 < sfR p < sfR x2 -> bp (-500) <= sfR x2 - sfR x1 <= 1 ->
  Rabs (sfR y1) <= Y -> Rabs (sfR y2) <= Y -> Y <= bp 500 ->
  let v := SFadd f64 e64 (SFmul f64 e64 (SFdiv f64 e64 (SFsub f64 e64 y2 y1) (SFsub f64 e64 x2 x1))
               (SFsub f64 e64 p x1)) y1 in
  fin64 v /\ Rabs (sfR v - on_line (sfR x1) (sfR y1) (sfR x2) (sfR y2) (sfR p)) <= bp (-49) * Y + bp (-1073).
Proof.
  intros X1 X2 Y1 Y2 P T BX B1 B2 BY v. pose proof u53_small as U. pose proof (bp_pos (-1075)) as Pb.
  assert (B11 : forall e, Rabs e <= u53 -> Rabs (1 + e) <= 2).
  { intros e He. apply Rle_trans with (1 := Rabs_triang _ _). rewrite Rabs_R1. lra. }
  assert (L11 : forall e, Rabs e <= u53 -> / 2 <= 1 + e).
  { intros e He. pose proof (Rle_abs (- e)). rewrite Rabs_Ropp in *. lra. }
  assert (BD : Rabs (sfR y2 - sfR y1) <= bp 501).
  { change 501%Z with (500 + 1)%Z. rewrite <- bp_double. unfold Rminus.
    apply Rle_trans with (1 := Rabs_triang _ _). rewrite Rabs_Ropp. lra. }
  assert (U1 : 1 <= bp 1022) by (apply bp_ge_1; lia).
  destruct (sub_rel y2 y1 Y2 Y1) as (e1 & H1 & Fd & Ed). { apply Rle_trans with (1 := BD). apply bp_le. lia. }
  destruct (sub_rel x2 x1 X2 X1) as (e2 & H2 & Fx & Ex). { rewrite Rabs_right; pose proof (bp_pos (-500)); lra. }
  destruct (sub_rel p x1 P X1) as (e4 & H4 & Ft & Et). { rewrite Rabs_right; lra. }
  set (dy := SFsub f64 e64 y2 y1) in *. set (dx := SFsub f64 e64 x2 x1) in *. set (t := SFsub f64 e64 p x1) in *.
  assert (Ly : Rabs (sfR dy) <= bp 502).
  { rewrite Ed, Rabs_mult. change 502%Z with (501 + 1)%Z. rewrite bp_add, bp_1.
    apply Rmult_le_compat; auto using Rabs_pos. }
  assert (Lx : bp (-501) <= sfR dx).
  { rewrite Ex. replace (bp (-501)) with (bp (-500) * / 2).
    - apply Rmult_le_compat; try lra; [left; apply bp_pos|auto].
    - change (-500)%Z with (-501 + 1)%Z. rewrite bp_add, bp_1. field. }
  pose proof (bp_pos (-501)) as P501.
  assert (Ls : Rabs (sfR dy / sfR dx) <= bp 1003).
  { unfold Rdiv. rewrite Rabs_mult, Rabs_inv, (Rabs_right (sfR dx)) by lra.
    change 1003%Z with (502 + 501)%Z. rewrite bp_add. apply Rmult_le_compat; auto using Rabs_pos.
    - left. apply Rinv_0_lt_compat. lra.
    - replace (bp 501) with (/ bp (-501)); [apply Rinv_le_contravar; lra|].
      apply Rmult_eq_reg_r with (bp (-501)); [|lra]. rewrite Rinv_l by lra. rewrite <- bp_add. symmetry. apply bp_0. }
  destruct (div_rel dy dx Fd Fx) as (e3 & h1 & H3 & G1 & Fs & Es). { lra. } { apply Rle_trans with (1 := Ls). apply bp_le. lia. }
  set (s := SFdiv f64 e64 dy dx) in *.
  assert (Lss : Rabs (sfR s) <= bp 1005).
  { rewrite Es. apply Rle_trans with (1 := Rabs_triang _ _). rewrite Rabs_mult.
    assert (Rabs (sfR dy / sfR dx) * Rabs (1 + e3) <= bp 1003 * 2) by (apply Rmult_le_compat; auto using Rabs_pos).
    assert (bp (-1075) <= bp 1003) by (apply bp_le; lia). pose proof (bp_pos 1003).
    change 1005%Z with (1003 + 1 + 1)%Z. rewrite <- !bp_double. lra. }
  assert (Lt : Rabs (sfR t) <= 2).
  { rewrite Et, Rabs_mult. replace 2 with (1 * 2) by ring. apply Rmult_le_compat; auto using Rabs_pos. rewrite Rabs_right; lra. }
  assert (Lst : Rabs (sfR s * sfR t) <= bp 1006).
  { rewrite Rabs_mult. change 1006%Z with (1005 + 1)%Z. rewrite bp_add, bp_1. apply Rmult_le_compat; auto using Rabs_pos. }
  destruct (mul_rel s t Fs Ft) as (e5 & h2 & H5 & G2 & Fm & Em). { apply Rle_trans with (1 := Lst). apply bp_le. lia. }
  set (m := SFmul f64 e64 s t) in *.
  assert (Lm : Rabs (sfR m + sfR y1) <= bp 1022).
  { assert (Rabs (sfR m) <= bp 1008).
    { rewrite Em. apply Rle_trans with (1 := Rabs_triang _ _). rewrite (Rabs_mult (sfR s * sfR t)).
      assert (Rabs (sfR s * sfR t) * Rabs (1 + e5) <= bp 1006 * 2) by (apply Rmult_le_compat; auto using Rabs_pos).
      assert (bp (-1075) <= bp 1006) by (apply bp_le; lia). pose proof (bp_pos 1006).
      change 1008%Z with (1006 + 1 + 1)%Z. rewrite <- !bp_double. lra. }
    apply Rle_trans with (1 := Rabs_triang _ _).
    assert (bp 500 <= bp 1008) by (apply bp_le; lia).
    assert (bp (1008 + 1) <= bp 1022) by (apply bp_le; lia). rewrite <- bp_double in *. lra. }
  destruct (add_rel m y1 Fm Y1 Lm) as (e6 & H6 & Fv & Ev). fold v in Fv, Ev. split; auto.
  unfold on_line. replace (bp (-49)) with (16 * u53).
  2:{ unfold u53. change (-49)%Z with (-53 + 1 + 1 + 1 + 1)%Z. rewrite <- !bp_double. ring. }
  replace (bp (-1073)) with (4 * bp (-1075)).
  2:{ change (-1073)%Z with (-1075 + 1 + 1)%Z. rewrite <- !bp_double. ring. }
  apply (interp_error Y (sfR y2 - sfR y1) (sfR x2 - sfR x1) (sfR p - sfR x1) (sfR y1) e1 e2 e3 e4 e5 e6 h1 h2); auto; try lra.
  - replace (sfR y1 + (sfR y2 - sfR y1)) with (sfR y2) by ring. auto.
  - rewrite Ev, Em, Es, Ed, Ex, Et. reflexivity.
Qed.

Lemma val_sfR f : val (PFlt f) = sfR f.
Proof. destruct f as [s| | |[] c x]; cbn [val sfR signed]; try reflexivity; unfold bp; ring. Qed.

Lemma fin_double f : fin64 f -> finite_double (PFlt f).
Proof.
  intros F. split; [exists f; split; auto; destruct f; cbn in *; auto; contradiction|].
  destruct f; cbn in *; auto; contradiction.
Qed.

Lemma between_accurate qs rows l r1 r2 l' p c Y :
  any_argsort qs ->
  Forall (fun r => unit_double (lpos r) /\ forall c, finite_double (load_of c r)) rows ->
  StronglySorted (fun a b => nleb (lpos a) (lpos b) = true) rows ->
  rows = l ++ r1 :: r2 :: l' -> finite_double p ->
  nltb (lpos r1) p = true -> nltb p (lpos r2) = true ->
  powerRZ 2 (-500) <= val (lpos r2) - val (lpos r1) ->
  Rabs (val (load_of c r1)) <= Y -> Rabs (val (load_of c r2)) <= Y -> Y <= powerRZ 2 500 ->
  exists v, get_load qs (Some rows) (PosNum p) None (CEnum c) = Ok (Some [(p, [Some v])])
  /\ finite_double v
  /\ Rabs (val v - on_line (val (lpos r1)) (val (load_of c r1)) (val (lpos r2)) (val (load_of c r2)) (val p))
     <= powerRZ 2 (-49) * Y + powerRZ 2 (-1073).
Proof.
  intros Hq F S E P A B W1 V1 V2 BY.
  assert (F12 : (unit_double (lpos r1) /\ finite_double (load_of c r1))
              /\ (unit_double (lpos r2) /\ finite_double (load_of c r2))).
  { rewrite Forall_forall in F. subst rows.
    destruct (F r1 ltac:(apply in_or_app; cbn; auto)), (F r2 ltac:(apply in_or_app; cbn; auto)). auto. }
  destruct F12 as ((U1 & D1) & (U2 & D2)).
  pose proof (finite_rows rows F) as Fr.
  assert (Op : Pok p).
  { apply finite_double_fin in P. destruct P as (f & -> & Hf). destruct f; cbn in *; auto. }
  exists (between_value c r1 r2 p).
  split; [apply (between_load (ok := Pok) qs rows l r1 r2 l'); auto|].
  unfold between_value. replace (lcomp c r1) with (load_of c r1) by (now destruct c).
  replace (lcomp c r2) with (load_of c r2) by (now destruct c).
  apply finite_double_fin in P, D1, D2. destruct P as (fp & -> & P).
  destruct D1 as (y1 & E1 & Y1), D2 as (y2 & E2 & Y2). rewrite E1, E2 in *.
  destruct (unit_fin _ U1) as (x1 & G1 & X1 & R1), (unit_fin _ U2) as (x2 & G2 & X2 & R2).
  rewrite G1, G2 in *. cbn [nltb nleb PNum] in *.
  apply flt_R in A; auto. apply flt_R in B; auto.
  cbn [nadd nmul ndiv nsub PNum arith2 tofl] in *. rewrite !val_sfR in *.
  fold (bp (-500)) (bp 500) (bp (-49)) (bp (-1073)) in *.
  destruct (between_error Y x1 x2 y1 y2 fp X1 X2 Y1 Y2 P (conj A B) ltac:(lra) V1 V2 BY) as (Fv & Bv).
  split; [now apply fin_double|exact Bv].
Qed.

Lemma val_le x y : finite_double x -> finite_double y -> nleb x y = true -> val x <= val y.
Proof.
  intros X Y H. apply finite_double_fin in X, Y. destruct X as (f & -> & F), Y as (g & -> & G).
  rewrite !val_sfR. exact (proj1 (fle_R f g F G) H).
Qed.
Lemma val_dyadic x n k : finite_double x -> dyadic x n k -> val x = IZR n * bp k.
Proof.
  intros X D. apply finite_double_fin in X. destruct X as (f & -> & F). rewrite val_sfR. now apply dyadic_R.
Qed.

(** On the table that leaves its envelope: the value is still within the bound. *)
Lemma seventh_close :
  Forall (fun r => unit_double (lpos r) /\ forall c, finite_double (load_of c r)) seventh_table
  /\ StronglySorted (fun a b => nleb (lpos a) (lpos b) = true) seventh_table
  /\ seventh_table = [] ++ axial_row (fl 1 7) (fl 0 1) :: axial_row (fl 6 7) (fl 29 1) :: []
  /\ finite_double seventh_point
  /\ nltb (fl 1 7) seventh_point = true /\ nltb seventh_point (fl 6 7) = true
  /\ powerRZ 2 (-500) <= val (fl 6 7) - val (fl 1 7)
  /\ Rabs (val (fl 0 1)) <= 29 /\ Rabs (val (fl 29 1)) <= 29 /\ 29 <= powerRZ 2 500.
Proof.
  split; [apply seventh_ok|]. split; [apply seventh_sorted|]. split; [reflexivity|]. split; [lit|].
  split; [vm_compute; reflexivity|]. split; [vm_compute; reflexivity|].
  assert (E2 : val (fl 1 2) = bp (-1)).
  { rewrite (val_dyadic _ 1 (-1)); [ring|lit|split; vm_compute; reflexivity]. }
  assert (E4 : val (fl 1 4) = bp (-2)).
  { rewrite (val_dyadic _ 1 (-2)); [ring|lit|split; vm_compute; reflexivity]. }
  assert (L1 : val (fl 1 7) <= val (fl 1 4)) by (apply val_le; [lit|lit|vm_compute; reflexivity]).
  assert (L2 : val (fl 1 2) <= val (fl 6 7)) by (apply val_le; [lit|lit|vm_compute; reflexivity]).
  assert (E1 : bp (-1) = 2 * bp (-2)) by (rewrite bp_double; reflexivity).
  assert (L5 : bp (-500) <= bp (-2)) by (apply bp_le; lia).
  assert (E29 : val (fl 29 1) = 29).
  { rewrite (val_dyadic _ 29 0); [rewrite bp_0; ring|lit|split; vm_compute; reflexivity]. }
  assert (E0 : val (fl 0 1) = 0).
  { rewrite (val_dyadic _ 0 0); [ring|lit|split; vm_compute; reflexivity]. }
  fold (bp (-500)) (bp 500). split; [lra|]. rewrite E0, E29, Rabs_R0, Rabs_right by lra. split; [lra|]. split; [lra|].
  assert (bp 5 <= bp 500) by (apply bp_le; lia). rewrite (bp_Z 5) in H by lia. change (IZR (2 ^ 5)) with 32 in H. lra.
Qed.
