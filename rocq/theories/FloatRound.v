(** The double operations of Coq's SpecFloat round the exact result to the nearest double
    (ties to even), so they are monotone.  Proved here from the definitions. *)

From Coq Require Import ZArith Reals Lra Lia Bool Floats.SpecFloat.
From Verif Require Import Base Num PyNum IntFloat.
Open Scope R_scope.

(** ** Powers of two *)

Definition bp (e : Z) : R := powerRZ 2 e.

Lemma bp_pos e : 0 < bp e.
Proof. apply powerRZ_lt. lra. Qed.
Lemma bp_add a b : bp (a + b) = bp a * bp b.
Proof. apply powerRZ_add. apply not_0_IZR. discriminate. Qed.
Lemma bp_0 : bp 0 = 1.
Proof. reflexivity. Qed.
Lemma bp_1 : bp 1 = 2.
Proof. unfold bp. apply powerRZ_1. Qed.
Lemma bp_Z k : (0 <= k)%Z -> bp k = IZR (2 ^ k).
Proof.
  intros H. rewrite <- (Z2Nat.id k) by auto. generalize (Z.to_nat k). clear. intros n. induction n as [|n IH]; [reflexivity|].
  rewrite Nat2Z.inj_succ, <- Z.add_1_r, bp_add, IH, bp_1, Z.pow_add_r by lia. rewrite mult_IZR. reflexivity.
Qed.
Lemma bp_ge_1 k : (0 <= k)%Z -> 1 <= bp k.
Proof.
  intros H. rewrite bp_Z by auto. apply IZR_le. assert (0 < 2 ^ k)%Z by (apply Z.pow_pos_nonneg; lia). lia.
Qed.
Lemma bp_le a b : (a <= b)%Z -> bp a <= bp b.
Proof.
  intros H. replace b with (a + (b - a))%Z by lia. rewrite bp_add.
  pose proof (bp_ge_1 (b - a) ltac:(lia)). pose proof (bp_pos a). nra.
Qed.
Lemma bp_lt a b : (a < b)%Z -> bp a < bp b.
Proof.
  intros H. apply Rlt_le_trans with (bp (a + 1)); [|apply bp_le; lia].
  rewrite bp_add, bp_1. pose proof (bp_pos a). lra.
Qed.
Lemma bp_lt_inv a b : bp a < bp b -> (a < b)%Z.
Proof. intros H. destruct (Z_lt_le_dec a b) as [|L]; auto. pose proof (bp_le b a L). lra. Qed.
Lemma bp_shift a b : bp a = bp b * bp (a - b).
Proof. rewrite <- bp_add. f_equal. lia. Qed.

Lemma abs_bounds x y : Rabs x <= y -> - y <= x <= y.
Proof. intros H. unfold Rabs in H. destruct (Rcase_abs x); lra. Qed.

(** ** Nearest doubles *)

Definition fexp64 (e : Z) : Z := fexp f64 e64 e.
Lemma fexp64_eq e : fexp64 e = Z.max (e - 53) (-1074).
Proof. reflexivity. Qed.

(** [w] is the number with a 53-bit mantissa (and exponent at least -1074) nearest to
    [v > 0], the even one if there are two. *)
Definition nearest (v w : R) : Prop :=
  exists M q, bp (M - 1) <= v < bp M /\ w = IZR q * bp (fexp64 M) /\
    Rabs (v - w) <= bp (fexp64 M) / 2 /\ (Rabs (v - w) = bp (fexp64 M) / 2 -> Z.even q = true).

Lemma mag_unique v M M' : bp (M - 1) <= v < bp M -> bp (M' - 1) <= v < bp M' -> M = M'.
Proof.
  intros H H'. assert (bp (M - 1) < bp M') as A by lra. assert (bp (M' - 1) < bp M) as B by lra.
  apply bp_lt_inv in A. apply bp_lt_inv in B. lia.
Qed.

Lemma half_cases q q' u v : Rabs (u - IZR q) <= 1 / 2 -> Rabs (v - IZR q') <= 1 / 2 -> u <= v ->
  (Rabs (u - IZR q) = 1 / 2 -> Z.even q = true) -> (Rabs (v - IZR q') = 1 / 2 -> Z.even q' = true) -> (q <= q')%Z.
Proof.
  intros H H' L E E'. destruct (Z_lt_le_dec q' q) as [G|G]; auto. exfalso.
  assert (IZR q' + 1 <= IZR q) by (rewrite <- plus_IZR; apply IZR_le; lia).
  apply abs_bounds in H. apply abs_bounds in H'.
  assert (u = IZR q - 1 / 2) by lra. assert (v = IZR q' + 1 / 2) by lra.
  assert (IZR q = IZR q' + 1) as EQ by lra. rewrite <- plus_IZR in EQ. apply eq_IZR in EQ.
  assert (Q1 : Z.even q = true) by (apply E; subst u; replace (IZR q - 1/2 - IZR q) with (- (1/2)) by ring; rewrite Rabs_Ropp; apply Rabs_right; lra).
  assert (Q2 : Z.even q' = true) by (apply E'; subst v; replace (IZR q' + 1/2 - IZR q') with (1/2) by ring; apply Rabs_right; lra).
  rewrite EQ, Z.even_add, Q2 in Q1. discriminate Q1.
Qed.

Lemma scale_abs v w B : 0 < B -> Rabs (v - w * B) = Rabs (v / B - w) * B.
Proof.
  intros H. replace (v - w * B) with ((v / B - w) * B) by (field; lra).
  rewrite Rabs_mult, (Rabs_right B) by lra. reflexivity.
Qed.

(** The nearest double of a number below [bp M] is at most [bp M]; of a number not below it,
    at least [bp M] (for [M > -1074]). *)
Lemma nearest_below v w M q : bp (M - 1) <= v < bp M -> w = IZR q * bp (fexp64 M) ->
  Rabs (v - w) <= bp (fexp64 M) / 2 -> (-1074 <= M)%Z -> w <= bp M.
Proof.
  intros [H1 H2] -> H3 G. set (B := bp (fexp64 M)) in *. assert (P : 0 < B) by apply bp_pos.
  assert (FM : (fexp64 M <= M)%Z) by (rewrite fexp64_eq; lia).
  assert (E : bp M = IZR (2 ^ (M - fexp64 M)) * B).
  { unfold B. rewrite <- bp_Z by lia. rewrite <- bp_add. f_equal. lia. }
  rewrite E in *. apply Rmult_le_compat_r; [lra|]. apply IZR_le.
  apply abs_bounds in H3.
  assert (IZR q < IZR (2 ^ (M - fexp64 M)) + 1) as L.
  { apply Rmult_lt_reg_r with B; auto. lra. }
  rewrite <- plus_IZR in L. apply lt_IZR in L. lia.
Qed.

Lemma nearest_above v w M q : bp (M - 1) <= v < bp M -> w = IZR q * bp (fexp64 M) ->
  Rabs (v - w) <= bp (fexp64 M) / 2 -> (fexp64 M <= M - 1)%Z -> bp (M - 1) <= w.
Proof.
  intros [H1 H2] -> H3 FM. set (B := bp (fexp64 M)) in *. assert (P : 0 < B) by apply bp_pos.
  assert (E : bp (M - 1) = IZR (2 ^ (M - 1 - fexp64 M)) * B).
  { unfold B. rewrite <- bp_Z by lia. rewrite <- bp_add. f_equal. lia. }
  rewrite E in *. apply Rmult_le_compat_r; [lra|]. apply IZR_le.
  apply abs_bounds in H3.
  assert (IZR (2 ^ (M - 1 - fexp64 M)) < IZR q + 1) as L.
  { apply Rmult_lt_reg_r with B; auto. lra. }
  rewrite <- plus_IZR in L. apply lt_IZR in L. lia.
Qed.

Lemma nearest_mono v w v' w' : nearest v w -> nearest v' w' -> v <= v' -> w <= w'.
Proof.
  intros (M & q & H1 & H2 & H3 & H4) (M' & q' & H1' & H2' & H3' & H4') L.
  assert (MM : (M <= M')%Z).
  { destruct (Z_le_gt_dec M M') as [|G]; auto. pose proof (bp_le M' (M - 1) ltac:(lia)). lra. }
  destruct (Z.eq_dec (fexp64 M) (fexp64 M')) as [EF|NF].
  - rewrite <- EF in *. set (B := bp (fexp64 M)) in *. assert (P : 0 < B) by apply bp_pos.
    subst w w'. apply Rmult_le_compat_r; [lra|]. apply IZR_le.
    rewrite scale_abs in * by auto.
    apply (half_cases q q' (v / B) (v' / B)).
    + apply Rmult_le_reg_r with B; auto; lra.
    + apply Rmult_le_reg_r with B; auto; lra.
    + unfold Rdiv. apply Rmult_le_compat_r; auto. apply Rlt_le. now apply Rinv_0_lt_compat.
    + intros E. apply H4. rewrite E. lra.
    + intros E. apply H4'. rewrite E. lra.
  - assert (G : (M < M')%Z) by (destruct (Z.eq_dec M M'); [congruence|lia]).
    rewrite !fexp64_eq in NF.
    assert (G2 : (-1074 <= M' - 1)%Z) by lia.
    apply Rle_trans with (bp (M' - 1)).
    + destruct (Z_le_gt_dec (-1074) M) as [K|K].
      * apply Rle_trans with (bp M); [|apply bp_le; lia]. apply (nearest_below v w M q); auto.
      * rewrite (Z.max_r (M - 53)) in NF by lia. rewrite fexp64_eq, (Z.max_r (M - 53)) in H2, H3 by lia.
        assert (bp M <= bp (-1074)) by (apply bp_le; lia).
        assert (Q : (q <= 1)%Z).
        { apply abs_bounds in H3. rewrite H2 in H3. pose proof (bp_pos (-1074)).
          assert (IZR q < 2) by (apply Rmult_lt_reg_r with (bp (-1074)); auto; lra).
          apply lt_IZR in H5. lia. }
        apply IZR_le in Q. pose proof (bp_pos (-1074)).
        apply Rle_trans with (bp (-1074)); [subst w; nra|]. apply bp_le. lia.
    + apply (nearest_above v' w' M' q'); auto. rewrite fexp64_eq. lia.
Qed.

Lemma nearest_unique v w w' : nearest v w -> nearest v w' -> w = w'.
Proof. intros H H'. apply Rle_antisym; eapply nearest_mono; eauto; lra. Qed.

Lemma nearest_nonneg v w : nearest v w -> 0 <= w.
Proof.
  intros (M & q & H1 & -> & H3 & _). set (B := bp (fexp64 M)) in *. assert (P : 0 < B) by apply bp_pos.
  apply Rmult_le_pos; [|lra]. apply IZR_le. apply abs_bounds in H3. pose proof (bp_pos (M - 1)).
  assert (-1 < IZR q) as L by (apply Rmult_lt_reg_r with B; auto; lra). apply lt_IZR in L. lia.
Qed.

(** A number that is a double is its own nearest double. *)
Lemma mag_pos c x : bp (Z.pos (digits2_pos c) + x - 1) <= IZR (Z.pos c) * bp x < bp (Z.pos (digits2_pos c) + x).
Proof.
  destruct (digits_bounds c) as [B1 B2]. set (d := Z.pos (digits2_pos c)) in *.
  assert (0 < d)%Z by (unfold d; lia).
  replace (d + x - 1)%Z with ((d - 1) + x)%Z by lia. rewrite !bp_add, (bp_Z (d - 1)), (bp_Z d) by lia. pose proof (bp_pos x).
  split; [apply Rmult_le_compat_r; [lra|apply IZR_le; lia]|apply Rmult_lt_compat_r; [lra|apply IZR_lt; lia]].
Qed.

Lemma nearest_self c x : canonical_mantissa f64 e64 c x = true ->
  nearest (IZR (Z.pos c) * bp x) (IZR (Z.pos c) * bp x).
Proof.
  intros H. apply Zeq_bool_eq in H. exists (Z.pos (digits2_pos c) + x)%Z, (Z.pos c).
  split; [apply mag_pos|]. unfold fexp64. rewrite H. split; [reflexivity|].
  rewrite Rminus_eq_0, Rabs_R0. pose proof (bp_pos x). split; [lra|]. intros E. lra.
Qed.

(** ** Shifting right *)

Definition inb (m : Z) (l : location) (t : R) : Prop :=
  match l with
  | loc_Exact => t = IZR m
  | loc_Inexact Lt => IZR m < t < IZR m + 1 / 2
  | loc_Inexact Eq => t = IZR m + 1 / 2
  | loc_Inexact Gt => IZR m + 1 / 2 < t < IZR m + 1
  end.

Definition inbr (x : shr_record) (t : R) : Prop := (0 <= shr_m x)%Z /\ inb (shr_m x) (loc_of_shr_record x) t.

Lemma inb_range m l t : inb m l t -> IZR m <= t < IZR m + 1.
Proof. destruct l as [|[]]; cbn; lra. Qed.

Lemma shr_1_spec x t : inbr x t -> inbr (shr_1 x) (t / 2).
Proof.
  intros [P H]. destruct x as [m r s]. cbn [shr_m] in *.
  assert (K : exists p b, m = (2 * p + (if b : bool then 1 else 0))%Z /\ (0 <= p)%Z /\
    shr_1 {| shr_m := m; shr_r := r; shr_s := s |} = {| shr_m := p; shr_r := b; shr_s := orb r s |}).
  { destruct m as [|[p|p|]|p]; [exists 0%Z, false|exists (Z.pos p), true|exists (Z.pos p), false|exists 0%Z, true|lia];
      (split; [lia|split; [lia|reflexivity]]). }
  destruct K as (p & b & -> & Pp & ->). split; [exact Pp|]. cbn [shr_m].
  destruct b, r, s; cbn [loc_of_shr_record orb inb] in *; rewrite plus_IZR, mult_IZR in H; lra.
Qed.

Lemma iter_shr_spec p : forall x t, inbr x t -> inbr (iter_pos shr_1 p x) (t / bp (Z.pos p)).
Proof.
  induction p as [p IH|p IH|]; intros x t H; cbn [iter_pos].
  - replace (t / bp (Z.pos p~1)) with (t / 2 / bp (Z.pos p) / bp (Z.pos p)).
    + now apply IH, IH, shr_1_spec.
    + replace (Z.pos p~1) with (1 + (Z.pos p + Z.pos p))%Z by lia. rewrite !bp_add, bp_1. pose proof (bp_pos (Z.pos p)). field. lra.
  - replace (t / bp (Z.pos p~0)) with (t / bp (Z.pos p) / bp (Z.pos p)).
    + now apply IH, IH.
    + replace (Z.pos p~0) with (Z.pos p + Z.pos p)%Z by lia. rewrite bp_add. pose proof (bp_pos (Z.pos p)). field. lra.
  - rewrite bp_1. now apply shr_1_spec.
Qed.

Lemma record_of_loc m l : shr_m (shr_record_of_loc m l) = m /\ loc_of_shr_record (shr_record_of_loc m l) = l.
Proof. destruct l as [|[]]; now split. Qed.

Lemma shr_fexp_spec m e l v : (0 <= m)%Z -> inb m l (v / bp e) -> (e <= fexp64 (Zdigits2 m + e))%Z ->
  exists x, shr_fexp f64 e64 m e l = (x, fexp64 (Zdigits2 m + e)) /\ inbr x (v / bp (fexp64 (Zdigits2 m + e))).
Proof.
  intros P H L. unfold shr_fexp. fold (fexp64 (Zdigits2 m + e)). set (E := fexp64 (Zdigits2 m + e)) in *.
  assert (I : inbr (shr_record_of_loc m l) (v / bp e)).
  { destruct (record_of_loc m l) as [A B]. split; rewrite ?A, ?B; auto. }
  unfold shr. destruct (E - e)%Z as [|p|p] eqn:D; [| |lia].
  - exists (shr_record_of_loc m l). replace E with e by lia. auto.
  - exists (iter_pos shr_1 p (shr_record_of_loc m l)). split; [f_equal; lia|].
    apply (iter_shr_spec p) in I. replace (v / bp E) with (v / bp e / bp (Z.pos p)); auto.
    replace E with (e + Z.pos p)%Z by lia. rewrite bp_add. pose proof (bp_pos e). pose proof (bp_pos (Z.pos p)). field. lra.
Qed.

Lemma rne_spec m l t : inb m l t ->
  Rabs (t - IZR (round_nearest_even m l)) <= 1 / 2 /\
  (Rabs (t - IZR (round_nearest_even m l)) = 1 / 2 -> Z.even (round_nearest_even m l) = true).
Proof.
  destruct l as [|[]]; cbn [inb round_nearest_even]; intros H.
  - subst t. rewrite Rminus_eq_0, Rabs_R0. split; [lra|]. intros E. lra.
  - destruct (Z.even m) eqn:E.
    + split; auto. subst t. replace (IZR m + 1 / 2 - IZR m) with (1 / 2) by ring. rewrite Rabs_right; lra.
    + rewrite Z.even_add, E. split; auto. subst t. rewrite plus_IZR.
      replace (IZR m + 1 / 2 - (IZR m + 1)) with (- (1 / 2)) by field. rewrite Rabs_Ropp, Rabs_right; lra.
  - rewrite Rabs_right by lra. split; [lra|]. intros E. lra.
  - rewrite plus_IZR, Rabs_left by lra. split; [lra|]. intros E. lra.
Qed.

(** ** What a rounded float is *)

Definition sf_valid (f : spec_float) : Prop := valid_binary f64 e64 f = true.

(** [f] stands for [w >= 0], with sign [s]. *)
Inductive stands (s : bool) (w : R) : spec_float -> Prop :=
| st_zero : w = 0 -> stands s w (S754_zero s)
| st_fin c x : bounded f64 e64 c x = true -> w = IZR (Z.pos c) * bp x -> stands s w (S754_finite s c x)
| st_inf : bp 1024 <= w -> stands s w (S754_infinity s).

Lemma mag_of_mantissa m e l v : (0 <= m)%Z -> 0 < v -> inb m l (v / bp e) -> (e <= fexp64 (Zdigits2 m + e))%Z ->
  exists M, bp (M - 1) <= v < bp M /\ fexp64 M = fexp64 (Zdigits2 m + e).
Proof.
  intros P V H L. pose proof (bp_pos e) as Be. apply inb_range in H. destruct H as [H1 H2].
  assert (U1 : IZR m * bp e <= v).
  { apply Rmult_le_compat_r with (r := bp e) in H1; [|lra]. unfold Rdiv in H1. rewrite Rmult_assoc, Rinv_l, Rmult_1_r in H1; lra. }
  assert (U2 : v < (IZR m + 1) * bp e).
  { apply Rmult_lt_compat_r with (r := bp e) in H2; [|lra]. unfold Rdiv in H2. rewrite Rmult_assoc, Rinv_l, Rmult_1_r in H2; lra. }
  destruct m as [|c|c]; [| |lia].
  - cbn [Zdigits2] in *. rewrite fexp64_eq in L.
    assert (EM : exists M, bp (M - 1) <= v < bp M).
    { destruct (archimed (ln v / ln 2)) as [A1 A2]. exists (up (ln v / ln 2)).
      assert (L2 : 0 < ln 2) by (rewrite <- ln_1; apply ln_increasing; lra).
      assert (BE : forall k, bp k = exp (IZR k * ln 2)).
      { intros k. unfold bp. rewrite powerRZ_Rpower by lra. reflexivity. }
      rewrite !BE, minus_IZR. pose proof (exp_ln v V) as Ev.
      assert (Q : ln v = ln v / ln 2 * ln 2) by (field; lra).
      set (k := up (ln v / ln 2)) in *. set (lv := ln v) in *. set (z := lv / ln 2) in *. rewrite <- Ev. clearbody lv z k.
      split.
      - destruct (Req_dec ((IZR k - 1) * ln 2) lv) as [Z|Z]; [rewrite Z; lra|].
        apply Rlt_le, exp_increasing. nra.
      - apply exp_increasing. nra. }
    destruct EM as [M HM]. exists M. split; auto.
    assert (bp (M - 1) < bp e) as W by (cbn in U2; lra). apply bp_lt_inv in W. rewrite !fexp64_eq. lia.
  - cbn [Zdigits2] in *. exists (Z.pos (digits2_pos c) + e)%Z. split; auto.
    destruct (digits_bounds c) as [B1 B2]. destruct (mag_pos c e) as [M1 _]. split; [lra|].
    eapply Rlt_le_trans; [exact U2|]. rewrite bp_add, (bp_Z (Z.pos _)) by lia. apply Rmult_le_compat_r; [lra|].
    rewrite <- plus_IZR. apply IZR_le. lia.
Qed.

Lemma round_aux_spec s m e l v : (0 <= m)%Z -> 0 < v -> inb m l (v / bp e) -> (e <= fexp64 (Zdigits2 m + e))%Z ->
  exists w, nearest v w /\ stands s w (binary_round_aux f64 e64 s m e l).
Proof.
  intros P V H L. destruct (mag_of_mantissa m e l v P V H L) as (M & HM & EM).
  destruct (shr_fexp_spec m e l v P H L) as (x & SH & I). unfold binary_round_aux. rewrite SH.
  rewrite <- EM in *. set (E := fexp64 M) in *. set (q := round_nearest_even (shr_m x) (loc_of_shr_record x)).
  destruct I as [Px I]. destruct (rne_spec _ _ _ I) as [R1 R2]. fold q in R1, R2.
  pose proof (bp_pos E) as BE.
  set (w := IZR q * bp E). exists w.
  assert (A1 : Rabs (v - w) <= bp E / 2) by (unfold w; rewrite scale_abs by auto; nra).
  assert (N : nearest v w).
  { exists M, q. fold E. repeat split; try tauto. unfold w. rewrite scale_abs by auto. intros Q. apply R2. nra. }
  split; auto.
  assert (Q0 : (0 <= q)%Z).
  { apply le_IZR. pose proof (nearest_nonneg _ _ N) as W. unfold w in W. nra. }
  assert (EL : (-1074 <= E)%Z) by (unfold E; rewrite fexp64_eq; lia).
  assert (Q1 : (q <= 2 ^ 53)%Z).
  { destruct (Z_le_gt_dec (-1074) M) as [K|K].
    - pose proof (nearest_below v w M q HM eq_refl A1 K) as W. unfold w in W.
      assert (bp M <= bp (53 + E)) by (apply bp_le; unfold E; rewrite fexp64_eq; lia).
      rewrite bp_add in H0. rewrite (bp_Z 53) in H0 by lia. apply le_IZR. nra.
    - assert (bp M <= bp E) by (apply bp_le; lia). apply abs_bounds in A1. unfold w in A1.
      assert (IZR q < 2) as Q by nra. apply lt_IZR in Q. lia. }
  assert (Q2 : (-1074 < E)%Z -> (2 ^ 52 <= q)%Z).
  { intros K. pose proof (nearest_above v w M q HM eq_refl A1) as W.
    assert (E = M - 53)%Z as EQ by (unfold E in *; rewrite fexp64_eq in *; lia).
    specialize (W ltac:(fold E; lia)). replace (M - 1)%Z with (52 + E)%Z in W by lia.
    rewrite bp_add, (bp_Z 52) in W by lia. apply le_IZR. unfold w in W. nra. }
  clearbody q. clear I R1 R2 Px SH x.
  destruct q as [|c|c]; [| |lia].
  - assert (shr_fexp f64 e64 0 E loc_Exact = ({| shr_m := 0; shr_r := false; shr_s := false |}, E)) as S.
    { unfold shr_fexp. cbn [Zdigits2 shr_record_of_loc]. fold (fexp64 (0 + E)). rewrite fexp64_eq.
      destruct (Z.eq_dec E (-1074)) as [->|]; [reflexivity|]. specialize (Q2 ltac:(lia)). lia. }
    rewrite S. cbn [shr_m]. apply st_zero. unfold w. ring.
  - destruct (digits_bounds c) as [B1 B2]. set (d := Z.pos (digits2_pos c)) in *.
    assert (D0 : (0 < d)%Z) by (unfold d; lia).
    destruct (Z.eq_dec (Z.pos c) (2 ^ 53)) as [EQ|NE].
    + assert (c = 9007199254740992%positive) as Ec by (cbn in EQ; congruence).
      assert (shr_fexp f64 e64 (Z.pos c) E loc_Exact = ({| shr_m := 2 ^ 52; shr_r := false; shr_s := false |}, (E + 1)%Z)) as S.
      { rewrite Ec. unfold shr_fexp. change (Zdigits2 9007199254740992) with 54%Z. fold (fexp64 (54 + E)). rewrite fexp64_eq.
        replace (Z.max (54 + E - 53) (-1074) - E)%Z with 1%Z by lia. reflexivity. }
      rewrite S. cbn [shr_m]. change (2 ^ 52)%Z with 4503599627370496%Z. cbv iota.
      assert (WW : w = IZR 4503599627370496 * bp (E + 1)).
      { unfold w. rewrite Ec, bp_add, bp_1. lra. }
      destruct (Zle_bool (E + 1) (e64 - f64)) eqn:LE.
      * apply st_fin; auto. unfold bounded. rewrite LE, andb_true_r. unfold canonical_mantissa.
        change (Z.pos (digits2_pos 4503599627370496)) with 53%Z. fold (fexp64 (53 + (E + 1))). rewrite fexp64_eq.
        apply Zeq_is_eq_bool. lia.
      * apply st_inf. rewrite WW. change 4503599627370496%Z with (2 ^ 52)%Z. rewrite <- (bp_Z 52) by lia. rewrite <- bp_add. apply bp_le.
        assert (~ (E + 1 <= e64 - f64)%Z) by (rewrite Zle_is_le_bool, LE; discriminate). unfold e64, f64 in *. lia.
    + assert (D53 : (d <= 53)%Z).
      { destruct (Z_le_gt_dec d 53); auto. assert (2 ^ 53 <= 2 ^ (d - 1))%Z by (apply Z.pow_le_mono_r; lia). lia. }
      assert (D52 : (-1074 < E)%Z -> d = 53%Z).
      { intros K. specialize (Q2 K). destruct (Z_lt_le_dec d 53); [|lia].
        assert (2 ^ d <= 2 ^ 52)%Z by (apply Z.pow_le_mono_r; lia). lia. }
      assert (FE : fexp64 (d + E) = E) by (rewrite fexp64_eq; destruct (Z.eq_dec E (-1074)); lia).
      assert (shr_fexp f64 e64 (Z.pos c) E loc_Exact = ({| shr_m := Z.pos c; shr_r := false; shr_s := false |}, E)) as S.
      { unfold shr_fexp. cbn [Zdigits2 shr_record_of_loc]. fold d. fold (fexp64 (d + E)). rewrite FE, Z.sub_diag. reflexivity. }
      rewrite S. cbn [shr_m]. destruct (Zle_bool E (e64 - f64)) eqn:LE.
      * apply st_fin; [|reflexivity]. unfold bounded. rewrite LE, andb_true_r. apply Zeq_is_eq_bool. exact FE.
      * apply st_inf. assert (~ (E <= e64 - f64)%Z) by (rewrite Zle_is_le_bool, LE; discriminate).
        unfold e64, f64 in *. specialize (Q2 ltac:(lia)). unfold w. apply IZR_le in Q2.
        rewrite <- (bp_Z 52) in Q2 by lia. pose proof (bp_le 1024 (52 + E) ltac:(lia)) as W. rewrite bp_add in W. nra.
Qed.
