(** Integers below 2^53 are doubles: conversion and addition are exact. *)

From Coq Require Import ZArith List Bool Lia Floats.SpecFloat.
From Verif Require Import Base Num PyNum.
Import ListNotations.
Open Scope Z_scope.

(** ** Digits *)
Lemma digits_bounds p : 2 ^ (Z.pos (digits2_pos p) - 1) <= Z.pos p < 2 ^ Z.pos (digits2_pos p).
Proof.
  assert (K : forall d, 2 ^ Z.pos d = 2 * 2 ^ (Z.pos d - 1)).
  { intros d. rewrite <- Z.pow_succ_r by lia. f_equal. lia. }
  induction p as [p IH|p IH|]; cbn [digits2_pos]; [| |cbn; lia]; rewrite (K (Pos.succ _)), Pos2Z.inj_succ;
    replace (Z.succ (Z.pos (digits2_pos p)) - 1) with (Z.pos (digits2_pos p)) by lia;
    [rewrite (Pos2Z.inj_xI p)|rewrite (Pos2Z.inj_xO p)]; specialize (K (digits2_pos p)); lia.
Qed.

Lemma digits_unique p d : 0 < d -> 2 ^ (d - 1) <= Z.pos p < 2 ^ d -> Z.pos (digits2_pos p) = d.
Proof.
  intros Hd [H1 H2]. destruct (digits_bounds p) as [B1 B2]. set (q := Z.pos (digits2_pos p)) in *.
  assert (0 < q) by (unfold q; lia).
  assert (d - 1 < q). { apply (Z.pow_lt_mono_r_iff 2); lia. }
  assert (q - 1 < d). { apply (Z.pow_lt_mono_r_iff 2); lia. }
  lia.
Qed.

Lemma digits_shift p q k : 0 <= k -> Z.pos q = Z.pos p * 2 ^ k ->
  Z.pos (digits2_pos q) = Z.pos (digits2_pos p) + k.
Proof.
  intros Hk E. destruct (digits_bounds p) as [B1 B2]. apply digits_unique; [lia|]. rewrite E.
  assert (P : 0 < 2 ^ k) by (apply Z.pow_pos_nonneg; lia).
  replace (Z.pos (digits2_pos p) + k - 1) with (Z.pos (digits2_pos p) - 1 + k) by lia.
  rewrite !Z.pow_add_r by lia. nia.
Qed.

(** ** Shifts *)
Lemma shift_pos_mul d m : Z.pos (shift_pos d m) = Z.pos m * 2 ^ Z.pos d.
Proof.
  rewrite shift_pos_correct, Z.mul_comm. reflexivity.
Qed.

Lemma shl_align_mul m e e' : e' <= e ->
  Z.pos (fst (shl_align m e e')) = Z.pos m * 2 ^ (e - e') /\ snd (shl_align m e e') = e'.
Proof.
  intros H. unfold shl_align. destruct (e' - e) as [|d|d] eqn:E.
  - assert (e' = e) by lia. subst. replace (e - e) with 0 by lia. cbn. lia.
  - lia.
  - cbn [fst snd]. rewrite shift_pos_mul. split; auto. do 2 f_equal. lia.
Qed.

Definition exact_rec (m : Z) : shr_record := Build_shr_record m false false.

Lemma shr_1_exact m : 0 < m -> shr_1 (exact_rec (m * 2)) = exact_rec m.
Proof. intros H. destruct m as [|p|p]; [lia| |lia]. rewrite Z.mul_comm. reflexivity. Qed.

Lemma iter_shr n m : 0 < m -> iter_pos shr_1 n (exact_rec (m * 2 ^ Z.pos n)) = exact_rec m.
Proof.
  revert m. induction n as [n IH|n IH|]; intros m Hm; cbn [iter_pos].
  - assert (P : 0 < m * 2 ^ Z.pos n) by (assert (0 < 2 ^ Z.pos n) by (apply Z.pow_pos_nonneg; lia); nia).
    assert (P2 : 0 < m * 2 ^ Z.pos n * 2 ^ Z.pos n) by (assert (0 < 2 ^ Z.pos n) by (apply Z.pow_pos_nonneg; lia); nia).
    replace (m * 2 ^ Z.pos n~1) with (m * 2 ^ Z.pos n * 2 ^ Z.pos n * 2).
    2:{ rewrite (Pos2Z.inj_xI n). replace (2 * Z.pos n + 1) with (Z.pos n + Z.pos n + 1) by lia. rewrite !Z.pow_add_r by lia. lia. }
    now rewrite shr_1_exact, IH, IH.
  - assert (P : 0 < m * 2 ^ Z.pos n) by (assert (0 < 2 ^ Z.pos n) by (apply Z.pow_pos_nonneg; lia); nia).
    replace (m * 2 ^ Z.pos n~0) with (m * 2 ^ Z.pos n * 2 ^ Z.pos n).
    2:{ rewrite (Pos2Z.inj_xO n). replace (2 * Z.pos n) with (Z.pos n + Z.pos n) by lia. rewrite !Z.pow_add_r by lia. lia. }
    now rewrite IH, IH.
  - change (2 ^ 1) with 2. now apply shr_1_exact.
Qed.

Lemma shr_exact m e k : 0 < m -> 0 <= k -> shr (exact_rec (m * 2 ^ k)) e k = (exact_rec m, e + k).
Proof.
  intros Hm Hk. destruct k as [|p|p]; [| |lia]; cbn [shr].
  - rewrite Z.pow_0_r, Z.mul_1_r. f_equal. lia.
  - now rewrite iter_shr.
Qed.

(** ** Rounding an exact double *)
Notation fx := (SpecFloat.fexp f64 e64).

(** [c] at exponent [x] is canonical. *)
Definition canonical (c : positive) (x : Z) : Prop :=
  fx (Z.pos (digits2_pos c) + x) = x /\ x <= e64 - f64.

Lemma round_aux_exact sx m e c x : canonical c x -> e <= x ->
  m = Z.pos c * 2 ^ (x - e) ->
  binary_round_aux f64 e64 sx m e loc_Exact = S754_finite sx c x.
Proof.
  intros [C1 C2] He Em. unfold binary_round_aux.
  assert (Pk : 0 < 2 ^ (x - e)) by (apply Z.pow_pos_nonneg; lia).
  assert (D : Zdigits2 m + e = Z.pos (digits2_pos c) + x).
  { destruct m as [|q|q]; [nia| |nia]. cbn [Zdigits2]. rewrite (digits_shift c q (x - e)); lia. }
  assert (S1 : shr_fexp f64 e64 m e loc_Exact = (exact_rec (Z.pos c), x)).
  { unfold shr_fexp. rewrite D, C1. cbn [shr_record_of_loc]. fold (exact_rec m). rewrite Em, shr_exact by lia. f_equal. lia. }
  rewrite S1. cbn [shr_m exact_rec loc_of_shr_record round_nearest_even].
  assert (S2 : shr_fexp f64 e64 (Z.pos c) x loc_Exact = (exact_rec (Z.pos c), x)).
  { unfold shr_fexp. cbn [Zdigits2]. rewrite C1, Z.sub_diag. reflexivity. }
  rewrite S2. cbn [shr_m exact_rec]. now rewrite (proj2 (Z.leb_le x (e64 - f64))).
Qed.

(** The value of [m * 2^e] is that of [c * 2^x]. *)
Lemma round_exact sx m e c x g : canonical c x -> g <= e -> g <= x ->
  Z.pos m * 2 ^ (e - g) = Z.pos c * 2 ^ (x - g) ->
  binary_round f64 e64 sx m e = S754_finite sx c x.
Proof.
  intros C Ge Gx E. unfold binary_round.
  assert (D : Z.pos (digits2_pos m) + e = Z.pos (digits2_pos c) + x).
  { assert (H1 := digits_shift m (Z.to_pos (Z.pos m * 2 ^ (e - g))) (e - g)).
    assert (H2 := digits_shift c (Z.to_pos (Z.pos c * 2 ^ (x - g))) (x - g)).
    assert (0 < 2 ^ (e - g)) by (apply Z.pow_pos_nonneg; lia).
    assert (0 < 2 ^ (x - g)) by (apply Z.pow_pos_nonneg; lia).
    rewrite Z2Pos.id in H1 by nia. rewrite Z2Pos.id in H2 by nia.
    specialize (H1 ltac:(lia) eq_refl). specialize (H2 ltac:(lia) eq_refl). rewrite E in H1. lia. }
  rewrite D, (proj1 C).
  destruct (Z_le_gt_dec x e) as [L|L].
  - destruct (shl_align_mul m e x L) as [A1 A2]. destruct (shl_align m e x) as [mz ez]. cbn [fst snd] in *. subst ez.
    apply round_aux_exact; auto; [lia|]. rewrite Z.sub_diag, Z.pow_0_r, A1.
    replace (e - g) with ((e - x) + (x - g)) in E by lia. rewrite Z.pow_add_r in E by lia.
    assert (0 < 2 ^ (x - g)) by (apply Z.pow_pos_nonneg; lia). nia.
  - assert (A : shl_align m e x = (m, e)). { unfold shl_align. destruct (x - e) eqn:X; auto. lia. }
    rewrite A. apply round_aux_exact; auto; [lia|].
    replace (x - g) with ((x - e) + (e - g)) in E by lia. rewrite Z.pow_add_r in E by lia.
    assert (0 < 2 ^ (e - g)) by (apply Z.pow_pos_nonneg; lia). nia.
Qed.

(** ** Integers *)
Definition limit : Z := 2 ^ 53.

(** The double of a positive integer below 2^53. *)
Lemma sf_of_pos p : Z.pos p < limit -> exists c x, sf_of_Z (Z.pos p) = S754_finite false c x /\
  canonical c x /\ -53 < x <= 0 /\ Z.pos c = Z.pos p * 2 ^ (- x).
Proof.
  intros H. set (d := Z.pos (digits2_pos p)).
  destruct (digits_bounds p) as [B1 B2]. fold d in B1, B2.
  assert (Hd : 0 < d <= 53).
  { split; [unfold d; lia|]. assert (d - 1 < 53); [|lia]. apply (Z.pow_lt_mono_r_iff 2); unfold limit in H; lia. }
  set (x := d - 53). assert (P : 0 < 2 ^ (- x)) by (apply Z.pow_pos_nonneg; lia).
  exists (Z.to_pos (Z.pos p * 2 ^ (- x))), x. rewrite Z2Pos.id by nia.
  assert (C : canonical (Z.to_pos (Z.pos p * 2 ^ (- x))) x).
  { split; [|unfold x, e64, f64; lia].
    rewrite (digits_shift p (Z.to_pos (Z.pos p * 2 ^ (- x))) (- x)) by (try rewrite Z2Pos.id; nia).
    fold d. unfold SpecFloat.fexp, emin, f64, e64, x. lia. }
  split; [|split; [auto|split; [lia|auto]]].
  unfold sf_of_Z, binary_normalize. apply round_exact with (g := x); auto; try lia.
  rewrite Z2Pos.id by nia. rewrite Z.sub_diag, Z.pow_0_r, Z.mul_1_r. f_equal.
Qed.

Lemma sf_add a b : 0 <= a -> 0 <= b -> a + b < limit ->
  SFadd f64 e64 (sf_of_Z a) (sf_of_Z b) = sf_of_Z (a + b).
Proof.
  intros Ha Hb Hs. destruct a as [|a|a]; [| |lia].
  - rewrite Z.add_0_l. destruct b as [|b|b]; [reflexivity| |lia].
    destruct (sf_of_pos b) as (c & x & -> & _); [lia|]. reflexivity.
  - destruct b as [|b|b]; [| |lia].
    + rewrite Z.add_0_r. destruct (sf_of_pos a) as (c & x & -> & _); [lia|]. reflexivity.
    + cbn [Z.add] in *. destruct (sf_of_pos a) as (c1 & x1 & -> & C1 & X1 & E1); [lia|].
      destruct (sf_of_pos b) as (c2 & x2 & -> & C2 & X2 & E2); [lia|].
      destruct (sf_of_pos (a + b)) as (c & x & -> & C & X & E); [lia|].
      cbn [SFadd cond_Zopp]. set (g := Z.min x1 x2).
      destruct (shl_align_mul c1 x1 g) as [A1 _]; [unfold g; lia|].
      destruct (shl_align_mul c2 x2 g) as [A2 _]; [unfold g; lia|].
      rewrite A1, A2, E1, E2.
      assert (S : Z.pos a * 2 ^ (- x1) * 2 ^ (x1 - g) + Z.pos b * 2 ^ (- x2) * 2 ^ (x2 - g) = Z.pos (a + b) * 2 ^ (- g)).
      { rewrite <- !Z.mul_assoc, <- !Z.pow_add_r by (unfold g; lia).
        replace (- x1 + (x1 - g)) with (- g) by lia. replace (- x2 + (x2 - g)) with (- g) by lia. lia. }
      rewrite S. assert (P : 0 < 2 ^ (- g)) by (apply Z.pow_pos_nonneg; unfold g; lia).
      destruct (Z.pos (a + b) * 2 ^ (- g)) as [|m|m] eqn:Em; try nia. cbn [binary_normalize].
      apply round_exact with (g := Z.min g x); auto; try lia.
      rewrite <- Em, E. rewrite <- !Z.mul_assoc, <- !Z.pow_add_r by (unfold g in *; lia). f_equal. f_equal. lia.
Qed.

(** An int and its double compare alike with everything. *)
Lemma ext_of_int z y : 0 <= z < limit ->
  py_leb (PFlt (sf_of_Z z)) y = py_leb (PInt z) y /\ py_leb y (PFlt (sf_of_Z z)) = py_leb y (PInt z).
Proof.
  intros Hz. destruct z as [|p|p]; [split; reflexivity| |lia].
  destruct (sf_of_pos p) as (c & x & E & _ & X & Ec); [lia|]. rewrite E. unfold py_leb. cbn [to_ext].
  destruct (to_ext y) as [|m e| |]; try (split; reflexivity).
  set (g := Z.min x (Z.min e 0)).
  rewrite !(ext_le_scale _ _ _ _ g) by (unfold g; lia).
  assert (V : Z.pos c * 2 ^ (x - g) = Z.pos p * 2 ^ (0 - g)).
  { rewrite Ec, <- Z.mul_assoc, <- Z.pow_add_r by (unfold g; lia). f_equal. f_equal. lia. }
  rewrite V. split; reflexivity.
Qed.
