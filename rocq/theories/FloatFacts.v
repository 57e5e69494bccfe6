(** Consequences of correct rounding for the Python numbers. *)

From Coq Require Import ZArith Reals Lra Lia Bool List Floats.SpecFloat.
From Verif Require Import Base Num PyNum IntFloat FloatSpec FloatRound FloatOps.
Import ListNotations.
Open Scope R_scope.

Lemma finite_double_fin x : finite_double x <-> exists f, x = PFlt f /\ fin64 f.
Proof.
  split.
  - intros ((f & -> & V) & I & N). exists f. split; auto. destruct f; cbn in *; auto; discriminate.
  - intros (f & -> & F). split; [exists f; split; auto|]; destruct f; cbn in *; auto; contradiction.
Qed.

Lemma fl_zero : fl 0 1 = PFlt (S754_zero false).
Proof. reflexivity. Qed.
Lemma one_fin : fl 1 1 = PFlt (S754_finite false 4503599627370496 (-52)).
Proof. vm_compute. reflexivity. Qed.
Lemma one_val : sfR (S754_finite false 4503599627370496 (-52)) = 1.
Proof.
  cbn [sfR signed]. replace 4503599627370496%Z with (2 ^ 52)%Z by reflexivity. rewrite <- bp_Z, <- bp_add by lia. reflexivity.
Qed.
Lemma two_fin : sf_of_Z 2 = S754_finite false 4503599627370496 (-51).
Proof. vm_compute. reflexivity. Qed.
Lemma two_val : sfR (S754_finite false 4503599627370496 (-51)) = 2.
Proof.
  cbn [sfR signed]. replace 4503599627370496%Z with (2 ^ 52)%Z by reflexivity. rewrite <- bp_Z, <- bp_add by lia. apply bp_1.
Qed.

(** ** Numbers that are doubles *)
Lemma nearest_exact q x : (0 < q <= 2 ^ 53)%Z -> (-1074 <= x)%Z -> nearest (IZR q * bp x) (IZR q * bp x).
Proof.
  intros Hq Hx. destruct q as [|c|c]; try lia. destruct (mag_pos c x) as [M1 M2].
  set (d := Z.pos (digits2_pos c)) in *. destruct (digits_bounds c) as [B1 B2]. fold d in B1, B2.
  destruct (Z.eq_dec (Z.pos c) (2 ^ 53)) as [E|NE].
  - exists (54 + x)%Z, (2 ^ 52)%Z. rewrite E in *. rewrite <- (bp_Z 53), <- bp_add in * by lia.
    replace (54 + x - 1)%Z with (53 + x)%Z by lia.
    split. { split; [lra|]. apply bp_lt. lia. }
    assert (F : fexp64 (54 + x) = (x + 1)%Z) by (rewrite fexp64_eq; lia). rewrite F.
    split. { rewrite <- (bp_Z 52) by lia. rewrite <- bp_add. f_equal. lia. }
    rewrite Rminus_eq_0, Rabs_R0. pose proof (bp_pos (x + 1)). split; [lra|]. intros EE. lra.
  - assert (D : (d <= 53)%Z).
    { destruct (Z_le_gt_dec d 53); auto. assert (2 ^ 53 <= 2 ^ (d - 1))%Z by (apply Z.pow_le_mono_r; lia). lia. }
    assert (F : (fexp64 (d + x) <= x)%Z) by (rewrite fexp64_eq; lia). set (E := fexp64 (d + x)) in *.
    exists (d + x)%Z, (Z.pos c * 2 ^ (x - E))%Z. split; [split; auto|]. fold E.
    split. { rewrite mult_IZR, <- bp_Z, Rmult_assoc, <- bp_add by lia. do 2 f_equal. lia. }
    rewrite Rminus_eq_0, Rabs_R0. pose proof (bp_pos E). split; [lra|]. intros EE. lra.
Qed.

(** A rounded number that is a double is unchanged. *)
Lemma rounds_exact q x f : (Z.abs q <= 2 ^ 53)%Z -> (-1074 <= x)%Z -> Rabs (IZR q * bp x) < bp 1024 ->
  rounds (IZR q * bp x) f -> fin64 f /\ sfR f = IZR q * bp x.
Proof.
  intros Hq Hx Hs H. pose proof (bp_pos x) as B.
  assert (Aux : forall v w s, 0 < v -> v < bp 1024 -> nearest v v -> nearest v w -> stands s w f -> fin64 f /\ sfR f = signed s v).
  { intros v w s V U N N' S. rewrite (nearest_unique _ _ _ N' N) in S. destruct S as [E|c e C E|E]; try lra.
    split; auto. cbn [sfR]. now rewrite E. }
  destruct H as [s E ->|w P N S|w P N S].
  - cbn. split; auto.
  - assert (0 < q)%Z by (apply lt_IZR; nra). rewrite Rabs_right in Hs by lra.
    apply (Aux _ w false P Hs); auto. apply nearest_exact; lia.
  - assert (q < 0)%Z by (apply lt_IZR; nra). rewrite Rabs_left in Hs by lra.
    assert (EQ : - (IZR q * bp x) = IZR (- q) * bp x) by (rewrite opp_IZR; ring).
    destruct (Aux (- (IZR q * bp x)) w true ltac:(lra) Hs) as [F1 F2]; auto.
    { rewrite EQ. apply nearest_exact; lia. }
    split; auto. rewrite F2. cbn [signed]. ring.
Qed.

Lemma double_exists q x : (Z.abs q <= 2 ^ 53)%Z -> (-1074 <= x)%Z -> Rabs (IZR q * bp x) < bp 1024 ->
  exists f, fin64 f /\ sfR f = IZR q * bp x.
Proof. intros H1 H2 H3. eexists. apply (rounds_exact q x); auto. apply normalize_spec. Qed.

Lemma sfR_quantum f : fin64 f -> exists q x, sfR f = IZR q * bp x /\ (Z.abs q < 2 ^ 53)%Z /\ (-1074 <= x)%Z.
Proof.
  destruct f as [s| | |s c x]; cbn [fin64]; try contradiction; intros H.
  - exists 0%Z, 0%Z. cbn [sfR]. split; [ring|]. split; [reflexivity|lia].
  - exists (if s then Z.neg c else Z.pos c), x. rewrite signed_Z. split; [reflexivity|].
    destruct (bounded_split c x H) as [H1 _]. apply Zeq_bool_eq in H1.
    set (d := Z.pos (digits2_pos c)) in *. fold (fexp64 (d + x)) in H1. rewrite fexp64_eq in H1.
    destruct (digits_bounds c) as [_ B]. fold d in B.
    assert (2 ^ d <= 2 ^ 53)%Z by (apply Z.pow_le_mono_r; lia). split; [destruct s; lia|lia].
Qed.

(** ** Validity is kept *)
Definition valid64 (f : spec_float) : Prop := valid_binary f64 e64 f = true.

Lemma valid_cases f : valid64 f -> fin64 f \/ (exists s, f = S754_infinity s) \/ f = S754_nan.
Proof. destruct f; cbn; eauto. Qed.

Lemma rounds_valid v f : rounds v f -> valid64 f.
Proof. intros H. destruct (rounds_fin v f H) as [F|[s ->]]; [|reflexivity]. now destruct f. Qed.

Lemma fin_valid f : fin64 f -> valid64 f.
Proof. now destruct f. Qed.

Lemma valid_add f g : valid64 f -> valid64 g -> valid64 (SFadd f64 e64 f g).
Proof.
  intros Hf Hg. destruct (valid_cases f Hf) as [F|[[s ->]| ->]], (valid_cases g Hg) as [G|[[s' ->]| ->]];
    try (eapply rounds_valid; apply add_rounds; auto; fail);
    try (destruct f); try (destruct g); cbn; try reflexivity; try contradiction; try (destruct (Bool.eqb _ _); reflexivity).
Qed.
Lemma valid_sub f g : valid64 f -> valid64 g -> valid64 (SFsub f64 e64 f g).
Proof.
  intros Hf Hg. destruct (valid_cases f Hf) as [F|[[s ->]| ->]], (valid_cases g Hg) as [G|[[s' ->]| ->]];
    try (eapply rounds_valid; apply sub_rounds; auto; fail);
    try (destruct f); try (destruct g); cbn; try reflexivity; try contradiction; try (destruct (Bool.eqb _ _); reflexivity).
Qed.
Lemma valid_mul f g : valid64 f -> valid64 g -> valid64 (SFmul f64 e64 f g).
Proof.
  intros Hf Hg. destruct (valid_cases f Hf) as [F|[[s ->]| ->]], (valid_cases g Hg) as [G|[[s' ->]| ->]];
    try (eapply rounds_valid; apply mul_rounds; auto; fail);
    try (destruct f); try (destruct g); cbn; try reflexivity; try contradiction.
Qed.
Lemma valid_div f g : valid64 f -> valid64 g -> valid64 (SFdiv f64 e64 f g).
Proof.
  intros Hf Hg. destruct (valid_cases f Hf) as [F|[[s ->]| ->]], (valid_cases g Hg) as [G|[[s' ->]| ->]];
    try (destruct f; try contradiction; reflexivity); try (destruct g; try contradiction; reflexivity); try reflexivity.
  destruct g as [s'| | |s' c' x']; try contradiction; [destruct f; try contradiction; reflexivity|].
  eapply rounds_valid, div_rounds; auto. cbn [sfR]. destruct (finite_small c' x' G) as [P _]. destruct s'; cbn [signed]; lra.
Qed.
Lemma valid_of_Z z : valid64 (sf_of_Z z).
Proof. eapply rounds_valid, of_Z_rounds. Qed.

Lemma double_arith2 fi ff x y : (forall f g, valid64 f -> valid64 g -> valid64 (ff f g)) ->
  nisfloat x = true \/ nisfloat y = true ->
  (double x \/ nisfloat x = false) -> (double y \/ nisfloat y = false) -> double (arith2 fi ff x y).
Proof.
  intros C I Hx Hy.
  assert (Vx : valid64 (tofl x)) by (destruct Hx as [(f & -> & V)|N]; [exact V|destruct x; [apply valid_of_Z|discriminate]]).
  assert (Vy : valid64 (tofl y)) by (destruct Hy as [(f & -> & V)|N]; [exact V|destruct y; [apply valid_of_Z|discriminate]]).
  destruct x as [x|x], y as [y|y]; try (destruct I; discriminate); eexists; (split; [reflexivity|apply C; auto]).
Qed.

(** ** Sums of non-negative doubles *)
Definition nn64 (f : spec_float) : Prop :=
  match f with
  | S754_zero false | S754_infinity false => True
  | S754_finite false c x => bounded f64 e64 c x = true
  | _ => False
  end.

Lemma nn_value f : nn64 f -> 0 <= sfR f.
Proof.
  destruct f as [[]|[]| |[] c x]; cbn [nn64 sfR signed]; try contradiction; try lra. intros H.
  pose proof (finite_small c x H). lra.
Qed.
Lemma nn_fin f : nn64 f -> fin64 f \/ f = S754_infinity false.
Proof. destruct f as [[]|[]| |[] c x]; cbn; auto; contradiction. Qed.

Lemma rounds_nn v f : 0 < v -> rounds v f -> nn64 f.
Proof. intros V [s E|w P N S|w P N S]; try lra. destruct S; cbn; auto. Qed.

Lemma fle_inf f : nn64 f -> fle f (S754_infinity false) = true.
Proof. destruct f as [[]|[]| |[] c x]; cbn; auto; contradiction. Qed.

Lemma nn_add f g : nn64 f -> nn64 g ->
  nn64 (SFadd f64 e64 f g) /\ fle f (SFadd f64 e64 f g) = true /\ fle g (SFadd f64 e64 f g) = true.
Proof.
  intros Hf Hg. destruct (nn_fin f Hf) as [F| ->].
  - destruct (nn_fin g Hg) as [G| ->].
    + pose proof (add_rounds f g F G) as A. pose proof (nn_value f Hf) as Vf. pose proof (nn_value g Hg) as Vg.
      split; [|split; eapply rounds_mono; try exact A; try (apply rounds_self; assumption); lra].
      destruct (Req_dec (sfR f + sfR g) 0) as [E|N]; [|apply rounds_nn in A; auto; lra].
      destruct f as [[]| | |s c x]; try contradiction.
      * destruct g as [[]| | |s' c' x']; try contradiction; [reflexivity|]. exact Hg.
      * destruct s; [contradiction|]. pose proof (finite_small c x F). cbn [sfR signed] in E, Vg. lra.
    + destruct f as [[]| | |[] c x]; try contradiction; cbn [SFadd]; split; auto; split; auto.
  - destruct g as [[]|[]| |[] c x]; try contradiction; cbn; auto.
Qed.

Lemma length_nn l : length_double l <-> exists f, l = PFlt f /\ nn64 f /\ fin64 f.
Proof.
  split.
  - intros (H & L & M). apply finite_double_fin in H. destruct H as (f & -> & F). exists f. split; auto. split; auto.
    destruct f as [[]| | |[] c x]; cbn [nn64 fin64] in *; auto; try contradiction; try (now contradiction M).
    rewrite fl_zero in L. pose proof (proj1 (fle_R (S754_zero false) (S754_finite true c x) I F) L) as V.
    cbn [sfR signed] in V. pose proof (finite_small c x F). lra.
  - intros (f & -> & N & F). split; [apply finite_double_fin; eauto|]. split.
    + rewrite fl_zero. apply (fle_R (S754_zero false) f I F). apply nn_value in N. exact N.
    + intros [= ->]. contradiction.
Qed.

Lemma cmp_total (x y : pynum) : nisnan x = false -> nisnan y = false -> py_leb x y = true \/ py_leb y x = true.
Proof.
  intros Hx Hy. apply ext_total; [destruct x as [|[]]|destruct y as [|[]]]; cbn in *; try discriminate;
    destruct s; discriminate.
Qed.

Lemma not_lt (x y : pynum) : nleb x y = true -> nltb y x = false.
Proof. cbn [nleb nltb PNum]. intros H. unfold py_ltb. rewrite H. apply andb_false_r. Qed.
Lemma lt_or (x y : pynum) : nisnan x = false -> nisnan y = false -> nltb y x = false -> nleb x y = true.
Proof.
  cbn [nleb nltb PNum]. intros Hx Hy H. unfold py_ltb in H. destruct (cmp_total x y Hx Hy) as [A|A]; auto.
  rewrite A in H. destruct (py_leb x y); auto.
Qed.
