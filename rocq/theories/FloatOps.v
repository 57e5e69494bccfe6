(** Addition, subtraction, multiplication and division of doubles give the exact result
    rounded to the nearest double, and rounding is monotone. *)

From Coq Require Import ZArith Reals Lra Lia Bool Floats.SpecFloat.
From Verif Require Import Base Num PyNum IntFloat FloatRound.
Open Scope R_scope.

(** ** The values of doubles *)

Definition signed (s : bool) (r : R) : R := if s then - r else r.

Definition sfR (f : spec_float) : R :=
  match f with S754_finite s c x => signed s (IZR (Z.pos c) * bp x) | _ => 0 end.

(** A finite double: a zero, or a mantissa of at most 53 bits with its exponent. *)
Definition fin64 (f : spec_float) : Prop :=
  match f with S754_zero _ => True | S754_finite _ c x => bounded f64 e64 c x = true | _ => False end.

(** [f] is the double nearest to [v]. *)
Inductive rounds (v : R) (f : spec_float) : Prop :=
| r_zero s : v = 0 -> f = S754_zero s -> rounds v f
| r_pos w : 0 < v -> nearest v w -> stands false w f -> rounds v f
| r_neg w : v < 0 -> nearest (- v) w -> stands true w f -> rounds v f.

Lemma bounded_split c x : bounded f64 e64 c x = true ->
  canonical_mantissa f64 e64 c x = true /\ (x <= 971)%Z.
Proof.
  intros H. apply andb_true_iff in H. destruct H as [H1 H2]. split; auto. apply Zle_is_le_bool in H2. exact H2.
Qed.

Lemma finite_small c x : bounded f64 e64 c x = true -> 0 < IZR (Z.pos c) * bp x < bp 1024.
Proof.
  intros H. destruct (bounded_split c x H) as [H1 H2]. apply Zeq_bool_eq in H1. destruct (mag_pos c x) as [_ M].
  set (d := Z.pos (digits2_pos c)) in *. fold (fexp64 (d + x)) in H1. rewrite fexp64_eq in H1.
  split. { apply Rmult_lt_0_compat; [apply IZR_lt; lia|apply bp_pos]. }
  eapply Rlt_le_trans; [exact M|]. apply bp_le. lia.
Qed.

Definition fle (f g : spec_float) : bool := py_leb (PFlt f) (PFlt g).

Lemma ext_leb_R m1 e1 m2 e2 : ext_leb (EFin m1 e1) (EFin m2 e2) = true <-> IZR m1 * bp e1 <= IZR m2 * bp e2.
Proof.
  set (E := Z.min e1 e2). rewrite (ext_le_scale _ _ _ _ E) by (unfold E; lia). rewrite Z.leb_le.
  assert (A1 : IZR m1 * bp e1 = IZR (m1 * 2 ^ (e1 - E)) * bp E).
  { rewrite mult_IZR, <- bp_Z by (unfold E; lia). rewrite Rmult_assoc, <- bp_add. do 2 f_equal. lia. }
  assert (A2 : IZR m2 * bp e2 = IZR (m2 * 2 ^ (e2 - E)) * bp E).
  { rewrite mult_IZR, <- bp_Z by (unfold E; lia). rewrite Rmult_assoc, <- bp_add. do 2 f_equal. lia. }
  rewrite A1, A2. pose proof (bp_pos E). split; intros H'.
  - apply Rmult_le_compat_r; [lra|now apply IZR_le].
  - apply le_IZR. apply Rmult_le_reg_r with (bp E); auto.
Qed.

Lemma signed_Z (s : bool) c x : IZR (if s then Z.neg c else Z.pos c) * bp x = signed s (IZR (Z.pos c) * bp x).
Proof. destruct s; cbn [signed]; auto. change (Z.neg c) with (- Z.pos c)%Z. rewrite opp_IZR. ring. Qed.

Lemma fle_R f g : fin64 f -> fin64 g -> fle f g = true <-> sfR f <= sfR g.
Proof.
  intros Hf Hg. unfold fle, py_leb.
  destruct f as [s| | |s c x]; try contradiction; destruct g as [s'| | |s' c' x']; try contradiction;
    cbn [to_ext sfR]; rewrite ext_leb_R, ?signed_Z, ?Rmult_0_l; reflexivity.
Qed.

Lemma int_fle_R z g : fin64 g -> py_leb (PInt z) (PFlt g) = true <-> IZR z <= sfR g.
Proof.
  intros Hg. unfold py_leb. destruct g as [s'| | |s' c' x']; try contradiction; cbn [to_ext sfR];
    rewrite ext_leb_R, ?signed_Z, ?Rmult_0_l, bp_0, Rmult_1_r; reflexivity.
Qed.

Lemma fle_int_R z g : fin64 g -> py_leb (PFlt g) (PInt z) = true <-> sfR g <= IZR z.
Proof.
  intros Hg. unfold py_leb. destruct g as [s'| | |s' c' x']; try contradiction; cbn [to_ext sfR];
    rewrite ext_leb_R, ?signed_Z, ?Rmult_0_l, bp_0, Rmult_1_r; reflexivity.
Qed.

(** ** Rounding is monotone *)

Lemma rounds_self f : fin64 f -> rounds (sfR f) f.
Proof.
  destruct f as [s| | |s c x]; cbn [fin64 sfR]; try contradiction; intros H.
  - now apply r_zero with s.
  - destruct (bounded_split c x H) as [H1 _]. pose proof (nearest_self c x H1) as N. destruct (finite_small c x H) as [P _].
    destruct s; cbn [signed].
    + apply r_neg with (IZR (Z.pos c) * bp x); [lra| |now apply st_fin]. now rewrite Ropp_involutive.
    + apply r_pos with (IZR (Z.pos c) * bp x); auto. now apply st_fin.
Qed.

Lemma stands_le w w' f f' : stands false w f -> stands false w' f' -> w <= w' -> fle f f' = true.
Proof.
  intros H H' L. destruct H as [E|c x B E|E], H' as [E'|c' x' B' E'|E']; unfold fle, py_leb; cbn [to_ext]; try reflexivity;
    try (rewrite ext_leb_R); try (pose proof (finite_small _ _ B)); try (pose proof (finite_small _ _ B')); pose proof (bp_pos 1024);
    pose proof bp_0; lra.
Qed.

Lemma stands_opp w f : stands true w f -> stands false w (SFopp f).
Proof. intros [E|c x B E|E]; cbn [SFopp negb]; [now apply st_zero|now apply st_fin|now apply st_inf]. Qed.

Lemma fle_opp f g : fle (SFopp f) (SFopp g) = fle g f.
Proof.
  unfold fle, py_leb. destruct f as [s|[]| |s c x], g as [s'|[]| |s' c' x']; cbn [SFopp to_ext negb]; try reflexivity;
    apply Bool.eq_iff_eq_true; rewrite !ext_leb_R, ?signed_Z; try destruct s; try destruct s'; cbn [signed negb]; lra.
Qed.

Lemma stands_signs w w' f f' : stands true w f -> 0 <= w -> stands false w' f' -> 0 <= w' -> fle f f' = true.
Proof.
  intros H P H' P'. destruct H as [E|c x B E|E], H' as [E'|c' x' B' E'|E']; unfold fle, py_leb; cbn [to_ext]; try reflexivity;
    rewrite ext_leb_R, ?(signed_Z true c x); cbn [signed];
    try (pose proof (finite_small _ _ B)); try (pose proof (finite_small _ _ B')); pose proof bp_0; try lra.
Qed.

Lemma rounds_mono v v' f f' : rounds v f -> rounds v' f' -> v <= v' -> fle f f' = true.
Proof.
  intros H H' L.
  destruct H as [s E ->|w P N S|w P N S], H' as [s' E' ->|w' P' N' S'|w' P' N' S']; try lra.
  - reflexivity.
  - apply (stands_le 0 w' _ _ (st_zero false 0 eq_refl) S'). eapply nearest_nonneg; eauto.
  - eapply stands_le; eauto. eapply nearest_mono; eauto.
  - change (fle f (S754_zero false) = true). apply (stands_signs w 0 _ _ S); [eapply nearest_nonneg; eauto| |lra]. now apply st_zero with (s := false).
  - eapply stands_signs; eauto; eapply nearest_nonneg; eauto.
  - rewrite <- fle_opp. eapply stands_le; [apply stands_opp; eauto|apply stands_opp; eauto|].
    eapply nearest_mono; eauto. lra.
Qed.

Lemma rounds_nan v f : rounds v f -> f <> S754_nan.
Proof. intros [s E ->|w P N [ | | ]|w P N [ | | ]]; discriminate. Qed.

Lemma rounds_fin v f : rounds v f -> fin64 f \/ exists s, f = S754_infinity s.
Proof. intros [s E ->|w P N [ | | ]|w P N [ | | ]]; cbn; eauto. Qed.

(** Between two finite doubles, the nearest double is finite and between them too. *)
Lemma rounds_between v f lo hi : rounds v f -> fin64 lo -> fin64 hi -> sfR lo <= v <= sfR hi ->
  fin64 f /\ sfR lo <= sfR f <= sfR hi.
Proof.
  intros H Hl Hh [L1 L2].
  pose proof (rounds_mono _ _ _ _ (rounds_self lo Hl) H L1) as A1.
  pose proof (rounds_mono _ _ _ _ H (rounds_self hi Hh) L2) as A2.
  assert (F : fin64 f).
  { destruct (rounds_fin v f H) as [F|[s ->]]; auto.
    destruct s; [destruct lo|destruct hi]; cbn in *; try contradiction; unfold fle, py_leb in *; cbn in *; discriminate. }
  split; auto. split; now apply fle_R.
Qed.

(** ** The operations *)

Lemma binary_round_spec s m e : rounds (signed s (IZR (Z.pos m) * bp e)) (binary_round f64 e64 s m e).
Proof.
  set (v := IZR (Z.pos m) * bp e). assert (V : 0 < v) by (apply Rmult_lt_0_compat; [apply IZR_lt; lia|apply bp_pos]).
  unfold binary_round. fold (fexp64 (Z.pos (digits2_pos m) + e)). set (x := fexp64 (Z.pos (digits2_pos m) + e)).
  assert (K : exists mz ez, shl_align m e x = (mz, ez) /\ IZR (Z.pos mz) = v / bp ez /\ (ez <= fexp64 (Zdigits2 (Z.pos mz) + ez))%Z).
  { destruct (Z_le_gt_dec x e) as [L|L].
    - destruct (shl_align_mul m e x L) as [S1 S2]. destruct (shl_align m e x) as [mz ez]. cbn [fst snd] in *. subst ez.
      exists mz, x. split; auto. split.
      + rewrite S1, mult_IZR, <- bp_Z by lia. unfold v. rewrite (bp_shift e x). pose proof (bp_pos x). field. lra.
      + cbn [Zdigits2]. rewrite (digits_shift m mz (e - x)) by (auto; lia).
        replace (Z.pos (digits2_pos m) + (e - x) + x)%Z with (Z.pos (digits2_pos m) + e)%Z by lia. fold x. lia.
    - exists m, e. split.
      + unfold shl_align. destruct (x - e)%Z eqn:D; auto. lia.
      + split; [unfold v; pose proof (bp_pos e); field; lra|]. cbn [Zdigits2]. fold x. lia. }
  destruct K as (mz & ez & -> & K1 & K2).
  destruct (round_aux_spec s (Z.pos mz) ez loc_Exact v ltac:(lia) V (eq_sym K1) K2) as (w & N & S).
  destruct s; cbn [signed].
  - apply r_neg with w; [lra|now rewrite Ropp_involutive|exact S].
  - now apply r_pos with w.
Qed.

Lemma normalize_spec m e : rounds (IZR m * bp e) (binary_normalize f64 e64 m e false).
Proof.
  destruct m as [|m|m]; cbn [binary_normalize].
  - apply r_zero with false; [ring|reflexivity].
  - apply (binary_round_spec false).
  - pose proof (binary_round_spec true m e) as H. rewrite <- (signed_Z true) in H. exact H.
Qed.

Lemma of_Z_rounds z : rounds (IZR z) (sf_of_Z z).
Proof. pose proof (normalize_spec z 0) as H. rewrite bp_0, Rmult_1_r in H. exact H. Qed.

Lemma cond_R s c x E : (E <= x)%Z ->
  IZR (cond_Zopp s (Z.pos (fst (shl_align c x E)))) * bp E = signed s (IZR (Z.pos c) * bp x).
Proof.
  intros H. destruct (shl_align_mul c x E H) as [-> _].
  assert (A : IZR (Z.pos c * 2 ^ (x - E)) * bp E = IZR (Z.pos c) * bp x).
  { rewrite mult_IZR, <- bp_Z, Rmult_assoc, <- bp_add by lia. do 2 f_equal. lia. }
  destruct s; cbn [cond_Zopp signed]; auto. rewrite opp_IZR. lra.
Qed.

Lemma add_rounds x y : fin64 x -> fin64 y -> rounds (sfR x + sfR y) (SFadd f64 e64 x y).
Proof.
  intros Hx Hy. destruct x as [s| | |s c e]; try contradiction; destruct y as [s'| | |s' c' e']; try contradiction;
    cbn [SFadd].
  - cbn [sfR]. destruct (Bool.eqb s s'); eapply r_zero; try reflexivity; ring.
  - cbn [sfR]. rewrite Rplus_0_l. apply (rounds_self _ Hy).
  - replace (sfR (S754_finite s c e) + sfR (S754_zero s')) with (sfR (S754_finite s c e)) by (cbn [sfR]; ring).
    apply (rounds_self _ Hx).
  - cbn [sfR]. pose proof (normalize_spec (cond_Zopp s (Z.pos (fst (shl_align c e (Z.min e e')))) + cond_Zopp s' (Z.pos (fst (shl_align c' e' (Z.min e e'))))) (Z.min e e')) as H.
    rewrite plus_IZR, Rmult_plus_distr_r, !cond_R in H by lia. exact H.
Qed.

Lemma sub_rounds x y : fin64 x -> fin64 y -> rounds (sfR x - sfR y) (SFsub f64 e64 x y).
Proof.
  intros Hx Hy. destruct x as [s| | |s c e]; try contradiction; destruct y as [s'| | |s' c' e']; try contradiction;
    cbn [SFsub].
  - cbn [sfR]. destruct (Bool.eqb s (negb s')); eapply r_zero; try reflexivity; ring.
  - replace (sfR (S754_zero s) - sfR (S754_finite s' c' e')) with (sfR (S754_finite (negb s') c' e'))
      by (cbn [sfR]; destruct s'; cbn [negb signed]; ring).
    apply rounds_self. exact Hy.
  - replace (sfR (S754_finite s c e) - sfR (S754_zero s')) with (sfR (S754_finite s c e)) by (cbn [sfR]; ring).
    apply (rounds_self _ Hx).
  - cbn [sfR]. pose proof (normalize_spec (cond_Zopp s (Z.pos (fst (shl_align c e (Z.min e e')))) - cond_Zopp s' (Z.pos (fst (shl_align c' e' (Z.min e e'))))) (Z.min e e')) as H.
    rewrite minus_IZR, Rmult_minus_distr_r, !cond_R in H by lia. exact H.
Qed.

Lemma signed_rounds s v w f : 0 < v -> nearest v w -> stands s w f -> rounds (signed s v) f.
Proof.
  intros V N S. destruct s; cbn [signed].
  - apply r_neg with w; [lra|now rewrite Ropp_involutive|exact S].
  - now apply r_pos with w.
Qed.

Lemma signed_mul s s' a b : signed s a * signed s' b = signed (xorb s s') (a * b).
Proof. destruct s, s'; cbn [signed xorb]; ring. Qed.

Lemma digits_mul a b : (Z.pos (digits2_pos a) + Z.pos (digits2_pos b) - 1 <= Z.pos (digits2_pos (a * b)))%Z.
Proof.
  destruct (digits_bounds a) as [A1 A2], (digits_bounds b) as [B1 B2], (digits_bounds (a * b)) as [C1 C2].
  set (da := Z.pos (digits2_pos a)) in *. set (db := Z.pos (digits2_pos b)) in *. set (dc := Z.pos (digits2_pos (a * b))) in *.
  assert (0 < da)%Z by (unfold da; lia). assert (0 < db)%Z by (unfold db; lia). assert (0 < dc)%Z by (unfold dc; lia).
  assert (2 ^ (da - 1 + (db - 1)) < 2 ^ dc)%Z as L.
  { rewrite Z.pow_add_r by lia. rewrite Pos2Z.inj_mul in C2.
    assert (0 < 2 ^ (da - 1))%Z by (apply Z.pow_pos_nonneg; lia). assert (0 < 2 ^ (db - 1))%Z by (apply Z.pow_pos_nonneg; lia). nia. }
  apply Z.pow_lt_mono_r_iff in L; lia.
Qed.

Lemma mul_rounds x y : fin64 x -> fin64 y -> rounds (sfR x * sfR y) (SFmul f64 e64 x y).
Proof.
  intros Hx Hy. destruct x as [s| | |s c e]; try contradiction; destruct y as [s'| | |s' c' e']; try contradiction;
    cbn [SFmul sfR]; try (eapply r_zero; [|reflexivity]; ring).
  rewrite signed_mul. set (v := IZR (Z.pos c) * bp e * (IZR (Z.pos c') * bp e')).
  destruct (finite_small _ _ Hx) as [P _], (finite_small _ _ Hy) as [P' _].
  assert (V : 0 < v) by now apply Rmult_lt_0_compat.
  destruct (bounded_split _ _ Hx) as [C1 _], (bounded_split _ _ Hy) as [C1' _]. apply Zeq_bool_eq in C1, C1'.
  pose proof (digits_mul c c') as D.
  destruct (round_aux_spec (xorb s s') (Z.pos (c * c')) (e + e') loc_Exact v ltac:(lia) V) as (w & N & S).
  - cbn [inb]. unfold v. rewrite Pos2Z.inj_mul, mult_IZR, bp_add. pose proof (bp_pos e). pose proof (bp_pos e'). field. lra.
  - cbn [Zdigits2]. fold (fexp64 (Z.pos (digits2_pos c) + e)) in C1. fold (fexp64 (Z.pos (digits2_pos c') + e')) in C1'.
    rewrite fexp64_eq in *. lia.
  - eapply signed_rounds; eauto.
Qed.

Lemma new_location_spec m r q : (0 <= r < m)%Z -> inb q (new_location m r) (IZR q + IZR r / IZR m).
Proof.
  intros H. assert (P : 0 < IZR m) by (apply IZR_lt; lia).
  assert (T : IZR r / IZR m = IZR r * / IZR m) by reflexivity. pose proof (Rinv_0_lt_compat _ P) as I.
  assert (II : IZR m * / IZR m = 1) by (apply Rinv_r; lra). set (i := / IZR m) in *.
  assert (L1 : forall k, (2 * r < k)%Z -> IZR k <= IZR m -> IZR r / IZR m < 1 / 2).
  { intros k Hk Hm. apply IZR_lt in Hk. rewrite mult_IZR in Hk. rewrite T. nra. }
  assert (L2 : (m < 2 * r)%Z -> 1 / 2 < IZR r / IZR m).
  { intros Hk. apply IZR_lt in Hk. rewrite mult_IZR in Hk. rewrite T. nra. }
  assert (L3 : IZR r / IZR m < 1).
  { rewrite T. assert (IZR r < IZR m) by (apply IZR_lt; lia). nra. }
  unfold new_location. destruct (Z.even m) eqn:EV; unfold new_location_even, new_location_odd;
    destruct (Zeq_bool r 0) eqn:Z0; try (apply Zeq_bool_eq in Z0; subst r; cbn [inb]; rewrite T; lra);
    apply Zeq_bool_neq in Z0; assert (R0 : 0 < IZR r) by (apply IZR_lt; lia);
    assert (R1 : 0 < IZR r / IZR m) by (rewrite T; nra).
  - destruct (2 * r ?= m)%Z eqn:C.
    + apply Z.compare_eq in C. cbn [inb]. rewrite T. apply (f_equal IZR) in C. rewrite mult_IZR in C. nra.
    + rewrite Z.compare_lt_iff in C. cbn [inb]. specialize (L1 m C ltac:(lra)). lra.
    + rewrite Z.compare_gt_iff in C. cbn [inb]. specialize (L2 C). lra.
  - assert (O : (2 * r <> m)%Z). { intros <-. rewrite Z.even_mul in EV. discriminate. }
    destruct (2 * r + 1 ?= m)%Z eqn:C.
    + apply Z.compare_eq in C. cbn [inb]. specialize (L1 m ltac:(lia) ltac:(lra)). lra.
    + rewrite Z.compare_lt_iff in C. cbn [inb]. specialize (L1 m ltac:(lia) ltac:(lra)). lra.
    + rewrite Z.compare_gt_iff in C. cbn [inb]. specialize (L2 ltac:(lia)). lra.
Qed.

Lemma div_rounds x y : fin64 x -> fin64 y -> sfR y <> 0 -> rounds (sfR x / sfR y) (SFdiv f64 e64 x y).
Proof.
  intros Hx Hy Y. destruct x as [s| | |s c e]; try contradiction; destruct y as [s'| | |s' c' e']; try contradiction;
    try (exfalso; apply Y; reflexivity); cbn [SFdiv].
  - cbn [sfR]. eapply r_zero; [|reflexivity]. unfold Rdiv. ring.
  - set (v := IZR (Z.pos c) * bp e / (IZR (Z.pos c') * bp e')).
    destruct (finite_small _ _ Hx) as [P _], (finite_small _ _ Hy) as [P' _].
    assert (V : 0 < v) by (apply Rdiv_lt_0_compat; auto).
    assert (C' : 0 < IZR (Z.pos c')) by (apply IZR_lt; lia). pose proof (bp_pos e') as Be'.
    replace (sfR (S754_finite s c e) / sfR (S754_finite s' c' e')) with (signed (xorb s s') v)
      by (unfold v; cbn [sfR]; destruct s, s'; cbn [signed xorb]; field; lra).
    unfold SFdiv_core_binary. cbn [Zdigits2].
    set (d := Z.pos (digits2_pos c)). set (d' := Z.pos (digits2_pos c')).
    fold (fexp64 (d + e - (d' + e'))). set (D := (d + e - (d' + e'))%Z).
    set (E := Z.min (fexp64 D) (e - e')).
    assert (S0 : (0 <= e - e' - E)%Z) by (unfold E; lia).
    assert (K : match (e - e' - E)%Z with 0%Z => Z.pos c | Z.pos _ => Z.shiftl (Z.pos c) (e - e' - E) | Z.neg _ => 0%Z end
      = (Z.pos c * 2 ^ (e - e' - E))%Z).
    { destruct (e - e' - E)%Z as [|p|p] eqn:Q; [now rewrite Z.mul_1_r|apply Z.shiftl_mul_pow2; lia|lia]. }
    rewrite K. set (m := (Z.pos c * 2 ^ (e - e' - E))%Z).
    pose proof (Z.div_eucl_eq m (Z.pos c') ltac:(lia)) as DE. pose proof (Z_mod_lt m (Z.pos c') ltac:(lia)) as MB.
    pose proof (Z.div_pos m (Z.pos c')) as QP. unfold Z.modulo in MB. unfold Z.div in QP.
    destruct (Z.div_eucl m (Z.pos c')) as [q r].
    assert (M0 : (0 <= m)%Z) by (unfold m; apply Z.mul_nonneg_nonneg; [lia|apply Z.pow_nonneg; lia]).
    specialize (QP M0 ltac:(lia)).
    assert (VE : v / bp E = IZR q + IZR r / IZR (Z.pos c')).
    { assert (IZR m = IZR (Z.pos c') * IZR q + IZR r) as DR by (rewrite DE, plus_IZR, mult_IZR; reflexivity).
      replace (IZR q + IZR r / IZR (Z.pos c')) with (IZR m / IZR (Z.pos c')) by (rewrite DR; field; lra).
      unfold m. rewrite mult_IZR, <- bp_Z by lia. unfold v.
      rewrite (bp_shift e (e' + E)), bp_add. replace (e - (e' + E))%Z with (e - e' - E)%Z by lia.
      pose proof (bp_pos e'). pose proof (bp_pos E). field. lra. }
    assert (I : inb q (new_location (Z.pos c') r) (v / bp E)) by (rewrite VE; apply new_location_spec; lia).
    destruct (round_aux_spec (xorb s s') q E (new_location (Z.pos c') r) v QP V I) as (w & N & S).
    + destruct (mag_pos c e) as [M1 _]. destruct (mag_pos c' e') as [_ M2]. fold d in M1. fold d' in M2.
      assert (VL : bp (D - 1) < v).
      { apply Rmult_lt_reg_r with (IZR (Z.pos c') * bp e'); auto.
        replace (v * (IZR (Z.pos c') * bp e')) with (IZR (Z.pos c) * bp e) by (unfold v; field; pose proof (bp_pos e'); lra).
        apply Rlt_le_trans with (bp (D - 1) * bp (d' + e')); [apply Rmult_lt_compat_l; [apply bp_pos|exact M2]|].
        rewrite <- bp_add. replace (D - 1 + (d' + e'))%Z with (d + e - 1)%Z by (unfold D; lia). exact M1. }
      apply inb_range in I. destruct I as [_ I]. pose proof (bp_pos E) as BE.
      assert (VU : v < (IZR q + 1) * bp E).
      { apply Rmult_lt_compat_r with (r := bp E) in I; auto. unfold Rdiv in I. rewrite Rmult_assoc, Rinv_l, Rmult_1_r in I; lra. }
      destruct q as [|q|q]; [| |lia].
      * assert (bp (D - 1) < bp E) as W by lra. apply bp_lt_inv in W. cbn [Zdigits2].
        assert (EF : (E <= fexp64 D)%Z) by (unfold E; lia). rewrite !fexp64_eq in *. lia.
      * cbn [Zdigits2]. destruct (digits_bounds q) as [_ B]. set (dq := Z.pos (digits2_pos q)) in *.
        assert (bp (D - 1) < bp (dq + E)) as W.
        { eapply Rlt_le_trans; [exact VL|]. apply Rlt_le. eapply Rlt_le_trans; [exact VU|].
          rewrite bp_add, (bp_Z dq) by (unfold dq; lia). apply Rmult_le_compat_r; [lra|]. rewrite <- plus_IZR. apply IZR_le. lia. }
        apply bp_lt_inv in W. assert (EF : (E <= fexp64 D)%Z) by (unfold E; lia). rewrite !fexp64_eq in *. lia.
    + eapply signed_rounds; eauto.
Qed.
