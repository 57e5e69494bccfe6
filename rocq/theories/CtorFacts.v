(** What the constructors of Element and Circle accept. *)

From Coq Require Import ZArith Reals Lra Lia List Bool Floats.SpecFloat.
From Verif Require Import Base Num RNum PyNum LoadCase Beam Material.
Import ListNotations.

Lemma element_R {S} (loads : list (Z * lcase R)) length (section : option S) :
  ((forall l, length = Some l -> (0 <= l)%R) ->
     exists e, element loads length section = Ok e
               /\ elength e = length /\ esection e = section /\ eloads e = loads)
  /\ (forall l, length = Some l -> (l < 0)%R -> element loads length section = Err ElementLengthError).
Proof.
  assert (Z0 : @nflt R RNum 0 1 = 0%R) by (cbn; lra). split.
  - intros H. unfold element. destruct length as [l|]; [|eexists; split; [reflexivity|auto]].
    rewrite Z0. change nltb with Rltb. specialize (H l eq_refl).
    destruct (Rltb l 0) eqn:E; [apply Rltb_true in E; lra|]. eexists. split; [reflexivity|auto].
  - intros l -> H. unfold element. rewrite Z0. change nltb with Rltb. now rewrite (proj2 (Rltb_true l 0)).
Qed.

(** A number below zero; a number at or above it (neither for NaN). *)
Definition below_zero (x : pynum) : Prop :=
  match x with
  | PInt z => (z < 0)%Z
  | PFlt (S754_finite true _ _) | PFlt (S754_infinity true) => True
  | _ => False
  end.
Definition from_zero (x : pynum) : Prop :=
  match x with
  | PInt z => (0 <= z)%Z
  | PFlt (S754_zero _) | PFlt (S754_finite false _ _) | PFlt (S754_infinity false) => True
  | _ => False
  end.

Lemma zero_le m e : ext_leb (EFin 0 0) (EFin m e) = (0 <=? m)%Z.
Proof.
  cbn [ext_leb]. rewrite Z.mul_0_l.
  assert (P : (0 < 2 ^ (e - Z.min 0 e))%Z) by (apply Z.pow_pos_nonneg; lia).
  destruct (Z.leb_spec 0 m); [apply Z.leb_le|apply Z.leb_gt]; nia.
Qed.
Lemma le_zero m e : ext_leb (EFin m e) (EFin 0 0) = (m <=? 0)%Z.
Proof.
  cbn [ext_leb]. rewrite Z.mul_0_l.
  assert (P : (0 < 2 ^ (e - Z.min e 0))%Z) by (apply Z.pow_pos_nonneg; lia).
  destruct (Z.leb_spec m 0); [apply Z.leb_le|apply Z.leb_gt]; nia.
Qed.

Lemma below_zero_lt x : nltb x (fl 0 1) = true <-> below_zero x.
Proof.
  change (nltb x (fl 0 1)) with (ext_leb (to_ext x) (EFin 0 0) && negb (ext_leb (EFin 0 0) (to_ext x))).
  destruct x as [z|f].
  - cbn [to_ext below_zero]. rewrite zero_le, le_zero.
    destruct (Z.leb_spec z 0), (Z.leb_spec 0 z); cbn; split; intros; try discriminate; try reflexivity; lia.
  - destruct f as [[]|[]| |[] m e]; cbn [to_ext below_zero]; rewrite ?zero_le, ?le_zero; cbn; split; intros H; try discriminate; easy.
Qed.
Lemma from_zero_le x : nleb (fl 0 1) x = true <-> from_zero x.
Proof.
  change (nleb (fl 0 1) x) with (ext_leb (EFin 0 0) (to_ext x)).
  destruct x as [z|f].
  - cbn [to_ext from_zero]. rewrite zero_le. now rewrite Z.leb_le.
  - destruct f as [[]|[]| |[] m e]; cbn [to_ext from_zero]; rewrite ?zero_le; cbn; split; intros H; try discriminate; easy.
Qed.

Lemma element_floats {S} (loads : list (Z * lcase pynum)) length (section : option S) :
  (element loads length section = Err ElementLengthError <-> exists l, length = Some l /\ below_zero l)
  /\ (forall x, element loads length section = Err x -> x = ElementLengthError)
  /\ forall e, element loads length section = Ok e ->
       elength e = length /\ esection e = section /\ eloads e = loads.
Proof.
  unfold element. destruct length as [l|].
  - destruct (nltb l (nflt 0 1)) eqn:E.
    + split; [|split; [congruence|discriminate]]. split; [|reflexivity]. intros _. exists l.
      split; [reflexivity|]. now apply below_zero_lt.
    + split; [|split; [discriminate|intros e [= <-]; auto]]. split; [discriminate|].
      intros (l' & [= <-] & B). apply below_zero_lt in B. change (nflt 0 1) with (fl 0 1) in E. congruence.
  - split; [|split; [discriminate|intros e [= <-]; auto]]. split; [discriminate|].
    intros (l' & [=] & _).
Qed.

Lemma circle_R (mat : option (material R)) r :
  (0 <= r -> circle mat r = Ok (SCircle r mat))%R /\ (r < 0 -> circle mat r = Err AssertionError)%R.
Proof.
  assert (Z0 : @nflt R RNum 0 1 = 0%R) by (cbn; lra). unfold circle. rewrite Z0.
  change nleb with Rleb. split; intros H.
  - now rewrite (proj2 (Rleb_true 0 r)).
  - now rewrite (proj2 (Rleb_false 0 r)).
Qed.

Lemma circle_floats (mat : option (material pynum)) r :
  (from_zero r -> circle mat r = Ok (SCircle r mat))
  /\ (~ from_zero r -> circle mat r = Err AssertionError).
Proof.
  unfold circle. change (nflt 0 1) with (fl 0 1). destruct (nleb (fl 0 1) r) eqn:E.
  - apply from_zero_le in E. tauto.
  - split; [|reflexivity]. intros H. apply from_zero_le in H. congruence.
Qed.
