(** Concrete inputs showing that the hypotheses of the S6 theorems can be met. *)

From Coq Require Import Reals Lra Psatz List Bool String.
From Verif Require Import Base Num RNum PyReal Symmetry S6 S6Facts S6Torsion S6Unsym S6Length.
Import ListNotations.
Open Scope R_scope.

(** A channel-like section, SI units, shear centre 30 mm off the centroid. *)
Definition channel : sect6 :=
  mk_sect6 3e-3 1 60e-3 20e-3 30e-3 0 100e-9 10e-9 250e6 200e9 80e9.

Lemma channel_ok : sect_ok channel.
Proof. unfold sect_ok, channel. cbn. lra. Qed.

Lemma channel_slender k r : 0 < k -> 0 < r -> k / r >= 10 ->
  let ln := 3 * k / r * sqrt 1 * sqrt (250e6 / 250e6) in
  ln + 2100 * (ln - 27 / 2) / (ln * ln - 153 / 10 * ln + 2050) * 0 <> 0.
Proof.
  intros Hk Hr H ln.
  assert (E : ln = 3 * (k / r)).
  { unfold ln. replace (250e6 / 250e6) with 1 by lra. rewrite sqrt_1. field. lra. }
  clearbody ln. rewrite E. lra.
Qed.

Lemma channel_defined roots : exists o,
  s6_1_1_Nc roots channel 3 1 1 1 (Some [AxStr "x"]) 250e6 0 (85 / 100) (9 / 10) true true = Ok o.
Proof.
  apply Nc_defined with (c := SymSingle); try lra.
  - apply channel_ok.
  - reflexivity.
  - discriminate.
  - intros k r [H|H]; injection H as -> ->; cbn [channel q_k_f q_f_y q_r_x q_r_y];
      apply channel_slender; lra.
Qed.

(** ** The unsymmetric case *)

Definition uns (roots : roots_oracle) : res R :=
  f_oc_unsymmetric roots 1 (3 / 5 * PI) (4 / 5 * PI) 1 (3 / 5) (4 / 5) 1 0 2 0 1 1.

Lemma uns_fx : fe 1 (3 / 5 * PI) (3 / 5) = 1.
Proof. unfold fe. pose proof PI_RGT_0. field. lra. Qed.
Lemma uns_fy : fe 1 (4 / 5 * PI) (4 / 5) = 1.
Proof. unfold fe. pose proof PI_RGT_0. field. lra. Qed.
Lemma uns_fz : ft 1 1 ((3 / 5) ^ 2 + (4 / 5) ^ 2 + 1 ^ 2 + 0 ^ 2) 2 0 1 1 = 1.
Proof. unfold ft. field. Qed.

(** f_ox = f_oy = f_oz = 1, r_o² = 2 x_o²: roots 1/2 and 1 ± i. *)
Definition uns_roots : list (R * R) := [(1 / 2, 0); (1, 1); (1, -1)].

Lemma uns_all_roots : all_roots
  (coef_a (3 / 5) (4 / 5) 1 0)
  (coef_b 1 (3 / 5 * PI) (4 / 5 * PI) 1 (3 / 5) (4 / 5) 1 0 2 0 1 1)
  (coef_c 1 (3 / 5 * PI) (4 / 5 * PI) 1 (3 / 5) (4 / 5) 1 0 2 0 1 1)
  (coef_d 1 (3 / 5 * PI) (4 / 5 * PI) 1 (3 / 5) (4 / 5) 1 0 2 0 1 1) uns_roots.
Proof.
  unfold coef_a, coef_b, coef_c, coef_d. rewrite uns_fx, uns_fy, uns_fz.
  intros [x y].
  assert (F : cpoly ((3 / 5) ^ 2 + (4 / 5) ^ 2 + 1 ^ 2 + 0 ^ 2 - 1 ^ 2 * 0 ^ 2)
     (- (((3 / 5) ^ 2 + (4 / 5) ^ 2 + 1 ^ 2 + 0 ^ 2) * (1 + 1 + 1) - (1 * 1 ^ 2 + 1 * 0 ^ 2)))
     (((3 / 5) ^ 2 + (4 / 5) ^ 2 + 1 ^ 2 + 0 ^ 2) * (1 * 1 + 1 * 1 + 1 * 1))
     (- (((3 / 5) ^ 2 + (4 / 5) ^ 2 + 1 ^ 2 + 0 ^ 2) * 1 * 1 * 1)) (x, y)
     = cmul (creal 2) (cmul (cadd (x, y) (- (1 / 2), 0)) (cmul (cadd (x, y) (-1, -1))
          (cadd (x, y) (-1, 1))))).
  { unfold cpoly, cadd, cmul, creal. cbn [fst snd]. f_equal; field. }
  rewrite F. unfold uns_roots. cbn [In]. split.
  - intros [H|[H|[H|[]]]]; injection H as <- <-; unfold cadd, cmul, creal; cbn [fst snd]; f_equal; field.
  - intros H. apply cmul_zero in H. destruct H as [H|H].
    { unfold creal in H. injection H as H. lra. }
    apply cmul_zero in H. destruct H as [H|H].
    { unfold cadd in H. cbn [fst snd] in H. injection H as H1 H2. left. f_equal; lra. }
    apply cmul_zero in H. unfold cadd in H. cbn [fst snd] in H.
    destruct H as [H|H]; injection H as H1 H2; [right; left|right; right; left]; f_equal; lra.
Qed.

Lemma uns_value roots :
  (forall a b c d, d <> 0 -> all_roots a b c d (roots a b c d)) -> uns roots = Ok (1 / 2).
Proof.
  intros HR. pose proof PI_RGT_0. unfold uns.
  assert (C : coef_d 1 (3 / 5 * PI) (4 / 5 * PI) 1 (3 / 5) (4 / 5) 1 0 2 0 1 1 < 0)
    by (apply coef_d_neg; lra).
  pose proof (HR (coef_a (3 / 5) (4 / 5) 1 0)
    (coef_b 1 (3 / 5 * PI) (4 / 5 * PI) 1 (3 / 5) (4 / 5) 1 0 2 0 1 1)
    (coef_c 1 (3 / 5 * PI) (4 / 5 * PI) 1 (3 / 5) (4 / 5) 1 0 2 0 1 1)
    (coef_d 1 (3 / 5 * PI) (4 / 5 * PI) 1 (3 / 5) (4 / 5) 1 0 2 0 1 1) ltac:(lra)) as A.
  rewrite unsym_run by lra.
  match goal with |- context [fold_left min_stress ?l None] => set (L := l) in * end.
  assert (S : forall z, In z L <-> In z uns_roots).
  { intros z. rewrite (A z). symmetry. apply uns_all_roots. }
  pose proof (min_stress_fold L None) as M.
  destruct (fold_left min_stress L None) as [[re im]|].
  - destruct M as ([M|[M1 M2]] & _ & M3); [discriminate|].
    specialize (M3 (1 / 2, 0) ltac:(apply S; unfold uns_roots; cbn; auto)).
    assert (lex_ltb (1 / 2, 0) (0, 0) = false) as Z by (apply lex_ltb_false; cbn; lra).
    specialize (M3 Z). apply lex_ltb_false in M3. cbn in M3.
    apply S in M1. destruct M1 as [M1|[M1|[M1|[]]]]; injection M1 as <- <-; try lra.
    assert (Reqb 0 0 = true) as -> by (apply Reqb_true; auto). reflexivity.
  - exfalso. destruct M as [_ M].
    specialize (M (1 / 2, 0) ltac:(apply S; unfold uns_roots; cbn; auto)).
    apply lex_ltb_true in M. cbn in M. lra.
Qed.

(** AS4600's own smallest root for these stresses is 2 - √2 = 0.5858. *)
Lemma uns_as4600_half : as4600_cubic 1 1 1 2 1 0 (1 / 2) <> 0.
Proof. unfold as4600_cubic. lra. Qed.

(** A correct root finder exists (for all coefficients at once). *)
Require Import ClassicalChoice.
Lemma correct_roots_exist : exists roots : roots_oracle,
  forall a b c d, d <> 0 -> all_roots a b c d (roots a b c d).
Proof.
  destruct (choice (fun (k : R * R * R * R) l =>
    let '(a, b, c, d) := k in d <> 0 -> all_roots a b c d l)) as [f Hf].
  - intros [[[a b] c] d]. destruct (Req_dec d 0) as [->|N].
    + exists []. tauto.
    + destruct (all_roots_exist a b c d N) as [l Hl]. eauto.
  - exists (fun a b c d => f (a, b, c, d)). intros a b c d. exact (Hf (a, b, c, d)).
Qed.
