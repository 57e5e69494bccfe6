(** Proofs about the cubic solved by [f_oc_unsymmetric]. *)

From Coq Require Import Reals Lra Psatz List Bool.
From Verif Require Import Base Num RNum PyReal Symmetry S6 S6Facts S6Torsion.
Import ListNotations.
Open Scope R_scope.

(** * Complex roots of a real cubic *)

(** Complex numbers as pairs: real and imaginary part. *)
Definition cmul (z w : R * R) : R * R :=
  (fst z * fst w - snd z * snd w, fst z * snd w + snd z * fst w).
Definition cadd (z w : R * R) : R * R := (fst z + fst w, snd z + snd w).
Definition creal (x : R) : R * R := (x, 0).

(** a z³ + b z² + c z + d, by Horner's rule. *)
Definition cpoly (a b c d : R) (z : R * R) : R * R :=
  cadd (cmul z (cadd (cmul z (cadd (cmul z (creal a)) (creal b))) (creal c))) (creal d).

(** The list holds exactly the complex roots of the polynomial. *)
Definition all_roots (a b c d : R) (l : list (R * R)) : Prop :=
  forall z, In z l <-> cpoly a b c d z = (0, 0).

Lemma cpoly_real a b c d x :
  cpoly a b c d (x, 0) = (0, 0) <-> a * x ^ 3 + b * x ^ 2 + c * x + d = 0.
Proof.
  unfold cpoly, cadd, cmul, creal. cbn [fst snd]. split.
  - intros H. injection H as H1 H2. lra.
  - intros H. f_equal; lra.
Qed.

(** ** A correct root finder exists *)

Lemma quad_roots_exist a b c : a <> 0 \/ b <> 0 \/ c <> 0 -> exists l, all_roots 0 a b c l.
Proof.
  intros N. destruct (Req_dec a 0) as [->|Ha].
  - destruct (Req_dec b 0) as [->|Hb].
    + exists []. intros [x y]. unfold cpoly, cadd, cmul, creal. cbn [fst snd In]. split; [tauto|].
      intros H. injection H as H _. exfalso. assert (c = 0) by lra. tauto.
    + exists [(- c / b, 0)]. intros [x y]. unfold cpoly, cadd, cmul, creal. cbn [fst snd In].
      split.
      * intros [H|[]]. injection H as <- <-. f_equal; field; lra.
      * intros H. injection H as H1 H2. left.
        assert (y = 0). { apply Rmult_eq_reg_l with b; lra. } subst y.
        f_equal. apply Rmult_eq_reg_l with b; auto. replace (b * (- c / b)) with (- c) by (field; auto). lra.
  - set (D := b * b - 4 * a * c).
    assert (K : forall x y, cpoly 0 a b c (x, y) = (0, 0) <->
      (2 * a * x + b) * y = 0 /\ (2 * a * x + b) * (2 * a * x + b) - (2 * a * y) * (2 * a * y) = D).
    { intros x y. unfold cpoly, cadd, cmul, creal. cbn [fst snd]. split.
      - intros H. injection H as H1 H2. split; [lra|].
        unfold D.
        replace ((2 * a * x + b) * (2 * a * x + b) - (2 * a * y) * (2 * a * y))
          with (4 * a * (x * (x * a + b) - y * (y * a) + c) + b * b - 4 * a * c) by ring.
        assert (x * (x * a + b) - y * (y * a) + c = 0) by lra. rewrite H. ring.
      - intros [H1 H2]. f_equal; [|lra].
        apply Rmult_eq_reg_l with (4 * a); [|lra].
        unfold D in H2.
        transitivity ((2 * a * x + b) * (2 * a * x + b) - (2 * a * y) * (2 * a * y) - (b * b - 4 * a * c)).
        { ring. } rewrite H2. ring. }
    destruct (Rle_lt_dec 0 D) as [HD|HD].
    + exists [((- b + sqrt D) / (2 * a), 0); ((- b - sqrt D) / (2 * a), 0)].
      intros [x y]. rewrite K. cbn [In].
      pose proof (sqrt_sqrt D HD) as S. set (s := sqrt D) in *. clearbody s. split.
      * intros [H|[H|[]]]; injection H as <- <-; (split; [ring|]); rewrite <- S; field; auto.
      * intros [H1 H2].
        assert (Hy : y = 0).
        { apply Rmult_integral in H1. destruct H1 as [H1|H1]; auto. rewrite H1 in H2.
          assert (Z : (2 * a * y) * (2 * a * y) = 0) by nra.
          apply Rmult_integral in Z. assert (Z' : 2 * a * y = 0) by tauto.
          apply Rmult_eq_reg_l with (2 * a); lra. }
        subst y.
        assert (F : (2 * a * x + b - s) * (2 * a * x + b + s) = 0) by nra.
        apply Rmult_integral in F.
        destruct F as [F|F]; [left|right; left]; f_equal;
          apply Rmult_eq_reg_l with (2 * a); try lra; field_simplify; lra.
    + exists [(- b / (2 * a), sqrt (- D) / (2 * a)); (- b / (2 * a), - sqrt (- D) / (2 * a))].
      intros [x y]. rewrite K. cbn [In].
      pose proof (sqrt_sqrt (- D) ltac:(lra)) as S. set (s := sqrt (- D)) in *. clearbody s. split.
      * intros [H|[H|[]]]; injection H as <- <-; (split; [field; auto|]);
          replace D with (- (s * s)) by lra; field; auto.
      * intros [H1 H2]. apply Rmult_integral in H1. destruct H1 as [H1|H1].
        -- rewrite H1 in H2.
           assert (F : (2 * a * y - s) * (2 * a * y + s) = 0) by nra.
           apply Rmult_integral in F.
           destruct F as [F|F]; [left|right; left]; f_equal;
             apply Rmult_eq_reg_l with (2 * a); try lra; field_simplify; lra.
        -- subst y. pose proof (Rle_0_sqr (2 * a * x + b)) as Q. unfold Rsqr in Q. lra.
Qed.

Lemma cubic_cont a b c d : continuity (fun x => a * x ^ 3 + b * x ^ 2 + c * x + d).
Proof. reg. Qed.

Lemma root_between a b c d lo hi : lo <= hi ->
  a * lo ^ 3 + b * lo ^ 2 + c * lo + d <= 0 -> 0 <= a * hi ^ 3 + b * hi ^ 2 + c * hi + d ->
  exists x, lo <= x <= hi /\ a * x ^ 3 + b * x ^ 2 + c * x + d = 0.
Proof.
  intros L H0 H1.
  destruct (IVT_cor (fun x => a * x ^ 3 + b * x ^ 2 + c * x + d) lo hi) as (x & ? & ?); eauto.
  - apply cubic_cont.
  - cbn beta. nra.
Qed.

Lemma abs_between x y : Rabs x <= y -> - y <= x <= y.
Proof. unfold Rabs. destruct (Rcase_abs x); lra. Qed.

Lemma cubic_pos_root a b c d : 0 < a -> exists x, a * x ^ 3 + b * x ^ 2 + c * x + d = 0.
Proof.
  intros Ha. set (S := Rabs b + Rabs c + Rabs d). set (M := 1 + S / a).
  assert (HS : 0 <= S) by (unfold S; pose proof (Rabs_pos b); pose proof (Rabs_pos c);
                           pose proof (Rabs_pos d); lra).
  assert (HM : 1 <= M) by (unfold M; assert (0 <= S / a) by (apply div_nonneg; lra); lra).
  assert (EM : a * M = a + S) by (unfold M; field; lra).
  clearbody M.
  assert (B : forall x, Rabs x <= M -> 1 <= M -> Rabs (b * x ^ 2 + c * x + d) <= S * M ^ 2).
  { intros x Hx _. eapply Rle_trans; [apply Rabs_triang|].
    eapply Rle_trans; [apply Rplus_le_compat_r, Rabs_triang|].
    rewrite !Rabs_mult, <- RPow_abs.
    pose proof (Rabs_pos x). assert (Rabs x ^ 2 <= M ^ 2) by (apply pow_incr; lra).
    assert (Rabs x <= M ^ 2) by nra. assert (1 <= M ^ 2) by nra.
    unfold S. pose proof (Rabs_pos b); pose proof (Rabs_pos c); pose proof (Rabs_pos d).
    assert (Rabs b * Rabs x ^ 2 <= Rabs b * M ^ 2) by (apply Rmult_le_compat_l; auto).
    assert (Rabs c * Rabs x <= Rabs c * M ^ 2) by (apply Rmult_le_compat_l; auto).
    assert (Rabs d * 1 <= Rabs d * M ^ 2) by (apply Rmult_le_compat_l; auto). lra. }
  assert (T : a * M ^ 3 = (a + S) * M ^ 2) by (rewrite <- EM; ring).
  assert (0 < M ^ 2) by (apply pow_lt; lra).
  destruct (root_between a b c d (- M) M) as (x & _ & Hx); eauto; try lra.
  - assert (U : Rabs (- M) <= M) by (rewrite Rabs_Ropp, Rabs_right; lra).
    pose proof (B (- M) U HM) as V. apply abs_between in V.
    replace (a * (- M) ^ 3) with (- (a * M ^ 3)) by ring. rewrite T.
    assert (0 < a * M ^ 2) by pos. nra.
  - assert (U : Rabs M <= M) by (rewrite Rabs_right; lra).
    pose proof (B M U HM) as V. apply abs_between in V. rewrite T.
    assert (0 < a * M ^ 2) by pos. nra.
Qed.

Lemma cubic_real_root a b c d : a <> 0 -> exists x, a * x ^ 3 + b * x ^ 2 + c * x + d = 0.
Proof.
  intros Ha. destruct (Rlt_le_dec 0 a) as [H|H].
  - now apply cubic_pos_root.
  - destruct (cubic_pos_root (- a) (- b) (- c) (- d)) as [x Hx]; [lra|]. exists x. lra.
Qed.

Lemma cmul_zero z w : cmul z w = (0, 0) -> z = (0, 0) \/ w = (0, 0).
Proof.
  destruct z as [x y], w as [u v]. unfold cmul. cbn [fst snd]. intros H. injection H as H1 H2.
  destruct (Req_dec u 0) as [Hu|Hu].
  - subst u. destruct (Req_dec v 0) as [Hv|Hv]; [subst v; now right|left].
    assert (y = 0) by (apply Rmult_eq_reg_r with v; lra).
    assert (x = 0) by (apply Rmult_eq_reg_r with v; lra). now subst.
  - left. assert (P : 0 < u * u + v * v) by nra.
    assert (x * (u * u + v * v) = 0).
    { replace (x * (u * u + v * v)) with (u * (x * u - y * v) + v * (x * v + y * u)) by ring.
      rewrite H1, H2. ring. }
    assert (y * (u * u + v * v) = 0).
    { replace (y * (u * u + v * v)) with (u * (x * v + y * u) - v * (x * u - y * v)) by ring.
      rewrite H1, H2. ring. }
    assert (x = 0) by (apply Rmult_eq_reg_r with (u * u + v * v); lra).
    assert (y = 0) by (apply Rmult_eq_reg_r with (u * u + v * v); lra). now subst.
Qed.

Lemma all_roots_exist a b c d : d <> 0 -> exists l, all_roots a b c d l.
Proof.
  intros Hd. destruct (Req_dec a 0) as [->|Ha]; [apply quad_roots_exist; tauto|].
  destruct (cubic_real_root a b c d Ha) as [r Hr].
  set (e := b + a * r). set (f := c + e * r).
  destruct (quad_roots_exist a e f) as [l Hl]; [tauto|].
  exists ((r, 0) :: l). intros z.
  assert (F : cpoly a b c d z = cmul (cadd z (creal (- r))) (cpoly 0 a e f z)).
  { assert (Ed : d = - (r * f)) by (unfold f, e; lra).
    assert (Ec : c = f - e * r) by (unfold f; lra). assert (Eb : b = e - a * r) by (unfold e; lra).
    clearbody e f. subst d c b. destruct z as [x y]. unfold cpoly, cadd, cmul, creal. cbn [fst snd].
    f_equal; ring. }
  rewrite F. cbn [In]. rewrite (Hl z). split.
  - intros [<-|H].
    + unfold cadd, creal, cmul. cbn [fst snd]. f_equal; ring.
    + rewrite H. unfold cmul. cbn [fst snd]. f_equal; ring.
  - intros H. apply cmul_zero in H. destruct H as [H|H]; auto. left.
    destruct z as [x y]. unfold cadd, creal in H. cbn [fst snd] in H. injection H as H1 H2.
    f_equal; lra.
Qed.

(** * Which root is selected *)

Lemma lex_ltb_true a b : lex_ltb a b = true <-> fst a < fst b \/ fst a = fst b /\ snd a < snd b.
Proof.
  unfold lex_ltb. rewrite orb_true_iff, andb_true_iff, !Rltb_true, Reqb_true. tauto.
Qed.
Lemma lex_ltb_false a b : lex_ltb a b = false <-> fst b < fst a \/ fst a = fst b /\ snd b <= snd a.
Proof.
  split.
  - intros H. destruct (Rtotal_order (fst a) (fst b)) as [L|[L|L]]; auto.
    + assert (lex_ltb a b = true) by (apply lex_ltb_true; auto). congruence.
    + right. split; auto. destruct (Rlt_le_dec (snd a) (snd b)); auto.
      assert (lex_ltb a b = true) by (apply lex_ltb_true; auto). congruence.
  - intros H. destruct (lex_ltb a b) eqn:E; auto. apply lex_ltb_true in E. lra.
Qed.

Lemma min_stress_fold l : forall m,
  match fold_left min_stress l m with
  | None => m = None /\ forall z, In z l -> lex_ltb z (0, 0) = true
  | Some r => (m = Some r \/ In r l /\ lex_ltb r (0, 0) = false)
              /\ (forall k, m = Some k -> lex_ltb k r = false)
              /\ (forall z, In z l -> lex_ltb z (0, 0) = false -> lex_ltb z r = false)
  end.
Proof.
  induction l as [|i l IH]; intros m; cbn [fold_left].
  - destruct m as [r|]; [|split; auto; contradiction].
    split; auto. split; [|contradiction]. intros k K. injection K as ->.
    apply lex_ltb_false. right. split; auto; lra.
  - specialize (IH (min_stress m i)).
    destruct (fold_left min_stress l (min_stress m i)) as [r|] eqn:E.
    + destruct IH as (I1 & I2 & I3). unfold min_stress in I1, I2.
      destruct (lex_ltb i (0, 0)) eqn:Ei.
      * split; [destruct I1 as [?|[? ?]]; auto; right; split; auto; now right|].
        split; auto. intros z [<-|Hz] Z; [congruence|auto].
      * destruct m as [m|].
        -- destruct (lex_ltb i m) eqn:Em.
           ++ split; [destruct I1 as [I1|[? ?]];
                [injection I1 as ->; right; split; auto; now left|right; split; auto; now right]|].
              split.
              ** intros k K. injection K as <-. specialize (I2 i eq_refl).
                 apply lex_ltb_true in Em. apply lex_ltb_false in I2. apply lex_ltb_false. lra.
              ** intros z [<-|Hz] Z; auto.
           ++ split; [destruct I1 as [I1|[? ?]]; auto; right; split; auto; now right|].
              split; auto. intros z [<-|Hz] Z; auto.
              specialize (I2 m eq_refl). apply lex_ltb_false in Em, I2. apply lex_ltb_false. lra.
        -- split; [destruct I1 as [I1|[? ?]];
             [injection I1 as ->; right; split; auto; now left|right; split; auto; now right]|].
           split; [discriminate|]. intros z [<-|Hz] Z; auto.
    + destruct IH as [I1 I2]. unfold min_stress in I1.
      destruct (lex_ltb i (0, 0)) eqn:Ei.
      * split; auto. intros z [<-|Hz]; auto.
      * destruct m; discriminate.
Qed.

(** * The code's cubic *)

Section Cubic.
Variables fx fy fz ro2 x2 y2 : R.

(** AS4600 clause 3.4.5 and the polynomial the code builds. *)
Definition as4600_cubic (f : R) : R :=
  (ro2 - x2 - y2) * f ^ 3 - (ro2 * (fx + fy + fz) - (fy * x2 + fx * y2)) * f ^ 2
  + ro2 * (fx * fy + fy * fz + fx * fz) * f - ro2 * fx * fy * fz.
Definition code_cubic (f : R) : R :=
  (ro2 - x2 * y2) * f ^ 3 - (ro2 * (fx + fy + fz) - (fy * x2 + fx * y2)) * f ^ 2
  + ro2 * (fx * fy + fy * fz + fx * fz) * f - ro2 * fx * fy * fz.

Lemma cubic_diff f : code_cubic f = as4600_cubic f + (x2 + y2 - x2 * y2) * f ^ 3.
Proof. unfold code_cubic, as4600_cubic. ring. Qed.

Lemma code_cubic_form f : code_cubic f =
  ro2 * ((f - fx) * (f - fy) * (f - fz)) + f ^ 2 * (fy * x2 + fx * y2 - x2 * y2 * f).
Proof. unfold code_cubic. ring. Qed.
End Cubic.

(** The values the code works with. *)
Definition fe (E l r : R) : R := PI * PI * E / (l / r * (l / r)).
Definition ft (A l_ez ro2 J I_w E G : R) : R :=
  G * J / (A * ro2) * (1 + PI * PI * E * I_w / (G * J * (l_ez * l_ez))).

Lemma fe_pos E l r : 0 < E -> 0 < l -> 0 < r -> 0 < fe E l r.
Proof. intros. unfold fe. pos. Qed.
Lemma ft_pos A l ro2 J I_w E G : 0 < A -> 0 < l -> 0 < ro2 -> 0 < J -> 0 <= I_w -> 0 < E -> 0 < G ->
  0 < ft A l ro2 J I_w E G.
Proof.
  intros. unfold ft. apply Rmult_lt_0_compat; [pos|].
  assert (0 <= PI * PI * E * I_w / (G * J * (l * l))) by (apply div_nonneg; pos). lra.
Qed.

Section Unsym.
Variables (A l_ex l_ey l_ez r_x r_y x_o y_o J I_w E G : R).
Hypotheses (HA : 0 < A) (Hlx : 0 < l_ex) (Hly : 0 < l_ey) (Hlz : 0 < l_ez)
  (Hrx : 0 < r_x) (Hry : 0 < r_y) (HJ : 0 < J) (HIw : 0 <= I_w) (HE : 0 < E) (HG : 0 < G).

Let ro2 := r_x ^ 2 + r_y ^ 2 + x_o ^ 2 + y_o ^ 2.
Let fx := fe E l_ex r_x.
Let fy := fe E l_ey r_y.
Let fz := ft A l_ez ro2 J I_w E G.
Let p := code_cubic fx fy fz ro2 (x_o ^ 2) (y_o ^ 2).

(** The coefficients handed to numpy.roots. *)
Definition coef_a := ro2 - x_o ^ 2 * y_o ^ 2.
Definition coef_b := - (ro2 * (fx + fy + fz) - (fy * x_o ^ 2 + fx * y_o ^ 2)).
Definition coef_c := ro2 * (fx * fy + fy * fz + fx * fz).
Definition coef_d := - (ro2 * fx * fy * fz).

Lemma ro2_pos : 0 < ro2. Proof. unfold ro2. nra. Qed.
Lemma fx_pos : 0 < fx. Proof. now apply fe_pos. Qed.
Lemma fy_pos : 0 < fy. Proof. now apply fe_pos. Qed.
Lemma fz_pos : 0 < fz. Proof. apply ft_pos; auto. apply ro2_pos. Qed.
Lemma coef_d_neg : coef_d < 0.
Proof.
  unfold coef_d. pose proof ro2_pos. pose proof fx_pos. pose proof fy_pos. pose proof fz_pos.
  assert (0 < ro2 * fx * fy * fz) by pos. lra.
Qed.

Lemma unsym_run roots :
  f_oc_unsymmetric roots A l_ex l_ey l_ez r_x r_y x_o y_o J I_w E G =
  match fold_left min_stress (roots coef_a coef_b coef_c coef_d) None with
  | None => Err ValueError
  | Some (re, im) => if Reqb im 0 then Ok re else Err EComplex
  end.
Proof.
  unfold f_oc_unsymmetric. rewrite !f_euler_value by auto. cbn [bind].
  rewrite f_torsion_value by auto. cbn [bind]. fold ro2. fold (ft A l_ez ro2 J I_w E G). fold fz.
  fold (fe E l_ex r_x). fold (fe E l_ey r_y). fold fx fy.
  unfold unsym_coeffs.
  replace (r_ol r_x r_y x_o y_o ^ 2) with ro2.
  - reflexivity.
  - rewrite <- Rsqr_pow2. unfold Rsqr. rewrite r_ol_sq. unfold ro2. ring.
Qed.

Lemma code_root f : cpoly coef_a coef_b coef_c coef_d (f, 0) = (0, 0) <-> p f = 0.
Proof.
  rewrite cpoly_real. unfold p, code_cubic, coef_a, coef_b, coef_c, coef_d.
  split; intros H; rewrite <- H; ring.
Qed.

Lemma p0 : p 0 < 0.
Proof.
  pose proof coef_d_neg. unfold p, code_cubic, coef_d in *. lra.
Qed.

Variable roots : roots_oracle.
Hypothesis Hroots : all_roots coef_a coef_b coef_c coef_d (roots coef_a coef_b coef_c coef_d).

(** What is returned is the smallest non-negative real root of the code's cubic. *)
Lemma unsym_ok f : f_oc_unsymmetric roots A l_ex l_ey l_ez r_x r_y x_o y_o J I_w E G = Ok f ->
  0 < f /\ p f = 0 /\ forall g, 0 <= g -> p g = 0 -> f <= g.
Proof.
  rewrite unsym_run.
  pose proof (min_stress_fold (roots coef_a coef_b coef_c coef_d) None) as M.
  destruct (fold_left _ _ _) as [[re im]|]; [|discriminate].
  destruct (Reqb im 0) eqn:Ei; [|discriminate]. intros H. injection H as ->.
  apply Reqb_true in Ei. subst im. destruct M as ([M|[M1 M2]] & _ & M3); [discriminate|].
  apply Hroots in M1. apply code_root in M1.
  apply lex_ltb_false in M2. cbn [fst snd] in M2.
  assert (0 < f).
  { destruct M2 as [|[-> _]]; auto. pose proof p0. lra. }
  split; auto. split; auto.
  intros g Hg Pg. apply code_root in Pg. apply Hroots in Pg.
  specialize (M3 _ Pg). cbn [fst snd] in M3.
  assert (lex_ltb (g, 0) (0, 0) = false) by (apply lex_ltb_false; cbn; lra).
  specialize (M3 H0). apply lex_ltb_false in M3. cbn in M3. lra.
Qed.

(** When a value at which the code's cubic is non-negative exists, there is a root up to it. *)
Lemma unsym_le f F : f_oc_unsymmetric roots A l_ex l_ey l_ez r_x r_y x_o y_o J I_w E G = Ok f ->
  0 <= F -> 0 <= p F -> f <= F.
Proof.
  intros H HF HP. destruct (unsym_ok f H) as (P & _ & M).
  destruct (root_between coef_a coef_b coef_c coef_d 0 F) as (x & Hx & Ex); auto.
  - pose proof coef_d_neg. lra.
  - replace (coef_a * F ^ 3 + coef_b * F ^ 2 + coef_c * F + coef_d) with (p F); auto.
    unfold p, code_cubic, coef_a, coef_b, coef_c, coef_d. ring.
  - apply cpoly_real in Ex. apply code_root in Ex. specialize (M x ltac:(lra) Ex). lra.
Qed.

(** It always has a positive root when a > 0, so a result or a complex value. *)
Lemma unsym_total : 0 < coef_a ->
  (exists f, f_oc_unsymmetric roots A l_ex l_ey l_ez r_x r_y x_o y_o J I_w E G = Ok f)
  \/ f_oc_unsymmetric roots A l_ex l_ey l_ez r_x r_y x_o y_o J I_w E G = Err EComplex.
Proof.
  intros Ha. rewrite unsym_run.
  pose proof (min_stress_fold (roots coef_a coef_b coef_c coef_d) None) as M.
  destruct (fold_left _ _ _) as [[re im]|].
  - destruct (Reqb im 0); eauto.
  - exfalso. destruct M as [_ M].
    (* a positive real root exists *)
    assert (exists x, 0 <= x /\ coef_a * x ^ 3 + coef_b * x ^ 2 + coef_c * x + coef_d = 0)
      as (x & Hx & Ex).
    { set (S := Rabs coef_b + Rabs coef_d). set (F := 1 + S / coef_a).
      assert (HS : 0 <= S) by (unfold S; pose proof (Rabs_pos coef_b); pose proof (Rabs_pos coef_d); lra).
      assert (0 <= S / coef_a) by (apply div_nonneg; lra).
      assert (EF : coef_a * F = coef_a + S) by (unfold F; field; lra).
      assert (HF : 1 <= F) by (unfold F; lra).
      assert (Hc : 0 < coef_c).
      { unfold coef_c. pose proof ro2_pos. pose proof fx_pos. pose proof fy_pos. pose proof fz_pos.
        apply Rmult_lt_0_compat; [exact H0|].
        assert (0 < fx * fy) by pos.
        assert (0 < fy * fz) by pos.
        assert (0 < fx * fz) by pos. lra. }
      clearbody F.
      destruct (root_between coef_a coef_b coef_c coef_d 0 F) as (x & Hx & Ex).
      - lra.
      - pose proof coef_d_neg. lra.
      - replace (coef_a * F ^ 3) with (coef_a * F * F ^ 2) by ring. rewrite EF. unfold S.
        pose proof (Rle_abs (- coef_b)) as Ab. rewrite Rabs_Ropp in Ab.
        pose proof (Rle_abs (- coef_d)) as Ad. rewrite Rabs_Ropp in Ad.
        assert (1 <= F ^ 2) by nra. pose proof (Rabs_pos coef_b). pose proof (Rabs_pos coef_d).
        assert (0 <= coef_c * F) by (apply Rmult_le_pos; lra).
        assert (0 <= (Rabs coef_b + coef_b) * F ^ 2) by (apply Rmult_le_pos; lra).
        assert (Rabs coef_d * 1 <= Rabs coef_d * F ^ 2) by (apply Rmult_le_compat_l; lra).
        assert (0 <= coef_a * F ^ 2) by (apply Rmult_le_pos; lra). lra.
      - exists x. split; [lra|auto]. }
    apply cpoly_real in Ex. apply Hroots in Ex. specialize (M _ Ex).
    apply lex_ltb_true in M. cbn in M. lra.
Qed.

(** The result does not exceed any pure mode, nor any positive root of AS4600's cubic, when
    x_o² y_o² <= x_o² + y_o². *)
Lemma unsym_conservative f :
  x_o ^ 2 * y_o ^ 2 <= x_o ^ 2 + y_o ^ 2 ->
  f_oc_unsymmetric roots A l_ex l_ey l_ez r_x r_y x_o y_o J I_w E G = Ok f ->
  f <= fx /\ f <= fy /\ f <= fz
  /\ forall g, 0 <= g -> as4600_cubic fx fy fz ro2 (x_o ^ 2) (y_o ^ 2) g = 0 -> f <= g.
Proof.
  intros Hxy H. pose proof fx_pos as Px. pose proof fy_pos as Py. pose proof fz_pos as Pz.
  assert (Qx : 0 <= x_o ^ 2) by (apply pow2_ge_0). assert (Qy : 0 <= y_o ^ 2) by (apply pow2_ge_0).
  assert (K : forall m, 0 < m -> m <= fx -> m <= fy -> (m - fx) * (m - fy) * (m - fz) = 0 -> f <= m).
  { intros m Pm Lx Ly Z. apply unsym_le; auto; [lra|]. unfold p. rewrite code_cubic_form, Z.
    assert (0 <= (fy - m) * x_o ^ 2) by (apply Rmult_le_pos; lra).
    assert (0 <= (fx - m) * y_o ^ 2) by (apply Rmult_le_pos; lra).
    assert (0 <= m * (x_o ^ 2 + y_o ^ 2 - x_o ^ 2 * y_o ^ 2)) by (apply Rmult_le_pos; lra).
    rewrite Rmult_0_r, Rplus_0_l. apply Rmult_le_pos; [apply pow2_ge_0|]. lra. }
  assert (M : f <= Rmin fx (Rmin fy fz)).
  { apply K.
    - repeat apply Rmin_glb_lt; auto.
    - apply Rmin_l.
    - eapply Rle_trans; [apply Rmin_r|apply Rmin_l].
    - unfold Rmin. repeat destruct (Rle_dec _ _); ring. }
  split; [eapply Rle_trans; [exact M|apply Rmin_l]|].
  split; [eapply Rle_trans; [exact M|eapply Rle_trans; [apply Rmin_r|apply Rmin_l]]|].
  split; [eapply Rle_trans; [exact M|eapply Rle_trans; [apply Rmin_r|apply Rmin_r]]|].
  intros g Hg Z. apply unsym_le; auto. unfold p. rewrite cubic_diff, Z, Rplus_0_l.
  apply Rmult_le_pos; [lra|]. apply pow_le; auto.
Qed.

(** Without offset: the smallest of the three stresses, and AS4600's cubic is the code's. *)
Lemma unsym_no_offset : x_o = 0 -> y_o = 0 ->
  f_oc_unsymmetric roots A l_ex l_ey l_ez r_x r_y x_o y_o J I_w E G = Ok (Rmin fx (Rmin fy fz)).
Proof.
  intros Hx Hy. pose proof ro2_pos as R2.
  pose proof fx_pos as Px. pose proof fy_pos as Py. pose proof fz_pos as Pz.
  assert (F : forall z, cpoly coef_a coef_b coef_c coef_d z =
     cmul (creal ro2) (cmul (cadd z (creal (- fx))) (cmul (cadd z (creal (- fy)))
                            (cadd z (creal (- fz)))))).
  { intros [u v]. unfold coef_a, coef_b, coef_c, coef_d.
    replace (x_o ^ 2) with 0 by (rewrite Hx; ring). replace (y_o ^ 2) with 0 by (rewrite Hy; ring).
    clearbody fx fy fz ro2. unfold cpoly, cadd, cmul, creal. cbn [fst snd]. f_equal; ring. }
  assert (RR : forall z, In z (roots coef_a coef_b coef_c coef_d) <->
                z = (fx, 0) \/ z = (fy, 0) \/ z = (fz, 0)).
  { intros z. rewrite (Hroots z), F.
    assert (C0 : forall t, cadd z (creal (- t)) = (0, 0) <-> z = (t, 0)).
    { intros t. destruct z as [u v]. unfold cadd, creal. cbn [fst snd]. split; intros H; injection H as H1 H2; f_equal; lra. }
    assert (C1 : forall a b, cmul a b = (0, 0) <-> a = (0, 0) \/ b = (0, 0)).
    { intros a b. split; [apply cmul_zero|]. intros [->| ->]; unfold cmul; cbn [fst snd]; f_equal; ring. }
    rewrite !C1, !C0. split; [|tauto]. intros [H|H]; [|exact H].
    unfold creal in H. injection H as H. lra. }
  rewrite unsym_run.
  pose proof (min_stress_fold (roots coef_a coef_b coef_c coef_d) None) as M.
  destruct (fold_left _ _ _) as [[re im]|].
  - destruct M as ([M|[M1 M2]] & _ & M3); [discriminate|].
    assert (N : forall t, 0 < t -> In (t, 0) (roots coef_a coef_b coef_c coef_d) -> re <= t).
    { intros t Ht Hi. specialize (M3 _ Hi).
      assert (lex_ltb (t, 0) (0, 0) = false) by (apply lex_ltb_false; cbn; lra).
      specialize (M3 H). apply lex_ltb_false in M3. cbn in M3. lra. }
    pose proof (N fx Px ltac:(apply RR; auto)). pose proof (N fy Py ltac:(apply RR; auto)).
    pose proof (N fz Pz ltac:(apply RR; auto)).
    apply RR in M1.
    assert (im = 0 /\ (re = fx \/ re = fy \/ re = fz)) as [-> D].
    { destruct M1 as [M1|[M1|M1]]; injection M1 as -> ->; auto. }
    assert (Reqb 0 0 = true) as -> by (apply Reqb_true; auto). f_equal.
    unfold Rmin. repeat destruct (Rle_dec _ _); lra.
  - exfalso. destruct M as [_ M]. specialize (M (fx, 0) ltac:(apply RR; auto)).
    apply lex_ltb_true in M. cbn in M. lra.
Qed.

(** With an offset the value returned is never a root of AS4600's cubic. *)
Lemma unsym_never_as4600 f :
  x_o ^ 2 + y_o ^ 2 <> x_o ^ 2 * y_o ^ 2 ->
  f_oc_unsymmetric roots A l_ex l_ey l_ez r_x r_y x_o y_o J I_w E G = Ok f ->
  as4600_cubic fx fy fz ro2 (x_o ^ 2) (y_o ^ 2) f <> 0.
Proof.
  intros Hxy H Z. destruct (unsym_ok f H) as (P & Q & _).
  unfold p in Q. rewrite cubic_diff, Z, Rplus_0_l in Q.
  assert (0 < f ^ 3) by (apply pow_lt; auto).
  apply Rmult_integral in Q. lra.
Qed.
End Unsym.
