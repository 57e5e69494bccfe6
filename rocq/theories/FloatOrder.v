(** Rounding is monotone: sums, products and quotients of doubles keep the order of their operands
    exactly, infinities included. *)

From Coq Require Import ZArith Reals List Bool Lra Lia Floats.SpecFloat.
From Verif Require Import Base Num PyNum FloatSpec FloatValSpec FloatRound FloatOps FloatFacts FloatError FloatUtil FloatCheck
  FloatBeam FloatCalc FloatOrderSpec.
Import ListNotations.
Open Scope R_scope.
Local Opaque SFadd SFsub SFmul SFdiv.

(** A double other than NaN. *)
Definition nn (f : spec_float) : Prop := fin64 f \/ exists s, f = S754_infinity s.

Lemma some_nn x : some_double x <-> exists f, x = PFlt f /\ nn f.
Proof.
  split.
  - intros [F|[s ->]]; [apply finite_double_fin in F; destruct F as (f & -> & F); exists f; split; [reflexivity|now left]|].
    exists (S754_infinity s). split; [reflexivity|right; eauto].
  - intros (f & -> & [F|[s ->]]); [left; apply finite_double_fin; eauto|right; eauto].
Qed.

Lemma some_nan x : some_double x -> nisnan x = false.
Proof. intros [(_ & _ & N)|[s ->]]; [exact N|reflexivity]. Qed.

Lemma pos_fin x : positive x <-> exists f, x = PFlt f /\ fin64 f /\ 0 < sfR f.
Proof.
  split.
  - intros (F & P). apply finite_double_fin in F. destruct F as (f & -> & F). rewrite val_sfR in P. eauto.
  - intros (f & -> & F & P). split; [now apply fin_double|now rewrite val_sfR].
Qed.

Lemma pos_shape f : fin64 f -> 0 < sfR f -> exists m e, f = S754_finite false m e.
Proof.
  intros F P. destruct f as [s| | |s m e]; cbn [fin64 sfR] in *; try contradiction; try lra.
  destruct s; [exfalso|eauto]. pose proof (finite_small m e F). cbn [signed] in P. lra.
Qed.

Lemma rounds_nn v f : rounds v f -> nn f.
Proof. intros H. now apply rounds_fin with v. Qed.

Lemma inf_top f : nn f -> fle f (S754_infinity false) = true.
Proof. intros [F|[[] ->]]; [|reflexivity|reflexivity]. destruct f; cbn in F; try contradiction; reflexivity. Qed.
Lemma inf_bot f : nn f -> fle (S754_infinity true) f = true.
Proof. intros [F|[[] ->]]; [|reflexivity|reflexivity]. destruct f; cbn in F; try contradiction; reflexivity. Qed.
Lemma above_inf f : nn f -> fle (S754_infinity false) f = true -> f = S754_infinity false.
Proof. intros [F|[[] ->]] L; [|discriminate L|reflexivity]. destruct f; cbn in F; try contradiction; discriminate L. Qed.
Lemma below_inf f : nn f -> fle f (S754_infinity true) = true -> f = S754_infinity true.
Proof. intros [F|[[] ->]] L; [|reflexivity|discriminate L]. destruct f; cbn in F; try contradiction; discriminate L. Qed.
Lemma nonneg_inf s f : f = S754_infinity s -> fle (S754_zero false) f = true -> f = S754_infinity false.
Proof. intros -> L. destruct s; [discriminate L|reflexivity]. Qed.

(** Products with a positive number. *)
Lemma mul_inf s f : fin64 f -> 0 < sfR f -> SFmul f64 e64 (S754_infinity s) f = S754_infinity s.
Proof.
  intros F P. destruct (pos_shape f F P) as (m & e & ->). Local Transparent SFmul. cbn [SFmul]. now rewrite xorb_false_r.
Qed.
Local Opaque SFmul.

Lemma mul_nn x c : nn x -> fin64 c -> 0 < sfR c -> nn (SFmul f64 e64 x c).
Proof. intros [Fx|[s ->]] F P; [eapply rounds_nn, mul_rounds; auto|rewrite mul_inf by auto; right; eauto]. Qed.

Lemma mul_mono_l x y c : nn x -> nn y -> fin64 c -> 0 < sfR c -> fle x y = true ->
  fle (SFmul f64 e64 x c) (SFmul f64 e64 y c) = true.
Proof.
  intros Hx Hy F P L. pose proof (mul_nn x c Hx F P) as Nx. pose proof (mul_nn y c Hy F P) as Ny.
  destruct Hx as [Fx|[[] ->]].
  - destruct Hy as [Fy|[[] ->]].
    + eapply rounds_mono; [apply mul_rounds; auto|apply mul_rounds; auto|].
      apply Rmult_le_compat_r; [lra|]. now apply fle_R.
    + apply below_inf in L; [|now left]. subst x. contradiction.
    + rewrite (mul_inf false) by auto. now apply inf_top.
  - rewrite (mul_inf true) by auto. now apply inf_bot.
  - apply above_inf in L; [|exact Hy]. subst y. rewrite mul_inf by auto. reflexivity.
Qed.

Lemma mul_mono_r x c d : nn x -> fle (S754_zero false) x = true -> fin64 c -> fin64 d -> 0 < sfR c -> 0 < sfR d ->
  sfR c <= sfR d -> fle (SFmul f64 e64 x c) (SFmul f64 e64 x d) = true.
Proof.
  intros Hx N Fc Fd Pc Pd L. destruct Hx as [Fx|[s E]].
  - eapply rounds_mono; [apply mul_rounds; auto|apply mul_rounds; auto|].
    apply Rmult_le_compat_l; [|exact L]. apply (fle_R (S754_zero false) x I Fx) in N. exact N.
  - pose proof (nonneg_inf s x E N) as ->. rewrite !mul_inf by auto. reflexivity.
Qed.

Lemma mul_nonneg x c : nn x -> fle (S754_zero false) x = true -> fin64 c -> 0 < sfR c ->
  fle (S754_zero false) (SFmul f64 e64 x c) = true.
Proof.
  intros Hx N F P. destruct Hx as [Fx|[s E]].
  - apply (fle_R (S754_zero false) x I Fx) in N. cbn [sfR] in N.
    eapply rounds_mono with (v := 0); [now apply r_zero with false|apply mul_rounds; auto|]. apply Rmult_le_pos; lra.
  - pose proof (nonneg_inf s x E N) as ->. rewrite !mul_inf by auto. reflexivity.
Qed.

(** Quotients by a positive number. *)
Local Transparent SFdiv.
Lemma div_inf s f : fin64 f -> 0 < sfR f -> SFdiv f64 e64 (S754_infinity s) f = S754_infinity s.
Proof. intros F P. destruct (pos_shape f F P) as (m & e & ->). cbn [SFdiv]. now rewrite xorb_false_r. Qed.
Lemma div_by_inf x : fin64 x -> exists s, SFdiv f64 e64 x (S754_infinity false) = S754_zero s.
Proof. destruct x as [s| | |s m e]; cbn [fin64]; try contradiction; intros _; cbn [SFdiv]; eauto. Qed.
Lemma div_infs s t : SFdiv f64 e64 (S754_infinity s) (S754_infinity t) = S754_nan.
Proof. reflexivity. Qed.
Local Opaque SFdiv.

Lemma div_nn x c : nn x -> fin64 c -> 0 < sfR c -> nn (SFdiv f64 e64 x c).
Proof. intros [Fx|[s ->]] F P; [eapply rounds_nn, div_rounds; auto; lra|rewrite div_inf by auto; right; eauto]. Qed.

Lemma div_mono_l x y c : nn x -> nn y -> fin64 c -> 0 < sfR c -> fle x y = true ->
  fle (SFdiv f64 e64 x c) (SFdiv f64 e64 y c) = true.
Proof.
  intros Hx Hy F P L. pose proof (div_nn x c Hx F P) as Nx. pose proof (div_nn y c Hy F P) as Ny.
  destruct Hx as [Fx|[[] ->]].
  - destruct Hy as [Fy|[[] ->]].
    + eapply rounds_mono; [apply div_rounds; auto; lra|apply div_rounds; auto; lra|].
      unfold Rdiv. apply Rmult_le_compat_r; [apply Rlt_le, Rinv_0_lt_compat; lra|]. now apply fle_R.
    + apply below_inf in L; [|now left]. subst x. contradiction.
    + rewrite (div_inf false) by auto. now apply inf_top.
  - rewrite (div_inf true) by auto. now apply inf_bot.
  - apply above_inf in L; [|exact Hy]. subst y. rewrite div_inf by auto. reflexivity.
Qed.

Lemma div_mono_r x c d : nn x -> fle (S754_zero false) x = true -> fin64 c -> fin64 d -> 0 < sfR d ->
  sfR d <= sfR c -> fle (SFdiv f64 e64 x c) (SFdiv f64 e64 x d) = true.
Proof.
  intros Hx N Fc Fd Pd L. destruct Hx as [Fx|[s E]].
  - eapply rounds_mono; [apply div_rounds; auto; lra|apply div_rounds; auto; lra|].
    unfold Rdiv. apply Rmult_le_compat_l; [apply (fle_R (S754_zero false) x I Fx) in N; exact N|].
    apply Rinv_le_contravar; lra.
  - pose proof (nonneg_inf s x E N) as ->. rewrite !div_inf by (auto; lra). reflexivity.
Qed.

Lemma div_nonneg x c : nn x -> fle (S754_zero false) x = true -> fin64 c -> 0 < sfR c ->
  fle (S754_zero false) (SFdiv f64 e64 x c) = true.
Proof.
  intros Hx N F P. destruct Hx as [Fx|[s E]].
  - apply (fle_R (S754_zero false) x I Fx) in N. cbn [sfR] in N.
    eapply rounds_mono with (v := 0); [now apply r_zero with false|apply div_rounds; auto; lra|].
    unfold Rdiv. apply Rmult_le_pos; [lra|]. apply Rlt_le, Rinv_0_lt_compat; lra.
  - pose proof (nonneg_inf s x E N) as ->. rewrite !div_inf by auto. reflexivity.
Qed.

(** Sums of numbers that are not negative. *)
Local Transparent SFadd.
Lemma add_inf_l x : nn x -> fle (S754_zero false) x = true -> SFadd f64 e64 (S754_infinity false) x = S754_infinity false.
Proof. intros [F|[s E]] N; [destruct x; cbn in F; try contradiction; reflexivity|]. now rewrite (nonneg_inf s x E N). Qed.
Lemma add_inf_r x : nn x -> fle (S754_zero false) x = true -> SFadd f64 e64 x (S754_infinity false) = S754_infinity false.
Proof. intros [F|[s E]] N; [destruct x; cbn in F; try contradiction; reflexivity|]. now rewrite (nonneg_inf s x E N). Qed.
Local Opaque SFadd.

Lemma add_nonneg x y : nn x -> nn y -> fle (S754_zero false) x = true -> fle (S754_zero false) y = true ->
  nn (SFadd f64 e64 x y) /\ fle (S754_zero false) (SFadd f64 e64 x y) = true.
Proof.
  intros Hx Hy Nx Ny. destruct Hx as [Fx|[s E]].
  - destruct Hy as [Fy|[s E]].
    + pose proof (add_rounds x y Fx Fy) as R. split; [now apply rounds_nn in R|].
      apply (fle_R (S754_zero false) x I Fx) in Nx. apply (fle_R (S754_zero false) y I Fy) in Ny. cbn [sfR] in *.
      eapply rounds_mono with (v := 0); [now apply r_zero with false|exact R|lra].
    + pose proof (nonneg_inf s y E Ny) as ->. rewrite add_inf_r by (auto; now left). split; [right; eauto|reflexivity].
  - pose proof (nonneg_inf s x E Nx) as ->. rewrite add_inf_l by auto. split; [right; eauto|reflexivity].
Qed.

Lemma fle_trans f g h : fle f g = true -> fle g h = true -> fle f h = true.
Proof. apply ext_trans. Qed.

Lemma add_mono x y x' y' : nn x -> nn y -> nn x' -> nn y' -> fle (S754_zero false) x = true -> fle (S754_zero false) y = true ->
  fle x x' = true -> fle y y' = true -> fle (SFadd f64 e64 x y) (SFadd f64 e64 x' y') = true.
Proof.
  intros Hx Hy Hx' Hy' Nx Ny Lx Ly. pose proof (fle_trans _ _ _ Nx Lx) as Nx'. pose proof (fle_trans _ _ _ Ny Ly) as Ny'.
  destruct (add_nonneg x y Hx Hy Nx Ny) as [N1 _].
  destruct Hx' as [Fx'|[s E]]; [|pose proof (nonneg_inf s x' E Nx') as ->; rewrite add_inf_l by auto; now apply inf_top].
  destruct Hy' as [Fy'|[s E]]; [|pose proof (nonneg_inf s y' E Ny') as ->; rewrite add_inf_r by (auto; now left); now apply inf_top].
  destruct Hx as [Fx|[s E]]; [|pose proof (nonneg_inf s x E Nx) as ->; apply above_inf in Lx; [|now left]; subst x'; contradiction].
  destruct Hy as [Fy|[s E]]; [|pose proof (nonneg_inf s y E Ny) as ->; apply above_inf in Ly; [|now left]; subst y'; contradiction].
  eapply rounds_mono; [apply add_rounds; auto|apply add_rounds; auto|].
  apply fle_R in Lx; auto. apply fle_R in Ly; auto. lra.
Qed.
