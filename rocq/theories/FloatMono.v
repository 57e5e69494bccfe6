(** The formulas of S5, S6, S7 and as4100_sect_props without powers keep the order of their arguments
    exactly on doubles. *)

From Coq Require Import ZArith Reals List Bool Lra Lia Floats.SpecFloat.
From Verif Require Import Base Num PyNum FloatSpec FloatValSpec FloatRound FloatOps FloatFacts FloatError FloatUtil FloatCheck
  FloatBeam FloatCalc FloatOrderSpec FloatOrder NumFormulas NumSect.
Import ListNotations.
Open Scope R_scope.
Local Opaque SFadd SFsub SFdiv.

Lemma mul_comm x y : SFmul f64 e64 x y = SFmul f64 e64 y x.
Proof.
  destruct x as [s| | |s m e], y as [s'| | |s' m' e']; cbn [SFmul]; auto; try (now rewrite xorb_comm).
  now rewrite xorb_comm, Pos.mul_comm, Z.add_comm.
Qed.
Local Opaque SFmul.

Lemma nonneg_fl x : non_negative x <-> exists f, x = PFlt f /\ nn f /\ fle (S754_zero false) f = true.
Proof.
  split.
  - intros (S & L). apply some_nn in S. destruct S as (f & -> & N). exists f. rewrite fl_zero in L. auto.
  - intros (f & -> & N & L). split; [apply some_nn; eauto|]. rewrite fl_zero. exact L.
Qed.

Lemma grows_fl x x' : grows x x' <-> exists f f', x = PFlt f /\ x' = PFlt f' /\ nn f /\ nn f' /\
  fle (S754_zero false) f = true /\ fle (S754_zero false) f' = true /\ fle f f' = true.
Proof.
  unfold grows. rewrite !nonneg_fl. split.
  - intros ((f & -> & N & Z) & (f' & -> & N' & Z') & L). exists f, f'. auto 8.
  - intros (f & f' & -> & -> & N & N' & Z & Z' & L). split; [eauto|]. split; [eauto|exact L].
Qed.

Lemma pgrows_fl c c' : pgrows c c' <-> exists f f', c = PFlt f /\ c' = PFlt f' /\ fin64 f /\ fin64 f' /\
  0 < sfR f /\ 0 < sfR f' /\ sfR f <= sfR f'.
Proof.
  unfold pgrows. rewrite !pos_fin. split.
  - intros ((f & -> & N & Z) & (f' & -> & N' & Z') & L). exists f, f'. apply (fle_R f f') in L; auto. auto 8.
  - intros (f & f' & -> & -> & N & N' & Z & Z' & L). split; [eauto|]. split; [eauto|]. now apply (fle_R f f').
Qed.

Lemma pgrows_grows c c' : pgrows c c' -> grows c c'.
Proof.
  intros H. apply pgrows_fl in H. destruct H as (f & f' & -> & -> & F & F' & P & P' & L). apply grows_fl. exists f, f'.
  repeat split; try (now left); try (now apply fle_R); apply fle_R; cbn [sfR]; try exact I; auto; lra.
Qed.

Lemma nonneg_grows x : non_negative x -> grows x x.
Proof. intros H. split; [exact H|]. split; [exact H|]. apply le_refl, some_nan, H. Qed.
Lemma positive_pgrows x : positive x -> pgrows x x.
Proof. intros H. split; [exact H|]. split; [exact H|]. apply le_refl. destruct H as ((_ & _ & N) & _). exact N. Qed.

Lemma grows_mul x x' c c' : grows x x' -> pgrows c c' -> grows (nmul x c) (nmul x' c').
Proof.
  intros H K. apply grows_fl in H. apply pgrows_fl in K.
  destruct H as (f & f' & -> & -> & N & N' & Z & Z' & L), K as (g & g' & -> & -> & G & G' & P & P' & M).
  apply grows_fl. exists (SFmul f64 e64 f g), (SFmul f64 e64 f' g'). split; [reflexivity|]. split; [reflexivity|].
  split; [now apply mul_nn|]. split; [now apply mul_nn|]. split; [now apply mul_nonneg|]. split; [now apply mul_nonneg|].
  apply fle_trans with (SFmul f64 e64 f' g); [now apply mul_mono_l|now apply mul_mono_r].
Qed.

Lemma nmul_comm_fl f g : nmul (PFlt f) (PFlt g) = nmul (PFlt g) (PFlt f).
Proof. cbn. now rewrite mul_comm. Qed.

Lemma grows_mul' x x' c c' : pgrows c c' -> grows x x' -> grows (nmul c x) (nmul c' x').
Proof.
  intros K H. pose proof (grows_mul _ _ _ _ H K) as G. apply grows_fl in H. apply pgrows_fl in K.
  destruct H as (f & f' & -> & -> & _), K as (g & g' & -> & -> & _). now rewrite (nmul_comm_fl g), (nmul_comm_fl g').
Qed.

Lemma div_pos x c : positive c -> pydiv x c = Ok (ndiv x c).
Proof. intros (F & P). unfold pydiv. rewrite fin_nonzero; [reflexivity|exact F|lra]. Qed.

Lemma grows_div x x' c c' : grows x x' -> pgrows c' c ->
  pydiv x c = Ok (ndiv x c) /\ pydiv x' c' = Ok (ndiv x' c') /\ grows (ndiv x c) (ndiv x' c').
Proof.
  intros H K. split; [apply div_pos, K|]. split; [apply div_pos, K|]. apply grows_fl in H. apply pgrows_fl in K.
  destruct H as (f & f' & -> & -> & N & N' & Z & Z' & L), K as (g' & g & -> & -> & G' & G & P' & P & M).
  apply grows_fl. exists (SFdiv f64 e64 f g), (SFdiv f64 e64 f' g'). split; [reflexivity|]. split; [reflexivity|].
  split; [now apply div_nn|]. split; [now apply div_nn|]. split; [now apply div_nonneg|]. split; [now apply div_nonneg|].
  apply fle_trans with (SFdiv f64 e64 f' g); [now apply div_mono_l|now apply div_mono_r].
Qed.

Lemma grows_add x x' y y' : grows x x' -> grows y y' -> grows (nadd x y) (nadd x' y').
Proof.
  intros H K. apply grows_fl in H. apply grows_fl in K.
  destruct H as (f & f' & -> & -> & N & N' & Z & Z' & L), K as (g & g' & -> & -> & G & G' & P & P' & M).
  destruct (add_nonneg f g N G Z P) as [A B], (add_nonneg f' g' N' G' Z' P') as [A' B'].
  apply grows_fl. exists (SFadd f64 e64 f g), (SFadd f64 e64 f' g'). repeat (split; [reflexivity|]). repeat (split; [assumption|]).
  now apply add_mono.
Qed.

(** The lesser and the greater of two numbers. *)
Lemma min_le x y : some_double x -> some_double y -> le (pymin x y) x /\ le (pymin x y) y /\ (pymin x y = x \/ pymin x y = y).
Proof.
  intros Hx Hy. unfold pymin, le. change (@nltb pynum PNum y x) with (py_leb y x && negb (py_leb x y)).
  destruct (cmp_total x y (some_nan x Hx) (some_nan y Hy)) as [H|H].
  - rewrite H, andb_false_r. split; [now apply le_refl, some_nan|]. auto.
  - rewrite H. destruct (py_leb x y) eqn:E; cbn [andb negb].
    + split; [now apply le_refl, some_nan|]. auto.
    + split; [exact H|]. split; [now apply le_refl, some_nan|]. auto.
Qed.
Lemma max_le x y : some_double x -> some_double y -> le x (pymax x y) /\ le y (pymax x y) /\ (pymax x y = x \/ pymax x y = y).
Proof.
  intros Hx Hy. unfold pymax, le. change (@nltb pynum PNum x y) with (py_leb x y && negb (py_leb y x)).
  destruct (cmp_total x y (some_nan x Hx) (some_nan y Hy)) as [H|H].
  - rewrite H. destruct (py_leb y x) eqn:E; cbn [andb negb].
    + split; [now apply le_refl, some_nan|]. auto.
    + split; [exact H|]. split; [now apply le_refl, some_nan|]. auto.
  - rewrite H, andb_false_r. split; [now apply le_refl, some_nan|]. auto.
Qed.

Lemma min_nonneg x y : non_negative x -> non_negative y -> non_negative (pymin x y).
Proof. intros Hx Hy. destruct (min_le x y (proj1 Hx) (proj1 Hy)) as (_ & _ & [->| ->]); auto. Qed.
Lemma max_nonneg x y : non_negative x -> non_negative y -> non_negative (pymax x y).
Proof. intros Hx Hy. destruct (max_le x y (proj1 Hx) (proj1 Hy)) as (_ & _ & [->| ->]); auto. Qed.

Lemma grows_min x x' y y' : grows x x' -> grows y y' -> grows (pymin x y) (pymin x' y').
Proof.
  intros (Hx & Hx' & Lx) (Hy & Hy' & Ly). split; [now apply min_nonneg|]. split; [now apply min_nonneg|].
  destruct (min_le x y (proj1 Hx) (proj1 Hy)) as (A & B & _), (min_le x' y' (proj1 Hx') (proj1 Hy')) as (_ & _ & [->| ->]).
  - now apply le_trans with x.
  - now apply le_trans with y.
Qed.
Lemma grows_max x x' y y' : grows x x' -> grows y y' -> grows (pymax x y) (pymax x' y').
Proof.
  intros (Hx & Hx' & Lx) (Hy & Hy' & Ly). split; [now apply max_nonneg|]. split; [now apply max_nonneg|].
  destruct (max_le x' y' (proj1 Hx') (proj1 Hy')) as (A & B & _), (max_le x y (proj1 Hx) (proj1 Hy)) as (_ & _ & [->| ->]).
  - now apply le_trans with x'.
  - now apply le_trans with y'.
Qed.

(** Section 7. *)
Lemma tension_grows Ag Ag' An An' fy fy' fu fu' kt kt' phi phi' au au' :
  grows Ag Ag' -> grows An An' -> pgrows fy fy' -> pgrows fu fu' -> pgrows kt kt' -> pgrows phi phi' -> pgrows au au' ->
  Forall2 grows (ns7_1_N_t Ag An fy fu kt phi au) (ns7_1_N_t Ag' An' fy' fu' kt' phi' au').
Proof.
  intros HA HN Hy Hu Hk Hp Ha. unfold ns7_1_N_t, ns7_2_N_t_yield, ns7_2_N_t_ultimate.
  repeat first [apply Forall2_nil | apply Forall2_cons | apply grows_mul | apply grows_min | assumption].
Qed.

Lemma area_grows N N' fy fy' fu fu' kt kt' phi phi' au au' :
  grows N N' -> pgrows fy' fy -> pgrows fu' fu -> pgrows kt' kt -> pgrows phi' phi -> pgrows au' au ->
  exists a a', ns7_1_A_reqd N fy fu kt phi au = Ok a /\ ns7_1_A_reqd N' fy' fu' kt' phi' au' = Ok a' /\ Forall2 grows a a'.
Proof.
  intros HN Hy Hu Hk Hp Ha. unfold ns7_1_A_reqd, ns7_2_Ag, ns7_2_An.
  destruct (grows_div _ _ _ _ HN Hy) as (-> & -> & G1). cbn [bind].
  destruct (grows_div _ _ _ _ HN Ha) as (-> & -> & G2). cbn [bind].
  destruct (grows_div _ _ _ _ G2 Hk) as (-> & -> & G3). cbn [bind].
  destruct (grows_div _ _ _ _ G3 Hu) as (-> & -> & G4). cbn [bind].
  destruct (grows_div _ _ _ _ G1 Hp) as (-> & -> & G5). cbn [bind].
  destruct (grows_div _ _ _ _ G4 Hp) as (-> & -> & G6). cbn [bind].
  pose proof (grows_max _ _ _ _ G1 G4) as G7. destruct (grows_div _ _ _ _ G7 Hp) as (-> & -> & G8). cbn [bind].
  do 2 eexists. split; [reflexivity|]. split; [reflexivity|].
  repeat (apply Forall2_cons; [assumption|]). apply Forall2_nil.
Qed.

(** Products of sections 5 and 6. *)
Lemma shear_grows A A' fy fy' s s' c c' : pgrows A A' -> pgrows fy fy' -> pgrows s s' -> pgrows c c' ->
  grows (ns5_11_4_V_w_Generic A fy s) (ns5_11_4_V_w_Generic A' fy' s') /\
  grows (ns5_11_4_V_w_CHS A fy s c) (ns5_11_4_V_w_CHS A' fy' s' c').
Proof.
  intros HA Hy Hs Hc.
  unfold ns5_11_4_V_w_Generic, ns5_11_4_V_w_CHS. split.
  - apply grows_mul; [apply grows_mul; [now apply pgrows_grows|assumption]|assumption].
  - apply grows_mul; [|assumption]. apply grows_mul'; [assumption|]. apply grows_mul; [now apply pgrows_grows|assumption].
Qed.

Lemma interface_grows t t' fy fy' Q Q' I I' s s' : grows fy fy' -> pgrows t t' -> pgrows I I' -> pgrows s s' -> pgrows Q' Q ->
  exists v v', ns5_11_4_V_w_Interface t fy Q I s = Ok v /\ ns5_11_4_V_w_Interface t' fy' Q' I' s' = Ok v' /\ grows v v'.
Proof.
  intros Hy Ht Hi Hs Hq. unfold ns5_11_4_V_w_Interface.
  assert (G : grows (nmul (nmul (nmul fy s) t) I) (nmul (nmul (nmul fy' s') t') I')) by (repeat apply grows_mul; assumption).
  destruct (grows_div _ _ _ _ G Hq) as (-> & -> & G'). eauto.
Qed.

Lemma sum_grows v v' : Forall2 grows v v' -> forall a a', grows a a' -> grows (fold_left nadd v a) (fold_left nadd v' a').
Proof.
  intros H. induction H as [|x x' v v' Hx H IH]; intros a a' G; [exact G|]. cbn [fold_left]. apply IH. now apply grows_add.
Qed.

Lemma zero_grows : grows (PFlt (sf_of_Z 0)) (PFlt (sf_of_Z 0)).
Proof. apply grows_fl. exists (S754_zero false), (S754_zero false). repeat split; try reflexivity; left; exact I. Qed.

Lemma sum_int v c : Forall some_double v -> positive c ->
  nmul (fold_left nadd v (nint 0)) c = nmul (fold_left nadd v (PFlt (sf_of_Z 0))) c.
Proof.
  intros H (F & _). destruct H as [|x v Hx H]; cbn [fold_left].
  - now apply imul.
  - f_equal. f_equal. apply some_nn in Hx. destruct Hx as (f & -> & _). reflexivity.
Qed.

Lemma grows_some v v' : Forall2 grows v v' -> Forall some_double v /\ Forall some_double v'.
Proof.
  intros H. induction H as [|x x' v v' (Hx & Hx' & _) H (A & B)]; [split; constructor|].
  split; (constructor; [|assumption]); [apply Hx|apply Hx'].
Qed.

Lemma weld_grows v v' Q Q' I I' : Forall2 grows v v' -> pgrows I I' -> pgrows Q' Q ->
  exists w w', ns5_11_4_V_w_Weld v Q I = Ok w /\ ns5_11_4_V_w_Weld v' Q' I' = Ok w' /\ grows w w'.
Proof.
  intros Hv Hi Hq. unfold ns5_11_4_V_w_Weld. destruct (grows_some v v' Hv) as [S S'].
  rewrite (sum_int v I S), (sum_int v' I' S') by apply Hi.
  assert (G : grows (nmul (fold_left nadd v (PFlt (sf_of_Z 0))) I) (nmul (fold_left nadd v' (PFlt (sf_of_Z 0))) I')).
  { apply grows_mul; [|assumption]. apply sum_grows; [assumption|apply zero_grows]. }
  destruct (grows_div _ _ _ _ G Hq) as (-> & -> & G'). eauto.
Qed.

Lemma bending_grows fy fy' z z' kt kt' kl kl' kr kr' l l' am am' als als' : grows fy fy' -> pgrows z z' -> pgrows kt kt' -> pgrows kl kl' ->
  pgrows kr kr' -> pgrows l l' -> grows am am' -> pgrows als als' ->
  grows (ns5_2_M_s fy z) (ns5_2_M_s fy' z') /\ grows (ns5_6_3_l_e kt kl kr l) (ns5_6_3_l_e kt' kl' kr' l') /\
  grows (ns5_6_1_Mb z am als) (ns5_6_1_Mb z' am' als').
Proof.
  intros. unfold ns5_2_M_s, ns5_6_3_l_e, ns5_6_1_Mb.
  split; [now apply grows_mul|]. split; repeat apply grows_mul; try assumption. now apply pgrows_grows.
Qed.

Lemma compression_grows A A' kf kf' fy fy' : grows A A' -> pgrows kf kf' -> pgrows fy fy' ->
  grows (ns6_2_A_e A kf) (ns6_2_A_e A' kf') /\ grows (ns6_2_N_s A fy) (ns6_2_N_s A' fy') /\
  grows (ns6_2_N_s (ns6_2_A_e A kf) fy) (ns6_2_N_s (ns6_2_A_e A' kf') fy').
Proof. intros. unfold ns6_2_N_s, ns6_2_A_e. split; [|split]; repeat apply grows_mul; assumption. Qed.

(** Quotients whose denominator may be infinite. *)
Lemma quot_mono x x' d d' : nn x -> nn x' -> nn d -> nn d' -> fle (S754_zero false) x = true -> fle x x' = true ->
  fle d' d = true -> fle (S754_zero false) d' = true -> fle d' (S754_zero false) = false ->
  SFdiv f64 e64 x d <> S754_nan -> SFdiv f64 e64 x' d' <> S754_nan ->
  fle (SFdiv f64 e64 x d) (SFdiv f64 e64 x' d') = true.
Proof.
  intros Hx Hx' Hd Hd' Z L M P0 P E E'. pose proof (fle_trans _ _ _ Z L) as Z'. pose proof (fle_trans _ _ _ P0 M) as P1.
  assert (PF : forall g, fin64 g -> fle d' g = true -> fin64 d' -> 0 < sfR d').
  { intros g _ _ F. destruct (Rlt_dec 0 (sfR d')) as [|N]; [assumption|]. exfalso.
    assert (fle d' (S754_zero false) = true) by (apply fle_R; [exact F|exact I|cbn [sfR]; lra]). congruence. }
  destruct Hd as [Fd|[s Ed]].
  - assert (Fd' : fin64 d').
    { destruct Hd' as [|[s Ed']]; [assumption|]. pose proof (nonneg_inf s d' Ed' P0) as ->. apply above_inf in M; [|now left].
      subst d. contradiction. }
    pose proof (PF d Fd M Fd') as Pd'. assert (Pd : 0 < sfR d) by (apply fle_R in M; auto; lra).
    apply fle_trans with (SFdiv f64 e64 x' d); [now apply div_mono_l|]. apply div_mono_r; auto. now apply fle_R.
  - pose proof (nonneg_inf s d Ed P1) as ->. destruct Hx as [Fx|[t Ex]].
    2:{ exfalso. apply E. rewrite (nonneg_inf t x Ex Z). apply div_infs. }
    destruct (div_by_inf x Fx) as [b ->].
    apply fle_trans with (S754_zero false); [now destruct b|].
    destruct Hd' as [Fd'|[t Ed']].
    + apply div_nonneg; auto. apply PF with d'; auto. now apply fle_R; auto; lra.
    + pose proof (nonneg_inf t d' Ed' P0) as ->. destruct Hx' as [Fx'|[t' Ex']].
      * destruct (div_by_inf x' Fx') as [b' ->]. now destruct b'.
      * exfalso. apply E'. rewrite (nonneg_inf t' x' Ex' Z'). apply div_infs.
Qed.

Lemma nan_iff f : nisnan (PFlt f) = false <-> f <> S754_nan.
Proof. destruct f; cbn; split; congruence. Qed.

Lemma pydiv_fl f g r : pydiv (PFlt f) (PFlt g) = Ok r -> r = PFlt (SFdiv f64 e64 f g) /\ py_eqb (PFlt g) (PInt 0) = false.
Proof.
  unfold pydiv. change (@neqb pynum PNum (PFlt g) (nint 0)) with (py_eqb (PFlt g) (PInt 0)).
  destruct (py_eqb (PFlt g) (PInt 0)); [discriminate|]. intros [= <-]. auto.
Qed.

Lemma eq_zero g : fle (S754_zero false) g = true -> py_eqb (PFlt g) (PInt 0) = false -> fle g (S754_zero false) = false.
Proof.
  unfold py_eqb, fle. change (py_leb (PInt 0) (PFlt g)) with (py_leb (PFlt (S754_zero false)) (PFlt g)).
  change (py_leb (PFlt g) (PInt 0)) with (py_leb (PFlt g) (PFlt (S754_zero false))). intros -> H. now rewrite andb_true_r in H.
Qed.

Lemma quot_grows x x' d d' r r' : grows x x' -> grows d' d -> pydiv x d = Ok r -> pydiv x' d' = Ok r' ->
  nisnan r = false -> nisnan r' = false -> le r r'.
Proof.
  intros H K E E' N N'. apply grows_fl in H. apply grows_fl in K.
  destruct H as (f & f' & -> & -> & Hf & Hf' & Z & Z' & L), K as (g' & g & -> & -> & Hg' & Hg & P' & P & M).
  apply pydiv_fl in E. apply pydiv_fl in E'. destruct E as [-> Q], E' as [-> Q'].
  apply nan_iff in N. apply nan_iff in N'. apply quot_mono; auto. now apply eq_zero.
Qed.

Local Transparent SFmul.
Lemma mul_infs : SFmul f64 e64 (S754_infinity false) (S754_infinity false) = S754_infinity false.
Proof. reflexivity. Qed.
Local Opaque SFmul.

Lemma grows_square x x' : grows x x' -> grows (nmul x x) (nmul x' x').
Proof.
  intros H. apply grows_fl in H. destruct H as (f & f' & -> & -> & Hf & Hf' & Z & Z' & L).
  assert (A : forall f, nn f -> fle (S754_zero false) f = true ->
    nn (SFmul f64 e64 f f) /\ fle (S754_zero false) (SFmul f64 e64 f f) = true).
  { clear. intros f [F|[s E]] Z.
    - pose proof (mul_rounds f f F F) as R. split; [now apply rounds_nn in R|].
      eapply rounds_mono with (v := 0); [now apply r_zero with false|exact R|]. apply Rle_0_sqr.
    - rewrite (nonneg_inf s f E Z), mul_infs. split; [right; eauto|reflexivity]. }
  destruct (A f Hf Z) as [A1 A2], (A f' Hf' Z') as [A3 A4].
  apply grows_fl. exists (SFmul f64 e64 f f), (SFmul f64 e64 f' f'). repeat (split; [first [reflexivity|assumption]|]).
  destruct Hf' as [F'|[s E]]; [|rewrite (nonneg_inf s f' E Z'), mul_infs; now apply inf_top].
  destruct Hf as [F|[s E]].
  2:{ pose proof (nonneg_inf s f E Z) as ->. apply above_inf in L; [|now left]. subst f'. contradiction. }
  eapply rounds_mono; [now apply mul_rounds|now apply mul_rounds|].
  apply fle_R in L; auto. apply (fle_R (S754_zero false) f I F) in Z. cbn [sfR] in Z. apply Rmult_le_compat; lra.
Qed.

Lemma pi_positive : positive npi.
Proof.
  apply pos_fin. eexists. split; [reflexivity|]. split; [reflexivity|]. cbn [sfR signed].
  apply Rmult_lt_0_compat; [apply IZR_lt; lia|apply bp_pos].
Qed.

Lemma euler_grows E E' I I' l l' n n' : pgrows E E' -> pgrows I I' -> grows l' l ->
  nN_euler E I l = Ok n -> nN_euler E' I' l' = Ok n' -> nisnan n = false -> nisnan n' = false -> le n n'.
Proof.
  intros HE HI Hl. unfold nN_euler. apply quot_grows; [|now apply grows_square].
  apply grows_mul; [|assumption]. apply grows_mul; [|assumption]. apply grows_square, pgrows_grows, positive_pgrows, pi_positive.
Qed.

Lemma euler_stress_grows E E' r r' l l' n n' : pgrows E E' -> pgrows r r' -> grows l' l ->
  nf_euler E l r = Ok n -> nf_euler E' l' r' = Ok n' -> nisnan n = false -> nisnan n' = false -> le n n'.
Proof.
  intros HE HI Hl. unfold nf_euler. destruct (grows_div _ _ _ _ Hl HI) as (-> & -> & G). cbn [bind].
  apply quot_grows; [|now apply grows_square].
  apply grows_mul; [|assumption]. apply grows_square, pgrows_grows, positive_pgrows, pi_positive.
Qed.
