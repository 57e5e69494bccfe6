(** The utilisation of a whole beam computed on doubles. *)

From Coq Require Import ZArith Reals List Bool String Lia Lra Floats.SpecFloat.
From Verif Require Import Base Num PyNum Numpy LoadCase Beam Material AS4100 AS4100Spec AS4100Facts AS4100Util
  FloatSpec FloatValSpec FloatRound FloatOps FloatFacts FloatError FloatUtil FloatUtilSpec BeamFacts BeamPositions LoadProofs AS4100Cases.
Import ListNotations.
Open Scope R_scope.
Local Opaque SFadd SFsub SFmul SFdiv.

Lemma finite_finp x : finite_double x -> finp x.
Proof. intros H. apply finite_double_fin in H. destruct H as (f & -> & F). exact F. Qed.

(** ** The greatest of a list of finite numbers *)
Lemma fold_max_val l x : finp x -> Forall finp l ->
  In (fold_left pymax l x) (x :: l) /\ forall y, In y (x :: l) -> val y <= val (fold_left pymax l x).
Proof.
  revert x. induction l as [|z l IH]; intros x X F; cbn [fold_left].
  - split; [now left|]. intros y [<-|[]]. lra.
  - inversion F as [|? ? Z F']; subst. unfold pymax at 2 4. change (@nltb pynum PNum) with py_ltb.
    destruct (Rlt_le_dec (val x) (val z)) as [L|L].
    + rewrite (ltb_t x z X Z L). destruct (IH z Z F') as [I M]. split; [now right|].
      intros y [<-|H]; [|now apply M]. apply Rle_trans with (val z); [lra|]. apply M. now left.
    + rewrite (ltb_f x z X Z L). destruct (IH x X F') as [I M]. split; [destruct I as [I|I]; [left|right; right]; auto|].
      intros y [<-|[<-|H]]; [apply M; now left| |apply M; now right].
      apply Rle_trans with (val x); [exact L|]. apply M. now left.
Qed.

(** ** One load *)
Section One.
Variables (c : pynum).
Hypothesis Fc : finite_double c.
Hypothesis Bc : powerRZ 2 (-500) <= val c <= powerRZ 2 500.

Definition about (u : pynum) (r : R) : Prop := finite_double u /\ Rabs (val u - r) <= powerRZ 2 (-49) * r.

Lemma cap_pos : 0 < val c.
Proof. apply Rlt_le_trans with (2 := proj1 Bc). apply powerRZ_lt. lra. Qed.

Lemma rel49 : 16 * u53 = powerRZ 2 (-49).
Proof. unfold u53. change (powerRZ 2 (-49)) with (bp (-49)). change (-49)%Z with (4 + -53)%Z. rewrite bp_add. replace (bp 4) with 16 by (unfold bp; simpl; ring). reflexivity. Qed.

Lemma zero_about n : val n <= 0 -> about (nflt 0 1) (Rmax (val n) 0 / val c).
Proof.
  intros L. rewrite Rmax_right by exact L. split; [apply finite_double_fin; exists (S754_zero false); split; [vm_compute; reflexivity|exact I]|].
  change (nflt 0 1) with (fl 0 1). rewrite fl_zero. cbn [val]. unfold Rdiv. rewrite Rmult_0_l, Rmult_0_r, Rminus_0_r, Rabs_R0. lra.
Qed.

Lemma util_one_about n m : finite_double n ->
  (nltb n (PInt 0) = true -> m = PInt 0 \/ m = fl 0 1) -> (nltb n (PInt 0) = false -> m = n) ->
  val n <= 0 \/ powerRZ 2 (-13) <= val n / val c <= powerRZ 2 20 ->
  exists u, util_one m c = Ok u /\ about u (Rmax (val n) 0 / val c).
Proof.
  intros Fn M1 M2 B. change (@nltb pynum PNum) with py_ltb in *. pose proof cap_pos as Pc.
  assert (Z : val n <= 0 -> exists u, util_one m c = Ok u /\ about u (Rmax (val n) 0 / val c)).
  { intros L. exists (nflt 0 1). split; [|now apply zero_about]. unfold util_one.
    enough (E : nleb m (nflt 0 1) = true) by now rewrite E. change (nleb m (nflt 0 1)) with (py_leb m (fl 0 1)).
    destruct (py_ltb n (PInt 0)) eqn:E.
    - destruct (M1 eq_refl) as [-> | ->]; vm_compute; reflexivity.
    - rewrite (M2 eq_refl). rewrite fl_zero. apply leb_val; [now apply finite_finp|exact I|]. cbn [val]. exact L. }
  destruct B as [L|B]; [now apply Z|].
  destruct (Rle_lt_dec (val n) 0) as [L|L]; [now apply Z|]. clear Z.
  assert (E : py_ltb n (PInt 0) = false) by (apply ltb_f; [now apply finite_finp|exact I|cbn [val]; lra]).
  rewrite (M2 E). clear M1 M2 E. rewrite Rmax_left by lra.
  apply finite_double_fin in Fn, Fc. destruct Fn as (t & -> & Ft), Fc as (k & -> & Fk). rewrite !val_sfR in *.
  destruct (util_one_close t k Ft Fk Bc) as (u & Eu & Fu & Cu).
  { assert (Y : powerRZ 2 20 = 1048576) by (change (powerRZ 2 20) with (bp 20); now rewrite bp_Z by lia).
    assert (X : powerRZ 2 (-13) = 1 / 8192).
    { change (powerRZ 2 (-13)) with (bp (-13)). assert (E : bp (-13) * bp 13 = 1) by (rewrite <- bp_add; apply bp_0).
      rewrite (bp_Z 13) in E by lia. change (2 ^ 13)%Z with 8192%Z in E. lra. }
    rewrite <- X, <- Y. exact B. }
  exists (PFlt u). split; [exact Eu|]. split; [now apply fin_double|]. rewrite val_sfR, <- rel49. exact Cu.
Qed.
End One.

(** ** One position, one load case *)
Lemma clip_all (f : bool) (rows : list (orow pynum)) : Forall (fun o => exists n, snd o = [Some n]) rows ->
  exists out, mapM (clip_row f) rows = Ok out.
Proof.
  intros F. apply mapM_total. intros [x cs] Ho. rewrite Forall_forall in F. destruct (F _ Ho) as (n & E). cbn [snd] in E. subst cs.
  unfold clip_row. cbn [snd fst]. eexists. reflexivity.
Qed.

Lemma utils_at_about qs phi au kt b s a l p c : make_as4100 phi au kt (Some b) s = Ok a ->
  tension_capacity a (PosNum p) = Ok c -> finite_double c -> powerRZ 2 (-500) <= val c <= powerRZ 2 500 ->
  moderate_loads qs b c l p ->
  exists us, utils_at qs a l p = Ok us /\ us <> [] /\
    (forall u, In u us -> exists n, axial_double qs b l p n /\ about u (Rmax (val n) 0 / val c)) /\
    (forall n, axial_double qs b l p n -> exists u, In u us /\ about u (Rmax (val n) 0 / val c)).
Proof.
  intros Hm Ec Fc Bc (rows & Er & Nr & W).
  destruct (clip_all (existsb row_has_float rows) rows) as (out & Eo).
  { eapply Forall_impl; [|exact W]. cbn beta. intros o (n & E & _). eauto. }
  assert (Eg : get_tension qs a l (PosNum p) None = Ok out).
  { unfold get_tension. rewrite (make_beam _ _ _ _ _ _ Hm), Er. cbn [bind]. exact Eo. }
  destruct (C26_py qs phi au kt b s a l (PosNum p) None out Hm Eg) as (rows' & Er' & F).
  assert (rows' = rows) by congruence. subst rows'. clear Er'.
  set (g := fun r : orow pynum => match snd r with [Some t] => util_one t c | _ => Err IndexError end).
  assert (G : exists us, Forall2 (fun o u => g o = Ok u) out us /\
    Forall2 (fun r u => exists n, snd r = [Some n] /\ about u (Rmax (val n) 0 / val c)) rows us).
  { clear Er Nr Eo Eg. revert W. induction F as [|r o rows out (_ & n & m & E1 & E2 & M1 & M2) F IH]; intros W.
    - exists []. split; constructor.
    - inversion W as [|? ? (n' & En & Fn & B) W']; subst. assert (n' = n) by congruence. subst n'.
      destruct (util_one_about c Fc Bc n m Fn M1 M2 B) as (u & Eu & Au). destruct (IH W') as (us & U1 & U2).
      exists (u :: us). split; constructor; auto; [unfold g; now rewrite E2|eauto]. }
  destruct G as (us & U1 & U2). exists us. split; [|split; [|split]].
  - unfold utils_at. rewrite Ec, Eg. cbn [bind]. apply mapM_Forall2. exact U1.
  - intros ->. inversion U2. subst. now apply Nr.
  - intros u Hu. destruct (Forall2_In_r _ _ _ _ U2 Hu) as ([x cs] & Hr & n & E & A). cbn [snd] in E. subst cs.
    exists n. split; [|exact A]. exists rows, x. split; assumption.
  - intros n (rows' & x & E & Hx). assert (rows' = rows) by congruence. subst rows'.
    destruct (Forall2_In_l _ _ _ _ U2 Hx) as (u & Hu & n' & E' & A). cbn [snd] in E'. assert (n' = n) by congruence. subst n'.
    exists u. split; assumption.
Qed.

(** ** The whole beam *)
Lemma util_eq_double qs phi au kt b s a lc cs position ps : make_as4100 phi au kt (Some b) s = Ok a ->
  wanted b lc cs -> looked_double b (assessment_points a) position cs ps ->
  tension_utilisation qs a lc position = let! us := util_loop qs a b (Some ps) cs in list_max us.
Proof.
  intros Hm Hw Ha. unfold tension_utilisation. rewrite (make_beam _ _ _ _ _ _ Hm).
  assert (E : match lc with LCInt z => Ok [z] | LCList l => Ok l | LCNone => beam_load_cases b end = Ok cs).
  { destruct Hw; auto. }
  rewrite E. cbn [bind]. destruct Ha as [p ls Fp|ps ls|l ls locs Ep].
  - rewrite Fp. reflexivity.
  - reflexivity.
  - cbn [bind]. rewrite (util_loop_first qs a b l ls locs Ep). reflexivity.
Qed.

(** The ratios are finitely many, so one is greatest. *)
Lemma list_greatest (rs : list R) : rs <> [] -> exists g, In g rs /\ forall x, In x rs -> x <= g.
Proof.
  induction rs as [|x rs IH]; [congruence|]. intros _. destruct rs as [|y rs].
  - exists x. split; [now left|]. intros z [<-|[]]. lra.
  - destruct IH as (g & Ig & Mg); [discriminate|]. destruct (Rle_lt_dec x g) as [L|L].
    + exists g. split; [now right|]. intros z [<-|Hz]; [exact L|now apply Mg].
    + exists x. split; [now left|]. intros z [<-|Hz]; [lra|]. apply Rle_trans with g; [now apply Mg|lra].
Qed.

Lemma listed_union {A} (P : A -> R -> Prop) l : (forall i, In i l -> exists rs, forall x, P i x <-> In x rs) ->
  exists rs, forall x, (exists i, In i l /\ P i x) <-> In x rs.
Proof.
  induction l as [|i l IH]; intros H.
  - exists []. intros x. split; [intros (i & [] & _)|intros []].
  - destruct (H i) as (r1 & H1); [now left|]. destruct IH as (r2 & H2); [intros j Hj; apply H; now right|].
    exists (r1 ++ r2). intros x. rewrite in_app_iff, <- H1, <- H2. split.
    + intros (j & [<-|Hj] & Px); [now left|]. right. exists j. split; assumption.
    + intros [Px|(j & Hj & Px)]; [exists i|exists j]; (split; [|assumption]); [now left|now right].
Qed.

Lemma ratios_listed qs b cap cs ps : (forall l p, In l cs -> In p ps -> exists c, moderate_loads qs b c l p) ->
  exists rs, forall x, ratio_double qs b cap cs ps x <-> In x rs.
Proof.
  intros H.
  destruct (listed_union (fun l x => exists p, In p ps /\ exists n, axial_double qs b l p n /\ x = Rmax (val n) 0 / val (cap p)) cs)
    as (rs & Hrs).
  { intros l Il. apply listed_union. intros p Ip. destruct (H l p Il Ip) as (c & rows & Er & _ & W).
    exists (map (fun o : orow pynum => match snd o with [Some n] => Rmax (val n) 0 / val (cap p) | _ => 0 end) rows).
    intros x. rewrite in_map_iff. rewrite Forall_forall in W. split.
    - intros (n & (rows' & y & Er' & Hy) & ->). assert (rows' = rows) by congruence. subst rows'. exists (y, [Some n]). split; auto.
    - intros ([y c'] & <- & Ho). destruct (W _ Ho) as (n & En & _). cbn [snd] in *. subst c'. exists n. split; [|reflexivity].
      exists rows, y. split; assumption. }
  exists rs. intros x. rewrite <- Hrs. split.
  - intros (l & p & n & Il & Ip & An & E). exists l. split; auto. exists p. split; auto. exists n. auto.
  - intros (l & Il & p & Ip & n & An & E). exists l, p, n. auto.
Qed.

Lemma util_about qs phi au kt b s a lc cs position ps cap : make_as4100 phi au kt (Some b) s = Ok a ->
  wanted b lc cs -> looked_double b (assessment_points a) position cs ps -> cs <> [] -> ps <> [] ->
  (forall p, In p ps -> tension_capacity a (PosNum p) = Ok (cap p) /\ finite_double (cap p) /\
     powerRZ 2 (-500) <= val (cap p) <= powerRZ 2 500) ->
  (forall l p, In l cs -> In p ps -> moderate_loads qs b (cap p) l p) ->
  exists u g, tension_utilisation qs a lc position = Ok u /\ finite_double u /\
    greatest g (ratio_double qs b cap cs ps) /\ Rabs (val u - g) <= powerRZ 2 (-49) * g.
Proof.
  intros Hm Hw Ha Nc Np Hc Hl. rewrite (util_eq_double qs phi au kt b s a lc cs position ps Hm Hw Ha).
  assert (U : forall l p, In l cs -> In p ps -> exists us, utils_at qs a l p = Ok us /\ us <> [] /\
    (forall u, In u us -> exists n, axial_double qs b l p n /\ about u (Rmax (val n) 0 / val (cap p))) /\
    (forall n, axial_double qs b l p n -> exists u, In u us /\ about u (Rmax (val n) 0 / val (cap p)))).
  { intros l p Il Ip. destruct (Hc p Ip) as (E & F & B).
    exact (utils_at_about qs phi au kt b s a l p (cap p) Hm E F B (Hl l p Il Ip)). }
  destruct (util_loop_total qs a b ps cs) as (us & Eu).
  { intros l p Il Ip. destruct (U l p Il Ip) as (us & E & _). exists us. exact E. }
  destruct (util_loop_ok qs a b ps cs us Eu) as [_ J]. rewrite Eu. cbn [bind].
  assert (A1 : forall u, In u us -> exists x, ratio_double qs b cap cs ps x /\ about u x).
  { intros u Hu. apply J in Hu. destruct Hu as (l & p & vs & Il & Ip & E & Iv).
    destruct (U l p Il Ip) as (us' & E' & _ & K & _). assert (vs = us') by congruence. subst us'.
    destruct (K u Iv) as (n & An & B). exists (Rmax (val n) 0 / val (cap p)). split; [|exact B]. exists l, p, n. auto. }
  assert (A2 : forall x, ratio_double qs b cap cs ps x -> exists u, In u us /\ about u x).
  { intros x (l & p & n & Il & Ip & An & ->). destruct (U l p Il Ip) as (vs & E & _ & _ & K).
    destruct (K n An) as (u & Iv & B). exists u. split; [|exact B]. apply J. exists l, p, vs. auto. }
  assert (Nu : us <> []).
  { destruct cs as [|l cs]; [congruence|]. destruct ps as [|p ps]; [congruence|].
    destruct (U l p) as (vs & E & Nv & _); [now left|now left|]. destruct vs as [|v vs]; [congruence|]. intros ->.
    apply (proj2 (J v)). exists l, p, (v :: vs). split; [now left|]. split; [now left|]. split; [exact E|now left]. }
  destruct us as [|u0 us]; [congruence|]. clear Nu Eu J U.
  assert (Fu : forall u, In u (u0 :: us) -> finp u).
  { intros u Hu. destruct (A1 u Hu) as (x & _ & F & _). now apply finite_finp. }
  destruct (fold_max_val us u0) as [I M]; [apply Fu; now left|apply Forall_forall; intros u Hu; apply Fu; now right|].
  set (u := fold_left pymax us u0) in *.
  assert (Pr : forall x, ratio_double qs b cap cs ps x -> 0 <= x).
  { intros x (l & p & n & _ & Ip & _ & ->). destruct (Hc p Ip) as (_ & _ & B).
    apply Rmult_le_pos; [apply Rmax_r|]. apply Rlt_le, Rinv_0_lt_compat. exact (cap_pos _ B). }
  assert (G : exists g, greatest g (ratio_double qs b cap cs ps)).
  { destruct (ratios_listed qs b cap cs ps) as (rs & Hrs); [intros l p Il Ip; exists (cap p); now apply Hl|].
    destruct (list_greatest rs) as (g & Ig & Mg).
    - intros ->. destruct (A1 u I) as (x & Rx & _). now apply Hrs in Rx.
    - exists g. split; [now apply Hrs|]. intros x Hx. apply Mg. now apply Hrs. }
  destruct G as (g & Gg & Mg). exists u, g. split; [reflexivity|]. split.
  { destruct (A1 u I) as (x & _ & F & _). exact F. }
  split; [split; assumption|].
  destruct (A1 u I) as (x & Rx & _ & Bx). destruct (A2 g Gg) as (v & Iv & _ & Bv).
  pose proof (M v Iv) as L1. pose proof (Mg x Rx) as L2. pose proof (Pr x Rx) as P1. pose proof (Pr g Gg) as P2.
  apply abs_le in Bx, Bv. apply abs_le.
  assert (0 < powerRZ 2 (-49)) by (apply powerRZ_lt; lra).
  assert (powerRZ 2 (-49) * x <= powerRZ 2 (-49) * g) by (apply Rmult_le_compat_l; lra). lra.
Qed.
