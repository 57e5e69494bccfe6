(** Proofs about the tension utilisation over the reals. *)

From Coq Require Import ZArith Reals List Bool String Lra Lia FunctionalExtensionality.
From Verif Require Import Base Num RNum PyNum Numpy LoadCase LoadSpec LoadFacts LoadProofs
  Beam BeamSpec BeamFacts BeamPositions BeamProofs BeamLoads BeamMisc BeamFloat
  Solvers SolverSpec SolverFacts Material AS4100 AS4100Spec AS4100Facts.
Import ListNotations.
Open Scope R_scope.

(** ** One tension value *)

Lemma util_func_total t cap : cap <> 0 -> util_func t cap = total (fun x => t / cap * x + -1).
Proof.
  intros H. apply functional_extensionality. intros x. unfold util_func, total.
  cbn [neqb nint nsub ndiv nmul nflt RNum].
  destruct (Reqb cap 0) eqn:E; [apply Reqb_true in E; contradiction|]. f_equal. field. auto.
Qed.

Lemma default_tol_R : default_tol = / 1000000000 :> R.
Proof. unfold default_tol. cbn. field. Qed.

Section One.
Variables t cap : R.
Hypothesis Hc : 0 < cap.
Let k := t / cap.
Let f x := k * x + -1.

Lemma far_bounds : ~ indistinguishable default_tol (-100000) 100000.
Proof.
  unfold indistinguishable, slack. rewrite default_tol_R. intros H.
  assert (E1 : Rabs (100000 - -100000) = 200000) by (rewrite Rabs_right; lra).
  assert (E2 : Rabs (-100000) = 100000) by (rewrite Rabs_left; lra).
  assert (E3 : Rabs 100000 = 100000) by (rewrite Rabs_right; lra).
  rewrite E1, E2, E3, (Rmax_left 100000 100000) in H by lra. unfold Rmax in H. destruct (Rle_dec _ _); lra.
Qed.

Lemma close_values : 0 < k ->
  indistinguishable default_tol (f 100000) (f (-100000)) <-> k <= smallest_ratio.
Proof.
  intros Hk. unfold indistinguishable, slack, smallest_ratio, f. rewrite default_tol_R.
  replace (k * -100000 + -1 - (k * 100000 + -1)) with (- (200000 * k)) by ring.
  rewrite Rabs_Ropp, Rabs_right by lra.
  rewrite (Rabs_left (k * -100000 + -1)) by lra.
  assert (E : Rmax (Rabs (k * 100000 + -1)) (- (k * -100000 + -1)) = 100000 * k + 1).
  { rewrite Rmax_right; [ring|]. apply Rabs_le. lra. }
  rewrite E, Rmax_right by lra.
  split; intros H.
  - apply (Rmult_le_reg_r (200000 - / 10000)); [lra|]. unfold Rdiv. rewrite Rmult_assoc, Rinv_l by lra. lra.
  - apply (Rmult_le_compat_r (200000 - / 10000)) in H; [|lra]. unfold Rdiv in H. rewrite Rmult_assoc, Rinv_l in H by lra. lra.
Qed.

Lemma root_found : 0 < k -> smallest_ratio < k ->
  exists n, secant (util_func t cap) (Z.to_nat 20000) (nint (-100000)) (nint 100000) default_tol default_max_its false 2
  = Ok (cap / t, n, false).
Proof.
  intros Hk Hs. rewrite util_func_total by lra. fold k. change (fun x => k * x + -1) with f.
  assert (Ht : t = k * cap) by (unfold k; field; lra).
  assert (E : - -1 / k = cap / t) by (rewrite Ht; field; split; lra). rewrite <- E.
  cbn [nint RNum].
  destruct (secant_affine f (Z.to_nat 20000) (-100000) 100000 default_tol default_max_its false 2 k (-1)) as [H|H]; eauto.
  - lra.
  - rewrite default_tol_R. lra.
  - apply far_bounds.
  - intros D. apply close_values in D; auto. lra.
  - destruct (Rlt_dec default_tol (Rabs (f 100000))) as [L|L]; [now left|right].
    apply Rnot_lt_le in L. unfold indistinguishable, slack.
    apply Rle_trans with (/ 1000000000 * Rabs (- -1 / k)).
    + replace (- -1 / k - 100000) with (- (f 100000) * / k) by (unfold f; field; lra).
      rewrite Rabs_mult, Rabs_Ropp. replace (- -1 / k) with (/ k) by (field; lra).
      apply Rmult_le_compat_r; [apply Rabs_pos|]. rewrite <- default_tol_R. exact L.
    + eapply Rle_trans; [|apply Rmax_r]. apply Rmult_le_compat_l; [lra|]. apply Rmax_r.
  - lia.
  - cbn. lia.
Qed.

Lemma root_missed : 0 < k -> k <= smallest_ratio ->
  secant (util_func t cap) (Z.to_nat 20000) (nint (-100000)) (nint 100000) default_tol default_max_its false 2 = Err ValueError.
Proof.
  intros Hk Hs. rewrite util_func_total by lra. fold k. change (fun x => k * x + -1) with f. cbn [nint RNum].
  assert (Z : 0 <= default_tol) by (rewrite default_tol_R; lra).
  rewrite secant_eq; [|exact Z|apply far_bounds].
  destruct (Z.to_nat 20000) as [|fuel] eqn:Ef; [exfalso; lia|].
  destruct (sec_loop_eq f (S fuel) (-100000) 100000 default_tol default_max_its false 2 (-100000) 100000 None 0 Z)
    as [[A _]|[_ [[_ E]|[A _]]]].
  - exfalso. now apply far_bounds.
  - exact E.
  - exfalso. apply A. now apply close_values.
Qed.

(** The utilisation of one tension value. *)
Lemma util_one_R :
  util_one t cap = (if Rle_dec t 0 then Ok 0 else if Rle_dec k smallest_ratio then Err ValueError else Ok k).
Proof.
  unfold util_one. rewrite !zero_lit. cbn [nleb RNum]. destruct (Rle_dec t 0) as [L|L].
  - rewrite (proj2 (Rleb_true t 0)) by auto. reflexivity.
  - rewrite (proj2 (Rleb_false t 0)) by lra. apply Rnot_le_lt in L.
    assert (Hk : 0 < k) by (apply Rdiv_lt_0_compat; auto).
    destruct (Rle_dec k smallest_ratio) as [S|S].
    + rewrite root_missed by auto. reflexivity.
    + destruct root_found as (n & E); auto; [lra|]. rewrite E. cbn [bind fst neqb RNum].
      assert (N : cap / t <> 0) by (apply Rgt_not_eq; apply Rdiv_lt_0_compat; auto).
      destruct (Reqb (cap / t) 0) eqn:E0; [apply Reqb_true in E0; contradiction|].
      unfold pydiv. cbn [neqb nint ndiv RNum]. rewrite E0. f_equal. unfold k. field. lra.
Qed.
End One.

(** ** The loop *)
Section Loop.
Context {T : Type} {NT : Num T}.

Lemma util_loop_ok qs (a : as4100 T) b ps ls us : util_loop qs a b (Some ps) ls = Ok us ->
  (forall l p, In l ls -> In p ps -> exists vs, utils_at qs a l p = Ok vs) /\
  (forall x, In x us <-> exists l p vs, In l ls /\ In p ps /\ utils_at qs a l p = Ok vs /\ In x vs).
Proof.
  revert us. induction ls as [|l ls IH]; intros us H; cbn [util_loop] in H.
  - injection H as <-. split; [intros l p []|]. intros x. split; [intros []|]. intros (l & p & vs & [] & _).
  - cbn [bind] in H. destruct (mapM (utils_at qs a l) ps) as [uss|] eqn:Em; [|discriminate]. cbn [bind] in H.
    destruct (util_loop qs a b (Some ps) ls) as [rest|] eqn:El; [|discriminate]. cbn [bind] in H. injection H as <-.
    destruct (IH rest eq_refl) as [I1 I2]. apply mapM_inv in Em. split.
    + intros l' p [<-|Hl] Hp; [|auto]. destruct (Forall2_In_l _ _ _ _ Em Hp) as (vs & _ & E). eauto.
    + intros x. rewrite in_app_iff, I2, in_concat. split.
      * intros [(vs & Hv & Hx)|(l' & p & vs & Hl & Hp & E & Hx)].
        -- destruct (Forall2_In_r _ _ _ _ Em Hv) as (p & Hp & E). exists l, p, vs. repeat split; auto. now left.
        -- exists l', p, vs. repeat split; auto. now right.
      * intros (l' & p & vs & [<-|Hl] & Hp & E & Hx).
        -- left. destruct (Forall2_In_l _ _ _ _ Em Hp) as (vs' & Hv & E'). exists vs. split; auto. congruence.
        -- right. exists l', p, vs. auto.
Qed.

Lemma util_loop_total qs (a : as4100 T) b ps ls :
  (forall l p, In l ls -> In p ps -> exists vs, utils_at qs a l p = Ok vs) ->
  exists us, util_loop qs a b (Some ps) ls = Ok us.
Proof.
  induction ls as [|l ls IH]; intros H; cbn [util_loop bind]; [eauto|].
  destruct (mapM_total (utils_at qs a l) ps) as (uss & E); [intros; apply H; auto; now left|].
  rewrite E. cbn [bind]. destruct IH as (rest & Er); [intros; apply H; auto; now right|]. rewrite Er. cbn. eauto.
Qed.

Lemma util_loop_err qs (a : as4100 T) b ps ls e : util_loop qs a b (Some ps) ls = Err e ->
  exists l p, In l ls /\ In p ps /\ utils_at qs a l p = Err e.
Proof.
  induction ls as [|l ls IH]; intros H; cbn [util_loop bind] in H; [discriminate|].
  destruct (mapM (utils_at qs a l) ps) as [uss|e'] eqn:Em; cbn [bind] in H.
  - destruct (util_loop qs a b (Some ps) ls) as [rest|e'] eqn:El; cbn [bind] in H; [discriminate|].
    destruct (IH H) as (l' & p & Hl & Hp & E). exists l', p. split; auto. now right.
  - injection H as ->. apply mapM_err in Em. destruct Em as (pre & p & post & -> & _ & E).
    exists l, p. split; [now left|]. split; auto. apply in_or_app. right. now left.
Qed.

(** Without positions, those of the first load case are used for all of them. *)
Lemma util_loop_first qs (a : as4100 T) b l ls locs :
  beam_list_positions b PosNone (Some (assessment_points a)) (Some l) = Ok locs ->
  util_loop qs a b None (l :: ls) = util_loop qs a b (Some (map (fun x => fst (fst x)) locs)) (l :: ls).
Proof. intros H. cbn [util_loop]. rewrite H. reflexivity. Qed.
End Loop.

(** ** Tension at a position *)
Lemma block_single (tab : list (lrow R)) x o : In o (block tab [N] x) -> exists n, snd o = [Some n].
Proof.
  unfold block. destruct (py_in x (map lpos tab)).
  - intros H. apply in_map_iff in H. destruct H as (r & <- & _). cbn. eauto.
  - intros [<-|[]]. cbn. eauto.
Qed.

Lemma axial_rows qs (b : beam_t R (section R)) ls l p : any_argsort qs -> has_lengths b ls -> b <> [] -> loaded b l ->
  0 <= p <= span ls -> exists rows, rows <> [] /\
  beam_get_loads qs b l (PosNum p) None (CStr "N") = Ok (Some rows) /\
  forall o : orow R, In o rows -> exists n, snd o = [Some n].
Proof.
  intros Hq Hl Nb Ld Hp.
  assert (D : designates (CStr "N") [N]) by apply (d_name N).
  destruct (C24_explicit qs b ls l (PosNum p) [p] (CStr "N") [N] Hq Hl Ld D) as (out & E);
    [discriminate|constructor|constructor; auto|].
  assert (El : exists locs, beam_list_positions b (PosNum p) None (Some l) = Ok locs).
  { unfold beam_get_loads in E. destruct (beam_list_positions b (PosNum p) None (Some l)); [eauto|discriminate]. }
  destruct El as (locs & El).
  assert (Nl : locs <> []).
  { destruct (list_positions_triples b ls _ _ _ locs Hl El) as (_ & _ & _ & H4).
    assert (I : In p (positions_of locs)) by (apply (H4 Nb [p] (r_num p)); now left). intros ->. destruct I. }
  destruct (C23_real_all qs b ls l (PosNum p) None (CStr "N") [N] locs Hq Hl Ld D) as (rows & Er & Ip); auto; [discriminate|].
  destruct (C21_total qs b ls l (PosNum p) None (CStr "N") [N] locs Hq Hl Ld D) as (blocks & F & Eb); auto; [discriminate|].
  assert (Ec : rows = List.concat blocks) by (destruct locs; [congruence|]; rewrite Er in Eb; congruence).
  exists rows. split; [|split; auto].
  - intros ->. destruct locs as [|t locs]; [congruence|]. destruct (proj2 (Ip (fst (fst t)))). now left.
  - intros o Ho. rewrite Ec in Ho. apply in_concat in Ho. destruct Ho as (blk & Hb & Ho).
    destruct (Forall2_In_r _ _ _ _ F Hb) as ([[q z] x] & _ & el & rs & He & _ & Eg & ->).
    destruct (Ld el (nth_error_In _ _ He)) as (tab & Ed & Ha & Hn).
    rewrite (el_get_loads_block qs el l x (CStr "N") [N] tab) in Eg by (auto; discriminate).
    assert (rs = block tab [N] x) by congruence. subst rs. unfold at_position in Ho.
    apply in_map_iff in Ho. destruct Ho as (o' & <- & Ho'). cbn [snd]. eapply block_single; eauto.
Qed.

Lemma tension_rows qs phi au kt b s a l p rows : make_as4100 phi au kt (Some b) s = Ok a ->
  beam_get_loads qs b l (PosNum p) None (CStr "N") = Ok (Some rows) ->
  (forall o : orow R, In o rows -> exists n, snd o = [Some n]) ->
  exists out, get_tension qs a l (PosNum p) None = Ok out /\
    forall t, (exists x, In (x, [Some t]) out) <-> exists n, axial qs b l p n /\ t = Rmax n 0.
Proof.
  intros Hm E W.
  assert (X : exists out, Forall2 (fun r o : orow R => fst o = fst r /\ exists n, snd r = [Some n] /\ snd o = [Some (Rmax n 0)]) rows out).
  { clear E. induction rows as [|o rows IH]; [exists []; constructor|].
    destruct IH as (out & F); [intros; apply W; now right|]. destruct (W o) as (n & Hn); [now left|].
    exists ((fst o, [Some (Rmax n 0)]) :: out). constructor; auto. cbn. eauto. }
  destruct X as (out & F). exists out. split; [apply (C26_real qs phi au kt b s a l (PosNum p) None out Hm); eauto|].
  intros t. split.
  - intros (x & Hx). destruct (Forall2_In_r _ _ _ _ F Hx) as ([y c] & Hr & Ef & n & E1 & E2). cbn in *. subst c y.
    injection E2 as ->. exists n. split; auto. exists rows, x. auto.
  - intros (n & (rows' & x & E' & Hin) & ->). assert (rows' = rows) by congruence. subst rows'.
    destruct (Forall2_In_l _ _ _ _ F Hin) as ([y c] & Ho & Ef & n' & E1 & E2). cbn in *. injection E1 as <-. subst.
    exists x. auto.
Qed.

(** Every row of get_tension has one cell. *)
Lemma tension_cells qs phi au kt b s a l p out : make_as4100 phi au kt (Some b) s = Ok a ->
  get_tension qs a l (PosNum p) None = Ok out -> forall o : orow R, In o out -> exists t, snd o = [Some t].
Proof.
  intros Hm E o Ho. apply (C26_real qs phi au kt b s a l (PosNum p) None out Hm) in E. destruct E as (rows & _ & F).
  destruct (Forall2_In_r _ _ _ _ F Ho) as (r & _ & _ & n & _ & E2). eauto.
Qed.

Section Check.
Variables (qs : argsort_oracle R) (phi au kt : R) (b : beam_t R (section R)) (s : option (section R)) (a : as4100 R).
Variables (ls : list R) (cap : R -> R).
Hypothesis Hq : any_argsort qs.
Hypothesis Hm : make_as4100 phi au kt (Some b) s = Ok a.
Hypothesis Hl : has_lengths b ls.
Hypothesis Nb : b <> [].

Definition sound_position (p : R) : Prop :=
  0 <= p <= span ls /\ phiNt a (PosNum p) = Ok (cap p) /\ 0 < cap p.

Lemma smallest_pos : 0 < smallest_ratio.
Proof. unfold smallest_ratio. apply Rdiv_lt_0_compat; lra. Qed.

Lemma utils_at_cases l p : loaded b l -> sound_position p ->
  (exists us, utils_at qs a l p = Ok us /\ us <> [] /\
     (forall x, In x us <-> exists n, axial qs b l p n /\ x = Rmax n 0 / cap p) /\
     (forall n, axial qs b l p n -> 0 < n -> smallest_ratio < n / cap p)) \/
  (utils_at qs a l p = Err ValueError /\
     exists n, axial qs b l p n /\ 0 < n / cap p <= smallest_ratio).
Proof.
  intros Ld (Hp & Ec & Pc).
  destruct (axial_rows qs b ls l p Hq Hl Nb Ld Hp) as (rows & Nr & Er & W).
  destruct (tension_rows qs phi au kt b s a l p rows Hm Er W) as (out & Eo & It).
  pose proof (tension_cells qs phi au kt b s a l p out Hm Eo) as Wo.
  assert (No : out <> []).
  { destruct rows as [|r rows]; [congruence|]. destruct (W r) as (n & Hn); [now left|]. destruct r as [x c]. cbn in Hn. subst c.
    destruct (proj2 (It (Rmax n 0))) as (y & Hy). { exists n. split; auto. exists ((x, [Some n]) :: rows), x. split; auto. now left. }
    intros ->. destruct Hy. }
  unfold utils_at, tension_capacity. rewrite Ec, Eo. cbn [bind].
  set (u := fun r : orow R => match snd r with [Some t] => util_one t (cap p) | _ => Err IndexError end).
  change (mapM _ out) with (mapM u out).
  assert (U : forall o t, snd o = [Some t] -> u o = util_one t (cap p)) by (intros o t Ho; unfold u; now rewrite Ho).
  destruct (mapM u out) as [us|e] eqn:Em.
  - left. apply mapM_inv in Em. exists us. split; auto.
    assert (K : forall n, axial qs b l p n -> 0 < n -> smallest_ratio < n / cap p).
    { intros n An Pn. destruct (proj2 (It n)) as (x & Hx). { exists n. split; auto. now rewrite Rmax_left by lra. }
      destruct (Forall2_In_l _ _ _ _ Em Hx) as (v & _ & E). cbn beta in E. rewrite (U (x, [Some n]) n eq_refl), util_one_R in E by auto.
      destruct (Rle_dec n 0); [lra|]. destruct (Rle_dec (n / cap p) smallest_ratio); [discriminate|lra]. }
    assert (V : forall o t v, In o out -> snd o = [Some t] -> u o = Ok v -> v = t / cap p).
    { intros o t v Ho Et Ev. rewrite (U _ t Et), util_one_R in Ev by auto.
      assert (T0 : 0 <= t). { destruct (proj1 (It t)) as (n & _ & ->). { exists (fst o). destruct o. cbn in *. now subst. } apply Rmax_r. }
      destruct (Rle_dec t 0) as [Le|]; [|destruct (Rle_dec _ _); congruence].
      assert (t = 0) by lra. subst t. injection Ev as <-. unfold Rdiv. ring. }
    split; [intros ->; inversion Em; congruence|]. split; auto.
    intros x. split.
    + intros Hx. destruct (Forall2_In_r _ _ _ _ Em Hx) as (o & Ho & E). destruct (Wo o Ho) as (t & Et).
      rewrite (V o t x Ho Et E). destruct (proj1 (It t)) as (n & An & ->). { exists (fst o). destruct o. cbn in *. now subst. }
      eauto.
    + intros (n & An & ->). destruct (proj2 (It (Rmax n 0))) as (y & Hy); [eauto|].
      destruct (Forall2_In_l _ _ _ _ Em Hy) as (v & Hv & E). now rewrite <- (V (y, [Some (Rmax n 0)]) (Rmax n 0) v).
  - right. apply mapM_err in Em. destruct Em as (pre & o & post & Eq & _ & E).
    assert (Ho : In o out) by (rewrite Eq; apply in_or_app; right; now left).
    destruct (Wo o Ho) as (t & Et). rewrite (U _ t Et), util_one_R in E by auto.
    destruct (Rle_dec t 0) as [|Nt0]; [discriminate|].
    destruct (Rle_dec (t / cap p) smallest_ratio) as [Le|]; [|discriminate]. injection E as <-. split; auto.
    destruct (proj1 (It t)) as (n & An & Tn). { exists (fst o). destruct o. cbn in *. now subst. }
    exists n. split; auto. assert (t = n). { subst t. apply Rmax_left. unfold Rmax in Nt0. destruct (Rle_dec n 0); lra. }
    subst n. split; auto. apply Rdiv_lt_0_compat; lra.
Qed.

Lemma util_eq lc cs position ps : wanted b lc cs -> looked_at b (assessment_points a) position cs ps ->
  tension_utilisation qs a lc position = let! us := util_loop qs a b (Some ps) cs in list_max us.
Proof.
  intros Hw Ha. unfold tension_utilisation. rewrite (make_beam _ _ _ _ _ _ Hm).
  assert (E : match lc with LCInt z => Ok [z] | LCList l => Ok l | LCNone => beam_load_cases b end = Ok cs).
  { destruct Hw; auto. }
  assert (E' : (let! ls0 := match lc with LCInt z => Ok [z] | LCList l => Ok l | LCNone => beam_load_cases b end in
     let! pos := match position with
              | PosNone => Ok None
              | PosNum x => if nisfloat x then Ok (Some [x])
                            else match ls0 with [] => Ok (Some []) | _ => Err TypeError end
              | PosList l => Ok (Some l)
              end in
     let! us := util_loop qs a b pos ls0 in list_max us) = let! us := util_loop qs a b (Some ps) cs in list_max us).
  { rewrite E. cbn [bind]. destruct Ha as [position cs ps Rq|l cs locs Ep].
    - destruct Rq; reflexivity.
    - cbn [bind]. rewrite (util_loop_first qs a b l cs locs Ep). reflexivity. }
  destruct lc; exact E'.
Qed.

Lemma util_iff lc cs position ps : wanted b lc cs -> looked_at b (assessment_points a) position cs ps ->
  Forall (loaded b) cs -> Forall sound_position ps ->
  (forall u, tension_utilisation qs a lc position = Ok u <->
     greatest u (ratios qs b cap cs ps) /\ forall x, ratios qs b cap cs ps x -> 0 < x -> smallest_ratio < x) /\
  (tension_utilisation qs a lc position = Err ValueError <->
     cs = [] \/ ps = [] \/ exists x, ratios qs b cap cs ps x /\ 0 < x <= smallest_ratio) /\
  (forall e, tension_utilisation qs a lc position = Err e -> e = ValueError).
Proof.
  intros Hw Ha Ld Hp. rewrite (util_eq lc cs position ps Hw Ha). rewrite Forall_forall in Ld, Hp.
  assert (Rpos : forall l p n, In p ps -> axial qs b l p n -> 0 < Rmax n 0 / cap p -> 0 < n /\ Rmax n 0 = n).
  { intros l p n Ip _ H. destruct (Hp p Ip) as (_ & _ & Pc).
    assert (0 < Rmax n 0). { apply (Rmult_lt_reg_r (/ cap p)); [now apply Rinv_0_lt_compat|]. rewrite Rmult_0_l. exact H. }
    unfold Rmax in *. destruct (Rle_dec n 0); lra. }
  destruct (util_loop qs a b (Some ps) cs) as [us|e] eqn:E; cbn [bind].
  - destruct (util_loop_ok qs a b ps cs us E) as [Ok1 Ok2].
    assert (I : forall x, In x us <-> ratios qs b cap cs ps x).
    { intros x. rewrite Ok2. split.
      - intros (l & p & vs & Il & Ip & Ev & Ix). destruct (utils_at_cases l p (Ld l Il) (Hp p Ip)) as [(us' & Eu & _ & H & _)|[Eu _]]; [|congruence].
        assert (vs = us') by congruence. subst vs. apply H in Ix. destruct Ix as (n & An & ->). exists l, p, n. auto.
      - intros (l & p & n & Il & Ip & An & ->). destruct (utils_at_cases l p (Ld l Il) (Hp p Ip)) as [(us' & Eu & _ & H & _)|[Eu _]].
        + exists l, p, us'. repeat split; auto. apply H. eauto.
        + destruct (Ok1 l p Il Ip). congruence. }
    assert (J : forall x, ratios qs b cap cs ps x -> 0 < x -> smallest_ratio < x).
    { intros x (l & p & n & Il & Ip & An & ->) Px. destruct (Rpos l p n Ip An Px) as [Pn En]. rewrite En.
      destruct (utils_at_cases l p (Ld l Il) (Hp p Ip)) as [(us' & Eu & _ & _ & H)|[Eu _]]; [now apply H|].
      destruct (Ok1 l p Il Ip). congruence. }
    split; [|split].
    + intros u. rewrite list_max_R, (greatest_ext u _ _ I). tauto.
    + split.
      * intros H. destruct cs as [|l cs]; [now left|]. destruct ps as [|p ps]; [right; now left|]. exfalso.
        destruct (utils_at_cases l p) as [(us' & Eu & Nu & _ & _)|[Eu _]]; [apply Ld; now left|apply Hp; now left| |].
        -- destruct us' as [|x us']; [congruence|]. assert (Ix : In x us). { apply Ok2. exists l, p, (x :: us'). repeat split; auto; now left. }
           destruct us; [destruct Ix|discriminate H].
        -- destruct (Ok1 l p); [now left|now left|congruence].
      * intros H. destruct us as [|x us]; [reflexivity|exfalso]. destruct H as [->|[->|(y & Hy & Py)]].
        -- destruct (proj1 (Ok2 x) (or_introl eq_refl)) as (l & p & vs & [] & _).
        -- destruct (proj1 (Ok2 x) (or_introl eq_refl)) as (l & p & vs & _ & [] & _).
        -- specialize (J y Hy). lra.
    + intros e H. destruct us; [|discriminate]. cbn in H. congruence.
  - destruct (util_loop_err qs a b ps cs e E) as (l & p & Il & Ip & Ee).
    destruct (utils_at_cases l p (Ld l Il) (Hp p Ip)) as [(us' & Eu & _)|[Eu (n & An & Pn)]]; [congruence|].
    assert (e = ValueError) by congruence. subst e.
    destruct (Hp p Ip) as (_ & _ & Pc).
    assert (Pn' : 0 < n). { apply (Rmult_lt_reg_r (/ cap p)); [now apply Rinv_0_lt_compat|]. rewrite Rmult_0_l. apply Pn. }
    assert (Rn : ratios qs b cap cs ps (n / cap p)).
    { exists l, p, n. repeat split; auto. now rewrite Rmax_left by lra. }
    split; [|split].
    + intros u. split; [discriminate|]. intros [_ H]. specialize (H _ Rn). lra.
    + split; auto. intros _. right. right. eauto.
    + congruence.
Qed.
End Check.
