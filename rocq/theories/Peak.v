(** Proofs: list_positions(min_positions=n) includes every place where a load can have its
    extreme value, so neither the loads nor the utilisation of a beam are anywhere worse
    than reported. *)

From Coq Require Import ZArith Reals List Bool String Lra Lia Sorted.
From Verif Require Import Base Num RNum OrdFacts Numpy LoadCase LoadSpec LoadFacts LoadProofs Beam BeamSpec BeamFacts
  BeamPositions BeamLoads BeamProofs BeamMisc BeamFloat Material AS4100 AS4100Spec AS4100Facts AS4100Util AS4100Scale PeakSpec.
Import ListNotations.
Open Scope R_scope.

Lemma classic_in_positions p (locs : list (location R)) : In p (positions_of locs) \/ ~ In p (positions_of locs).
Proof. destruct (in_dec Req_EM_T p (positions_of locs)); auto. Qed.

Section Triples.
Context {Sec : Type}.
Implicit Types b : beam_t R Sec.

(** What is reported at a position does not depend on the other positions. *)
Lemma list_positions_local b ls position mp lc locs : has_lengths b ls ->
  beam_list_positions b position mp lc = Ok locs ->
  exists at_ps tss, Forall2 (fun p ts => locs_at b ls lc p = Ok ts) at_ps tss /\ locs = List.concat tss.
Proof.
  intros H E.
  assert (X : exists at_ps, locations b lc at_ps = Ok locs).
  { unfold beam_list_positions in E. destruct position as [|x|l], mp as [n|]; try discriminate.
    - destruct (beam_length b); [|discriminate]. cbn [bind] in E.
      destruct (linspace _ _ _) as [lin|]; [|discriminate]. cbn [bind] in E.
      destruct (element_ends b) as [en|]; [|discriminate]. cbn [bind] in E.
      destruct (real_positions _ _ _ _) as [re|]; [|discriminate]. cbn [bind] in E. eauto.
    - cbn [nisfloat RNum] in E. destruct (check_on_beam b [x]); [|discriminate]. eauto.
    - destruct (check_on_beam b l); [|discriminate]. eauto. }
  destruct X as (at_ps & El). rewrite (locations_R b ls lc at_ps H) in El.
  destruct (mapM _ _) as [tss|] eqn:M; [|discriminate]. injection El as <-.
  exists at_ps, tss. split; auto. now apply mapM_inv.
Qed.

Lemma triple_position b ls lc p ts : has_lengths b ls -> locs_at b ls lc p = Ok ts ->
  forall t, In t ts -> fst (fst t) = p.
Proof. intros H E t Ht. apply (triples_at_pos ls p ts (locs_at_ok b ls lc p ts H E) t Ht). Qed.

Lemma same_triples b ls position1 mp1 position2 mp2 lc locs1 locs2 : has_lengths b ls ->
  beam_list_positions b position1 mp1 lc = Ok locs1 -> beam_list_positions b position2 mp2 lc = Ok locs2 ->
  forall p e l, In (p, e, l) locs1 -> In p (positions_of locs2) -> In (p, e, l) locs2.
Proof.
  intros H E1 E2 p e l I1 I2.
  destruct (list_positions_local b ls position1 mp1 lc locs1 H E1) as (ps1 & tss1 & F1 & ->).
  destruct (list_positions_local b ls position2 mp2 lc locs2 H E2) as (ps2 & tss2 & F2 & ->).
  apply in_concat in I1. destruct I1 as (ts1 & J1 & K1).
  destruct (Forall2_In_r _ _ _ _ F1 J1) as (p1 & _ & L1).
  pose proof (triple_position b ls lc p1 ts1 H L1 _ K1) as X1. cbn in X1. subst p1.
  unfold positions_of in I2. apply in_map_iff in I2. destruct I2 as (t2 & X2 & I2).
  apply in_concat in I2. destruct I2 as (ts2 & J2 & K2).
  destruct (Forall2_In_r _ _ _ _ F2 J2) as (p2 & _ & L2).
  pose proof (triple_position b ls lc p2 ts2 H L2 _ K2) as X3. rewrite X2 in X3. subst p2.
  assert (ts2 = ts1) by congruence. subst ts2. apply in_concat. eauto.
Qed.

(** ** What a query shows *)
Lemma shows_iff qs b ls c position mp comp cs i v : any_argsort qs -> has_lengths b ls -> loaded b c ->
  designates comp cs -> cs <> [] ->
  shows qs b c position mp comp i v <->
  exists locs p e l el tab o, beam_list_positions b position mp (Some c) = Ok locs /\ In (p, Z.of_nat e, l) locs /\
    nth_error b e = Some el /\ dict_get c (eloads el) = Ok (Some tab) /\
    In o (block tab cs l) /\ nth_error (snd o) i = Some (Some v).
Proof.
  intros Hq H Ld D C. split.
  - intros (rows & o & E & Io & Iv).
    destruct (C21_inv qs b ls c position mp comp (Some rows) H E) as (locs & blocks & El & F & Eo).
    assert (Er : rows = List.concat blocks) by (destruct locs; [discriminate|congruence]). subst rows.
    apply in_concat in Io. destruct Io as (blk & Ib & Io).
    destruct (Forall2_In_r _ _ _ _ F Ib) as ([[p z] l] & It & el & rs & Ee & Pz & Eg & ->).
    destruct (Ld el (nth_error_In _ _ Ee)) as (tab & Ed & Ha & Hn).
    rewrite (el_get_loads_block qs el c l comp cs tab) in Eg by auto.
    assert (rs = block tab cs l) by congruence. subst rs.
    unfold at_position in Io. apply in_map_iff in Io. destruct Io as (o' & <- & Io). cbn [snd] in Iv.
    exists locs, p, (Z.to_nat z), l, el, tab, o'. rewrite Z2Nat.id by lia. auto 10.
  - intros (locs & p & e & l & el & tab & o & El & It & Ee & Ed & Io & Iv).
    destruct (C21_total qs b ls c position mp comp cs locs Hq H Ld D C El) as (blocks & F & E).
    destruct (Forall2_In_l _ _ _ _ F It) as (blk & Ib & el' & rs & Ee' & _ & Eg & ->).
    rewrite Nat2Z.id in Ee'. assert (el' = el) by congruence. subst el'.
    destruct (Ld el (nth_error_In _ _ Ee)) as (tab' & Ed' & Ha & Hn). assert (tab' = tab) by congruence. subst tab'.
    rewrite (el_get_loads_block qs el c l comp cs tab) in Eg by auto.
    assert (rs = block tab cs l) by congruence. subst rs.
    exists (List.concat blocks), (p, snd o). split; [|split; [|exact Iv]].
    + rewrite E. destruct locs; [destruct It|reflexivity].
    + apply in_concat. eexists. split; [exact Ib|]. unfold at_position. apply in_map_iff. eauto.
Qed.

(** Every stored row of an element with a length is reported at its place. *)
Lemma block_stored (tab : list (lrow R)) cs r i c : In r tab -> nth_error cs i = Some c ->
  exists o, In o (block tab cs (lpos r)) /\ nth_error (snd o) i = Some (Some (load_of c r)).
Proof.
  intros Hr Hc. unfold block.
  assert (P : py_in (lpos r) (map lpos tab) = true) by (apply (py_in_self (ok := Rok)); [exact I|apply in_map; exact Hr]).
  rewrite P. exists (pick cs r). split.
  - apply in_map, filter_In. split; auto. cbn. now apply Reqb_true.
  - cbn. exact (map_nth_error (fun c => Some (load_of c r)) i cs Hc).
Qed.

Lemma stored_triple b ls position mp c locs e tab r : has_lengths b ls -> 
  beam_list_positions b position mp (Some c) = Ok locs ->
  (e < List.length b)%nat -> accepted (Some tab) -> In r tab -> 0 < nth e ls 0 ->
  In (start_of ls e + lpos r * nth e ls 0) (positions_of locs) ->
  In (start_of ls e + lpos r * nth e ls 0, Z.of_nat e, lpos r) locs.
Proof.
  intros H El He Ha Hr P Iq. set (q := start_of ls e + lpos r * nth e ls 0) in *.
  apply accepted_rows in Ha. destruct Ha as [_ W]. rewrite Forall_forall in W. specialize (W r Hr).
  assert (Hl : (e < List.length ls)%nat) by (rewrite <- (lengths_len b ls H); exact He).
  assert (Cq : covers ls e q).
  { split; auto. rewrite (end_length ls e Hl). unfold q. nra. }
  destruct (list_positions_triples b ls position mp (Some c) locs H El) as (T1 & _ & T3 & _).
  destruct (T3 q e Iq Cq) as (x & Hx). destruct (T1 _ _ _ Hx) as (e' & Ee & _ & L).
  apply Nat2Z.inj in Ee. subst e'. specialize (L P).
  assert (x = lpos r). { apply (Rmult_eq_reg_r (nth e ls 0)); [|lra]. rewrite L. unfold q. ring. }
  now subst x.
Qed.

(** A value shown at [p] comes either from an element end, or from an element with a length
    that contains [p] inside; then it is enclosed by values at stored positions. *)
Lemma peak qs b ls c n comp cs locs p i v : any_argsort qs -> has_lengths b ls -> b <> [] -> loaded b c ->
  designates comp cs -> cs <> [] -> (0 <= n)%Z ->
  beam_list_positions b PosNone (Some n) (Some c) = Ok locs ->
  shows qs b c (PosNum p) None comp i v ->
  (In p (positions_of locs) /\ shows qs b c PosNone (Some n) comp i v) \/
  exists e tab k, stored_table b c e tab /\ nth_error cs i = Some k /\ start_of ls e < p < end_of ls e /\ enclosed tab k v /\
    forall r, In r tab -> let q := start_of ls e + lpos r * nth e ls 0 in
      covers ls e q /\ In (q, Z.of_nat e, lpos r) locs /\
      shows qs b c PosNone (Some n) comp i (load_of k r) /\ shows qs b c (PosNum q) None comp i (load_of k r).
Proof.
  intros Hq H Nb Ld D C Pn El Hs. pose proof (lengths_nonneg b ls H) as Nn.
  apply (shows_iff qs b ls c _ _ comp cs i v Hq H Ld D C) in Hs.
  destruct Hs as (locs1 & p1 & e & l & el & tab & o & El1 & It & Ee & Ed & Io & Iv).
  destruct (list_positions_triples b ls _ _ _ locs1 H El1) as (T1 & _ & _ & T4).
  assert (p1 = p).
  { assert (I : In p1 (positions_of locs1)) by (unfold positions_of; apply in_map_iff; eexists; split; [|exact It]; reflexivity).
    apply (T4 Nb [p] (r_num p)) in I. destruct I as [<-|[]]. reflexivity. }
  subst p1. destruct (T1 _ _ _ It) as (e' & Ee' & Cv & L). apply Nat2Z.inj in Ee'. subst e'.
  destruct (C18_loads b ls c n H Nb Ld Pn) as (locs' & El' & Ps & _).
  assert (locs' = locs) by congruence. subst locs'.
  assert (Hl : (e < List.length ls)%nat) by apply Cv.
  assert (He : (e < List.length b)%nat) by (rewrite (lengths_len b ls H); exact Hl).
  destruct (classic_in_positions p locs) as [Ip|Np].
  - left. split; auto. apply (shows_iff qs b ls c _ _ comp cs i v Hq H Ld D C).
    exists locs, p, e, l, el, tab, o. repeat (split; [assumption|]). split; [|auto].
    eapply same_triples; [exact H|exact El1|exact El|exact It|exact Ip].
  - right.
    assert (N1 : p <> start_of ls e) by (intros ->; apply Np, Ps; left; exists e; auto).
    assert (N2 : p <> end_of ls e) by (intros ->; apply Np, Ps; left; exists e; auto).
    destruct (Ld el (nth_error_In _ _ Ee)) as (tab' & Ed' & Ha & Hn). assert (tab' = tab) by congruence. subst tab'.
    destruct Cv as [_ Cv]. assert (P : 0 < nth e ls 0) by (rewrite (end_length ls e Hl) in *; lra).
    assert (K : exists k, nth_error cs i = Some k).
    { destruct (nth_error cs i) eqn:En; eauto. exfalso. apply nth_error_None in En.
      pose proof (block_width tab cs l) as W. unfold width in W. rewrite Forall_forall in W. specialize (W o Io).
      assert (X : nth_error (snd o) i <> None) by congruence. apply nth_error_Some in X. lia. }
    destruct K as (k & Hk). exists e, tab, k. split; [exists el; auto|]. split; auto. split; [lra|].
    split.
    { destruct (block_enclosed tab cs l o i k (Some v) Hn Io Hk Iv) as (v' & Ev & En). congruence. }
    intros r Hr q.
    assert (Iq : In q (positions_of locs)).
    { apply Ps. right. left. exists e, tab, r. split; [exists el; auto|]. split; auto. }
    assert (It' : In (q, Z.of_nat e, lpos r) locs) by (apply (stored_triple b ls PosNone (Some n) c locs e tab r); auto).
    destruct (list_positions_triples b ls _ _ _ locs H El) as (S1 & _).
    destruct (S1 _ _ _ It') as (e' & Ee' & Cq & _). apply Nat2Z.inj in Ee'. subst e'.
    destruct (block_stored tab cs r i k Hr Hk) as (o' & Io' & Iv').
    split; [exact Cq|]. split; [exact It'|]. split.
    + apply (shows_iff qs b ls c _ _ comp cs i _ Hq H Ld D C). exists locs, q, e, (lpos r), el, tab, o'. auto 10.
    + destruct (C24_explicit qs b ls c (PosNum q) [q] comp cs Hq H Ld D C (r_num q)) as (out & E).
      { constructor; [|constructor]. eapply covers_on_beam; eauto. }
      assert (El2 : exists locs2, beam_list_positions b (PosNum q) None (Some c) = Ok locs2).
      { unfold beam_get_loads in E. destruct (beam_list_positions b (PosNum q) None (Some c)); [eauto|discriminate]. }
      destruct El2 as (locs2 & El2).
      destruct (list_positions_triples b ls _ _ _ locs2 H El2) as (_ & _ & _ & U4).
      apply (shows_iff qs b ls c _ _ comp cs i _ Hq H Ld D C). exists locs2, q, e, (lpos r), el, tab, o'.
      split; [exact El2|]. split; [|auto 10].
      eapply same_triples; [exact H|exact El|exact El2|exact It'|]. apply (U4 Nb [q] (r_num q)). now left.
Qed.
End Triples.

(** C102. *)
Lemma C102_loads {Sec} qs (b : beam_t R Sec) ls c n comp cs p i v : any_argsort qs -> has_lengths b ls -> b <> [] ->
  loaded b c -> designates comp cs -> cs <> [] -> (0 <= n)%Z ->
  shows qs b c (PosNum p) None comp i v ->
  exists lo hi, shows qs b c PosNone (Some n) comp i lo /\ shows qs b c PosNone (Some n) comp i hi /\ lo <= v <= hi.
Proof.
  intros Hq H Nb Ld D C Pn Hs.
  destruct (C18_loads b ls c n H Nb Ld Pn) as (locs & El & _).
  destruct (peak qs b ls c n comp cs locs p i v Hq H Nb Ld D C Pn El Hs) as [[_ S]|(e & tab & k & _ & _ & _ & [(r1 & I1 & L1) (r2 & I2 & L2)] & S)].
  - exists v, v. split; auto. split; auto. lra.
  - exists (load_of k r1), (load_of k r2). split; [apply S; auto|]. split; [apply S; auto|lra].
Qed.

Lemma C102_somewhere {Sec} qs (b : beam_t R Sec) ls c n comp cs i v : any_argsort qs -> has_lengths b ls -> b <> [] ->
  loaded b c -> designates comp cs -> cs <> [] -> (0 <= n)%Z ->
  shows qs b c PosNone (Some n) comp i v ->
  exists p, 0 <= p <= span ls /\ shows qs b c (PosNum p) None comp i v.
Proof.
  intros Hq H Nb Ld D C Pn Hs.
  apply (shows_iff qs b ls c _ _ comp cs i v Hq H Ld D C) in Hs.
  destruct Hs as (locs & p & e & l & el & tab & o & El & It & R).
  destruct (list_positions_triples b ls _ _ _ locs H El) as (T1 & _).
  destruct (T1 _ _ _ It) as (e' & _ & Cv & _).
  assert (P : 0 <= p <= span ls) by (eapply covers_on_beam; eauto; eapply lengths_nonneg; eauto).
  exists p. split; auto.
  destruct (C24_explicit qs b ls c (PosNum p) [p] comp cs Hq H Ld D C (r_num p)) as (out & E).
  { constructor; [exact P|constructor]. }
  assert (El2 : exists locs2, beam_list_positions b (PosNum p) None (Some c) = Ok locs2).
  { unfold beam_get_loads in E. destruct (beam_list_positions b (PosNum p) None (Some c)); [eauto|discriminate]. }
  destruct El2 as (locs2 & El2).
  destruct (list_positions_triples b ls _ _ _ locs2 H El2) as (_ & _ & _ & U4).
  apply (shows_iff qs b ls c _ _ comp cs i _ Hq H Ld D C). exists locs2, p, e, l, el, tab, o.
  split; [exact El2|]. split; [|exact R].
  eapply same_triples; [exact H|exact El|exact El2|exact It|]. apply (U4 Nb [p] (r_num p)). now left.
Qed.

(** ** Utilisation *)
Lemma axial_shows qs b l p n : axial qs b l p n <-> exists rows o, 
  beam_get_loads qs b l (PosNum p) None (CStr "N") = Ok (Some rows) /\ In o rows /\ snd o = [Some n].
Proof.
  split.
  - intros (rows & x & E & I). exists rows, (x, [Some n]). auto.
  - intros (rows & [x y] & E & I & S). cbn in S. subst y. exists rows, x. auto.
Qed.

Lemma axial_shows0 qs b ls l p n : any_argsort qs -> has_lengths b ls -> b <> [] -> loaded b l -> 0 <= p <= span ls ->
  axial qs b l p n <-> shows qs b l (PosNum p) None (CStr "N") 0 n.
Proof.
  intros Hq H Nb Ld P. rewrite axial_shows.
  destruct (axial_rows qs b ls l p Hq H Nb Ld P) as (rows & _ & Er & W). split.
  - intros (rows' & o & E & I & S). exists rows', o. rewrite S. auto.
  - intros (rows' & o & E & I & S). assert (rows' = rows) by congruence. subst rows'.
    destruct (W o I) as (m & Em). rewrite Em in S. cbn in S. injection S as ->. exists rows, o. auto.
Qed.

(** Inside an element the capacity is that of the element; elsewhere on the element it is
    not larger. *)
Lemma capacity_inside phi au kt b s a ls e p q cp cq : make_as4100 phi au kt (Some b) s = Ok a -> has_lengths b ls ->
  b <> [] -> 0 <= phi -> (e < List.length b)%nat -> start_of ls e < p < end_of ls e -> covers ls e q ->
  phiNt a (PosNum p) = Ok cp -> phiNt a (PosNum q) = Ok cq -> cq <= cp.
Proof.
  intros Hm H Nb Hphi He Hp Cq Ep Eq. pose proof (lengths_nonneg b ls H) as Nn.
  apply (proj1 (C28_phi phi au kt (Some b) s a (PosNum p) cp Hm)) in Ep. destruct Ep as (np & Ep & ->).
  apply (proj1 (C28_phi phi au kt (Some b) s a (PosNum q) cq Hm)) in Eq. destruct Eq as (nq & Eq & ->).
  apply Rmult_le_compat_l; auto.
  apply (C28_explicit phi au kt b s a ls (PosNum p) [p] np Hm H Nb (r_num p)) in Ep. destruct Ep as (_ & _ & [(p' & i & Ip & Cp & Ec) _]).
  destruct Ip as [<-|[]].
  apply (C28_explicit phi au kt b s a ls (PosNum q) [q] nq Hm H Nb (r_num q)) in Eq. destruct Eq as (_ & _ & [_ Lq]).
  apply Lq. exists q, e. split; [now left|]. split; auto.
  assert (i = e). 
  { destruct Cp as [Hi Cp]. destruct (lt_eq_lt_dec i e) as [[L|E]|L]; auto; exfalso.
    - rewrite (end_start ls i) in Cp. pose proof (start_mono ls (S i) e Nn L). lra.
    - rewrite (end_start ls e) in Hp. pose proof (start_mono ls (S e) i Nn L). lra. }
  now subst i.
Qed.

(** With explicit positions the number of assessment points plays no role. *)
Lemma util_points qs (a : as4100 R) n lc ps :
  tension_utilisation qs (set_assessment_points a n) lc (PosList ps) = tension_utilisation qs a lc (PosList ps).
Proof.
  assert (L : forall b cs, util_loop qs (set_assessment_points a n) b (Some ps) cs = util_loop qs a b (Some ps) cs).
  { intros b cs. induction cs as [|l cs IH]; [reflexivity|]. cbn [util_loop bind].
    change (utils_at qs (set_assessment_points a n) l) with (utils_at qs a l).
    destruct (mapM (utils_at qs a l) ps); [|reflexivity]. cbn [bind]. now rewrite IH. }
  unfold tension_utilisation. cbn [cc_beam set_assessment_points].
  destruct (match lc with LCNone => _ | LCInt z => _ | LCList l => _ end) as [cs|]; [|reflexivity].
  cbn [bind]. destruct (cc_beam a); [|reflexivity]. now rewrite L.
Qed.

Section Check.
Variables (qs : argsort_oracle R) (phi au kt : R) (b : beam_t R (section R)) (s : option (section R)) (a : as4100 R).
Variables (ls : list R) (cap : R -> R) (c : Z).
Hypothesis Hq : any_argsort qs.
Hypothesis Hm : make_as4100 phi au kt (Some b) s = Ok a.
Hypothesis Hphi : 0 <= phi.
Hypothesis Hl : has_lengths b ls.
Hypothesis Nb : b <> [].
Hypothesis Ld : loaded b c.
Hypothesis Hc : forall p, 0 <= p <= span ls -> phiNt a (PosNum p) = Ok (cap p) /\ 0 < cap p.

(** Every ratio anywhere is matched by one at a reported position. *)
Lemma peak_ratio n locs p t : (0 <= n)%Z -> beam_list_positions b PosNone (Some n) (Some c) = Ok locs ->
  0 <= p <= span ls -> axial qs b c p t ->
  exists q t', In q (positions_of locs) /\ 0 <= q <= span ls /\ axial qs b c q t' /\ Rmax t 0 / cap p <= Rmax t' 0 / cap q.
Proof.
  intros Pn El P Ax. assert (D : designates (CStr "N") [N]) by apply (d_name N).
  pose proof (proj1 (axial_shows0 qs b ls c p t Hq Hl Nb Ld P) Ax) as Hs.
  destruct (peak qs b ls c n (CStr "N") [N] locs p 0 t Hq Hl Nb Ld D ltac:(discriminate) Pn El Hs)
    as [[Ip _]|(e & tab & k & (el & Ee & Ed) & Ek & Hp & [_ (r & Ir & Lr)] & S)].
  - exists p, t. auto using Rle_refl.
  - cbn in Ek. injection Ek as <-. destruct (S r Ir) as (Cq & It & _ & Sq). cbv zeta in *.
    set (q := start_of ls e + lpos r * nth e ls 0) in *.
    assert (Q : 0 <= q <= span ls) by (eapply covers_on_beam; eauto; eapply lengths_nonneg; eauto).
    exists q, (load_of N r). split; [|split; [exact Q|split]].
    + unfold positions_of. apply in_map_iff. eexists. split; [|exact It]. reflexivity.
    + apply (axial_shows0 qs b ls c q _ Hq Hl Nb Ld Q). exact Sq.
    + destruct (Hc p P) as [Ep Pp]. destruct (Hc q Q) as [Eq Pq].
      assert (He : (e < List.length b)%nat) by (apply nth_error_Some; congruence).
      pose proof (capacity_inside phi au kt b s a ls e p q (cap p) (cap q) Hm Hl Nb Hphi He Hp Cq Ep Eq) as Le.
      assert (M : 0 <= Rmax t 0 <= Rmax (load_of N r) 0).
      { split; [apply Rmax_r|]. apply Rmax_lub; [eapply Rle_trans; [exact Lr|apply Rmax_l]|apply Rmax_r]. }
      unfold Rdiv. apply Rmult_le_compat; try lra.
      * left. now apply Rinv_0_lt_compat.
      * apply Rinv_le_contravar; auto.
Qed.

Lemma tension_axial p t : 0 <= p <= span ls -> tension_at qs a c p t <-> exists n, axial qs b c p n /\ t = Rmax n 0.
Proof.
  intros P. destruct (axial_rows qs b ls c p Hq Hl Nb Ld P) as (rows & _ & Er & W).
  destruct (tension_rows qs phi au kt b s a c p rows Hm Er W) as (out & Eo & It).
  rewrite <- It. split.
  - intros (out' & x & E & I). exists x. assert (out' = out) by congruence. now subst out'.
  - intros (x & I). exists out, x. auto.
Qed.

(** C103, for any number of assessment points. *)
Lemma C103_worst n u : (0 <= n)%Z -> tension_utilisation qs (set_assessment_points a n) (LCInt c) PosNone = Ok u ->
  (forall p t, 0 <= p <= span ls -> tension_at qs a c p t -> t / cap p <= u) /\
  (exists p t, 0 <= p <= span ls /\ tension_at qs a c p t /\ u = t / cap p).
Proof.
  intros P Hu.
  destruct (C18_loads b ls c n Hl Nb Ld P) as (locs & El & _).
  pose proof (positions_sound b a ls cap Hl (Some n) (Some c) locs El Hc) as F.
  rewrite (util_first qs (set_assessment_points a n) b (LCInt c) c [] locs) in Hu.
  2:{ cbn. now apply make_beam in Hm. }
  2:{ constructor. }
  2:{ exact El. }
  rewrite util_points in Hu.
  destruct (util_iff qs phi au kt b s a ls cap Hq Hm Hl Nb (LCInt c) [c] (PosList (positions_of locs)) (positions_of locs)) as (U & _).
  - constructor.
  - apply at_given. constructor.
  - constructor; auto.
  - exact F.
  - apply U in Hu. destruct Hu as [[G1 G2] _]. split.
    + intros p t Hp Ht. apply (tension_axial p t Hp) in Ht. destruct Ht as (m & Ax & ->).
      destruct (peak_ratio n locs p m P El Hp Ax) as (q & m' & Iq & _ & Ax' & Le).
      eapply Rle_trans; [exact Le|]. apply G2. exists c, q, m'. split; [now left|]. auto.
    + destruct G1 as (c' & p & m & Ic & Ip & Ax & ->). destruct Ic as [<-|[]].
      rewrite Forall_forall in F. destruct (F p Ip) as (Pp & _).
      exists p, (Rmax m 0). split; auto. split; auto. apply (tension_axial p _ Pp). eauto.
Qed.

Lemma C103_points n m u v : (0 <= n)%Z -> (0 <= m)%Z ->
  tension_utilisation qs (set_assessment_points a n) (LCInt c) PosNone = Ok u ->
  tension_utilisation qs (set_assessment_points a m) (LCInt c) PosNone = Ok v -> u = v.
Proof.
  intros Pn Pm Eu Ev. destruct (C103_worst n u Pn Eu) as (U1 & p & t & Hp & Ht & ->).
  destruct (C103_worst m v Pm Ev) as (V1 & q & t' & Hq' & Ht' & ->).
  apply Rle_antisym; auto.
Qed.

(** No single position has a larger utilisation. *)
Lemma C103_single n u p v : (0 <= n)%Z -> 0 <= p <= span ls ->
  tension_utilisation qs (set_assessment_points a n) (LCInt c) PosNone = Ok u ->
  tension_utilisation qs a (LCInt c) (PosNum p) = Ok v -> v <= u.
Proof.
  intros Pn Hp Eu Ev.
  destruct (util_iff qs phi au kt b s a ls cap Hq Hm Hl Nb (LCInt c) [c] (PosNum p) [p]) as (U & _).
  - constructor.
  - apply at_given. constructor.
  - constructor; auto.
  - constructor; [|constructor]. split; auto.
  - apply U in Ev. destruct Ev as [[(c' & p' & t & Ic & Ip & Ax & ->) _] _].
    destruct Ic as [<-|[]]. destruct Ip as [<-|[]].
    apply (proj1 (C103_worst n u Pn Eu) p (Rmax t 0) Hp). apply (tension_axial p _ Hp). eauto.
Qed.
End Check.
