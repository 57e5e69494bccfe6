(** Proofs: the utilisation of one beam described in different ways: an element cut in two,
    two parts joined, from the other end. *)

From Coq Require Import ZArith Reals List Bool String Lra Lia Sorted.
From Verif Require Import Base Num RNum OrdFacts Numpy LoadCase LoadSpec LoadFacts LoadProofs Beam BeamSpec BeamFacts
  BeamPositions BeamLoads BeamProofs BeamMisc BeamFloat TableCut BeamCut BeamMirror BeamJoin BeamCutAt TransformSpec
  Material AS4100 AS4100Spec AS4100Facts AS4100Util AS4100Scale PeakSpec Peak.
Import ListNotations.
Open Scope R_scope.

(** The capacity reported at a position. *)
Definition cap_of (a : as4100 R) (p : R) : R := match phiNt a (PosNum p) with Ok v => v | Err _ => 0 end.

(** A section of an element at [p]. *)
Definition here (b : beam_t R (section R)) (ls : list R) (p : R) (s : option (section R)) : Prop :=
  exists i e, covers ls i p /\ nth_error b i = Some e /\ esection e = s.

Lemma here_app b1 b2 l1 l2 p s : has_lengths b1 l1 -> has_lengths b2 l2 ->
  here (b1 ++ b2) (l1 ++ l2) p s <-> here b1 l1 p s \/ here b2 l2 (p - span l1) s.
Proof.
  intros H1 H2. pose proof (lengths_len b1 l1 H1) as Ln. split.
  - intros (i & e & Cv & Ee & Es). destruct (lt_dec i (List.length b1)) as [L|L].
    + left. exists i, e. rewrite nth_error_app1 in Ee by auto. split; auto.
      destruct Cv as [_ Cv]. split; [lia|]. unfold end_of, start_of in *. rewrite !firstn_app in Cv.
      replace (S i - List.length l1)%nat with 0%nat in Cv by lia. replace (i - List.length l1)%nat with 0%nat in Cv by lia.
      cbn [firstn] in Cv. rewrite !app_nil_r in Cv. exact Cv.
    + right. rewrite nth_error_app2 in Ee by lia. exists (i - List.length b1)%nat, e. split; auto.
      destruct Cv as [Hi Cv]. rewrite app_length in Hi. split; [lia|].
      unfold end_of, start_of in *. rewrite !firstn_app in Cv. rewrite !(firstn_all2 l1) in Cv by lia. rewrite !span_app in Cv.
      rewrite Ln. replace (S (i - List.length l1)) with (S i - List.length l1)%nat by lia. lra.
  - intros [(i & e & Cv & Ee & Es)|(i & e & Cv & Ee & Es)].
    + exists i, e. split; [now apply covers_app_l|]. split; auto. rewrite nth_error_app1; auto.
      apply nth_error_Some. congruence.
    + exists (List.length l1 + i)%nat, e. split; [now apply covers_app_r|]. split; auto.
      rewrite nth_error_app2 by lia. rewrite Ln. now replace (List.length l1 + i - List.length l1)%nat with i by lia.
Qed.

Lemma here_one e l p s : elength e = Some l -> here [e] [l] p s <-> 0 <= p <= l /\ s = esection e.
Proof.
  intros _. split.
  - intros (i & e' & [Hi Cv] & Ee & <-). cbn in Hi. assert (i = 0%nat) by lia. subst i. cbn in Ee. injection Ee as <-.
    unfold start_of, end_of, span in Cv. cbn in Cv. split; auto. lra.
  - intros [P ->]. exists 0%nat, e. split; [|auto]. split; [cbn; lia|]. unfold start_of, end_of, span. cbn. lra.
Qed.

Section One.
Variables (phi au kt : R) (b : beam_t R (section R)) (s : option (section R)) (a : as4100 R) (ls : list R).
Hypothesis Hm : make_as4100 phi au kt (Some b) s = Ok a.
Hypothesis Hl : has_lengths b ls.
Hypothesis Nb : b <> [].
Hypothesis Hphi : 0 < phi.
Hypothesis Hs : sound_bars kt au b.

Lemma sound_element i p : covers ls i p -> exists c, element_capacity kt au b i c /\ 0 < c.
Proof.
  intros [Hi _]. rewrite <- (lengths_len b ls Hl) in Hi. destruct (nth_error b i) as [e|] eqn:Ee; [|apply nth_error_None in Ee; lia].
  destruct (Hs e (nth_error_In _ _ Ee)) as (r & m & c & Es & Bc & Pc). exists c. split; auto. exists e, r, m. auto.
Qed.

Lemma here_capacity p x : (exists sec r m, here b ls p sec /\ sec = Some (SCircle r (Some m)) /\ bar_capacity kt au r m x) <->
  capacities_at kt au b ls [p] x.
Proof.
  split.
  - intros (sec & r & m & (i & e & Cv & Ee & <-) & Es & Bc). exists p, i. split; [now left|]. split; auto. exists e, r, m. auto.
  - intros (q & i & [<-|[]] & Cv & (e & r & m & Ee & Es & Bc)). exists (esection e), r, m. split; auto. exists i, e. auto.
Qed.

Lemma cap_sound p : 0 <= p <= span ls -> phiNt a (PosNum p) = Ok (cap_of a p) /\ 0 < cap_of a p /\
  least (cap_of a p / phi) (capacities_at kt au b ls [p]).
Proof.
  intros P. destruct (Nt_total phi au kt b s a ls (PosNum p) [p] Hm Hl Nb (r_num p)) as (n & En).
  - discriminate.
  - constructor; auto.
  - intros q i [<-|[]] Cv. destruct (sound_element i p Cv) as (c & E & _). eauto.
  - assert (E : phiNt a (PosNum p) = Ok (phi * n)) by (apply (proj1 (C28_phi phi au kt (Some b) s a (PosNum p) (phi * n) Hm)); eauto).
    apply (C28_explicit phi au kt b s a ls (PosNum p) [p] n Hm Hl Nb (r_num p)) in En. destruct En as (_ & _ & Ln).
    unfold cap_of. rewrite E. split; auto. split.
    + destruct Ln as [(q & i & [<-|[]] & Cv & Ec) _]. destruct (sound_element i p Cv) as (c & Ec' & Pc).
      assert (n = c).
      { destruct Ec as (e & r & m & Ee & Es & fy & fu & F1 & F2 & ->). destruct Ec' as (e' & r' & m' & Ee' & Es' & fy' & fu' & F1' & F2' & ->).
        assert (e' = e) by congruence. subst e'. assert (r' = r) by congruence. assert (m' = m) by congruence. subst r' m'.
        assert (fy' = fy) by congruence. assert (fu' = fu) by congruence. now subst. }
      subst c. nra.
    + replace (phi * n / phi) with n by (field; lra). exact Ln.
Qed.
End One.

(** ** Comparing two checks *)
Section Two.
Variables (qs : argsort_oracle R) (phi au kt : R) (c : Z).
Hypothesis Hq : any_argsort qs.
Hypothesis Hphi : 0 < phi.

Definition case_of (b : beam_t R (section R)) (s : option (section R)) (a : as4100 R) (ls : list R) : Prop :=
  make_as4100 phi au kt (Some b) s = Ok a /\ has_lengths b ls /\ b <> [] /\ loaded b c /\ sound_bars kt au b.

Definition answer a n u := (0 <= n)%Z /\ tension_utilisation qs (set_assessment_points a n) (LCInt c) PosNone = Ok u.

Lemma worst b s a ls n u : case_of b s a ls -> answer a n u ->
  (forall p t, 0 <= p <= span ls -> axial qs b c p t -> Rmax t 0 / cap_of a p <= u) /\
  (exists p t, 0 <= p <= span ls /\ axial qs b c p t /\ u = Rmax t 0 / cap_of a p).
Proof.
  intros (Hm & Hl & Nb & Ld & Hs) (Pn & Hu).
  assert (Hc : forall p, 0 <= p <= span ls -> phiNt a (PosNum p) = Ok (cap_of a p) /\ 0 < cap_of a p).
  { intros p P. destruct (cap_sound phi au kt b s a ls Hm Hl Nb Hphi Hs p P) as (E & Pc & _). auto. }
  destruct (C103_worst qs phi au kt b s a ls (cap_of a) c Hq Hm (Rlt_le _ _ Hphi) Hl Nb Ld Hc n u Pn Hu) as [W (p & t & P & Ht & ->)].
  pose proof (tension_axial qs phi au kt b s a ls c Hq Hm Hl Nb Ld) as TA.
  split.
  - intros q v Q Ax. apply W; auto. apply TA; eauto.
  - apply (TA p t P) in Ht. destruct Ht as (v & Ax & ->). exists p, v. auto.
Qed.

Lemma compare b s a ls n u b' s' a' ls' n' u' (f : R -> R) : case_of b s a ls -> case_of b' s' a' ls' ->
  answer a n u -> answer a' n' u' ->
  (forall p t, 0 <= p <= span ls -> axial qs b c p t -> 0 <= f p <= span ls' /\ axial qs b' c (f p) t) ->
  (forall p x, 0 <= p <= span ls -> capacities_at kt au b ls [p] x -> capacities_at kt au b' ls' [f p] x) -> u <= u'.
Proof.
  intros C1 C2 A1 A2 Hax Hcap. destruct (worst b s a ls n u C1 A1) as [_ (p & t & P & Ax & ->)].
  destruct (worst b' s' a' ls' n' u' C2 A2) as [W _]. destruct (Hax p t P Ax) as [P' Ax'].
  apply Rle_trans with (Rmax t 0 / cap_of a' (f p)); [|now apply W].
  destruct C1 as (Hm & Hl & Nb & Ld & Hs). destruct C2 as (Hm' & Hl' & Nb' & Ld' & Hs').
  destruct (cap_sound phi au kt b s a ls Hm Hl Nb Hphi Hs p P) as (_ & Pc & Ec & _).
  destruct (cap_sound phi au kt b' s' a' ls' Hm' Hl' Nb' Hphi Hs' (f p) P') as (_ & Pc' & _ & Lc).
  apply Rmult_le_compat_l; [apply Rmax_r|]. apply Rinv_le_contravar; auto.
  specialize (Lc _ (Hcap p _ P Ec)). apply (Rmult_le_compat_r phi) in Lc; [|lra].
  unfold Rdiv in Lc. rewrite !Rmult_assoc, Rinv_l, !Rmult_1_r in Lc by lra. exact Lc.
Qed.

Lemma capacities_here b ls p b' ls' p' : (forall s, here b ls p s -> here b' ls' p' s) ->
  forall x, capacities_at kt au b ls [p] x -> capacities_at kt au b' ls' [p'] x.
Proof.
  intros H x E. apply here_capacity in E. destruct E as (sec & r & m & Hh & R). apply here_capacity. exists sec, r, m. auto.
Qed.

(** *** Cutting *)
Section Cut.
Variables (pre post : beam_t R (section R)) (e e1 e2 : elem R (section R)) (t l : R).
Variables (s s' : option (section R)) (a a' : as4100 R) (ls : list R).
Hypothesis Ht : 0 < t < 1.
Hypothesis Hlen : elength e = Some l.
Hypothesis Pl : 0 < l.
Hypothesis Hcut : element_cut c t e e1 e2.
Hypothesis S1 : esection e1 = esection e.
Hypothesis S2 : esection e2 = esection e.
Hypothesis Hm : make_as4100 phi au kt (Some (pre ++ e :: post)) s = Ok a.
Hypothesis Hm' : make_as4100 phi au kt (Some (pre ++ e1 :: e2 :: post)) s' = Ok a'.
Hypothesis Hl : has_lengths (pre ++ e :: post) ls.
Hypothesis Ld : loaded (pre ++ e :: post) c.
Hypothesis Hs : sound_bars kt au (pre ++ e :: post).

Lemma cut_loaded : loaded (pre ++ e1 :: e2 :: post) c.
Proof.
  destruct Hcut as (l0 & rows & left & right & _ & _ & _ & _ & D1 & D2 & A & N & TC).
  destruct (cut_accepted rows t left right A Ht TC) as [[A1 Nl] [A2 Nr]].
  intros x Hx. apply in_app_or in Hx. destruct Hx as [Hx|[<-|[<-|Hx]]].
  - apply Ld, in_or_app. now left.
  - exists left. auto.
  - exists right. auto.
  - apply Ld, in_or_app. right. now right.
Qed.

Lemma cut_bars : sound_bars kt au (pre ++ e1 :: e2 :: post).
Proof.
  assert (Se : forall x : elem R (section R), esection x = esection e -> exists r m v, esection x = Some (SCircle r (Some m)) /\ bar_capacity kt au r m v /\ 0 < v).
  { intros x ->. apply Hs, in_or_app. right. now left. }
  intros x Hx. apply in_app_or in Hx. destruct Hx as [Hx|[<-|[<-|Hx]]]; auto; apply Hs, in_or_app; auto. right. now right.
Qed.

Lemma cut_split : exists lpre lpost, ls = lpre ++ l :: lpost /\ has_lengths pre lpre /\ has_lengths post lpost /\
  has_lengths (pre ++ e1 :: e2 :: post) (lpre ++ t * l :: (1 - t) * l :: lpost).
Proof.
  pose proof Hl as Hb0. apply Forall2_app_inv_l in Hb0. destruct Hb0 as (lpre & rest & H1 & Hr & E).
  inversion Hr as [|x l' y lpost [El L] H2 E1 E2]. subst x y rest. assert (l' = l) by congruence. subst l'.
  exists lpre, lpost. split; auto. split; auto. split; auto.
  apply (cut_lengths c pre post e e1 e2 t l lpre lpost Ht Hlen Pl Hcut H1 H2).
Qed.

Lemma cut_here lpre lpost p sec : has_lengths pre lpre -> has_lengths post lpost ->
  here (pre ++ e :: post) (lpre ++ l :: lpost) p sec <->
  here (pre ++ e1 :: e2 :: post) (lpre ++ t * l :: (1 - t) * l :: lpost) p sec.
Proof.
  intros H1 H2. assert (Q : 0 < t * l < l) by nra.
  destruct (half_lengths c e e1 e2 t l Ht Hlen Hcut) as [L1 L2].
  assert (Le : has_lengths [e] [l]) by (repeat constructor; auto; lra).
  assert (Le1 : has_lengths [e1] [t * l]) by (repeat constructor; auto; lra).
  assert (Le2 : has_lengths [e2] [(1 - t) * l]) by (repeat constructor; auto; nra).
  change (e :: post) with ([e] ++ post). change (l :: lpost) with ([l] ++ lpost).
  change (e1 :: e2 :: post) with ([e1] ++ [e2] ++ post).
  change (t * l :: (1 - t) * l :: lpost) with ([t * l] ++ [(1 - t) * l] ++ lpost).
  rewrite !here_app by (auto; repeat apply has_lengths_app; auto).
  rewrite (here_one e l), (here_one e1 (t * l)), (here_one e2 ((1 - t) * l)) by auto. rewrite S1, S2.
  replace (span [l]) with l by (unfold span; cbn; lra).
  replace (span [t * l]) with (t * l) by (unfold span; cbn; lra).
  replace (span [(1 - t) * l]) with ((1 - t) * l) by (unfold span; cbn; lra).
  replace (p - span lpre - t * l - (1 - t) * l) with (p - span lpre - l) by ring.
  set (z := p - span lpre).
  split.
  - intros [H|[[Hz Es]|H]]; auto. destruct (Rle_dec z (t * l)); right; [left|right; left]; split; auto; lra.
  - intros [H|[[Hz Es]|[[Hz Es]|H]]]; auto; right; left; split; auto; lra.
Qed.

Lemma cut_axial p x : 0 <= p <= span ls -> axial qs (pre ++ e :: post) c p x <-> axial qs (pre ++ e1 :: e2 :: post) c p x.
Proof.
  intros P. assert (D : designates (CStr "N") [N]) by apply (d_name N). unfold axial.
  destruct (Req_dec p (start_of ls (List.length pre) + t * l)) as [E|E].
  - destruct (at_cut qs c (CStr "N") [N] pre post e e1 e2 t l ls Hq D ltac:(discriminate) Ht Hlen Pl Hcut Hl Ld) as (rows & R1 & R2).
    cbv zeta in R1, R2. rewrite <- E in R1, R2. rewrite R1, R2. split; intros (rows' & y & Er & I).
    + assert (rows' = rows) by congruence. subst rows'. exists (rows ++ rows), y. split; auto. apply in_or_app. now left.
    + assert (rows' = rows ++ rows) by congruence. subst rows'. exists rows, y. split; auto. apply in_app_or in I. tauto.
  - rewrite (C22_real qs c (CStr "N") [N] pre post e e1 e2 t l ls (PosNum p) [p] Hq D ltac:(discriminate) Ht Hlen Pl Hcut Hl (r_num p)).
    + reflexivity.
    + intros [X|[]]. now apply E.
Qed.

Lemma nonempty_mid (x : elem R (section R)) (p q : beam_t R (section R)) : p ++ x :: q <> [].
Proof. destruct p; discriminate. Qed.

Theorem cut_utilisation n n' u u' : answer a n u -> answer a' n' u' -> u = u'.
Proof.
  intros A A'. destruct cut_split as (lpre & lpost & El & H1 & H2 & Hl').
  assert (Sp : span (lpre ++ t * l :: (1 - t) * l :: lpost) = span ls).
  { rewrite El, !span_app. unfold span. cbn. ring. }
  assert (C1 : case_of (pre ++ e :: post) s a ls) by (repeat split; auto; apply nonempty_mid).
  assert (C2 : case_of (pre ++ e1 :: e2 :: post) s' a' (lpre ++ t * l :: (1 - t) * l :: lpost)).
  { repeat split; auto; [apply nonempty_mid|apply cut_loaded|apply cut_bars]. }
  apply Rle_antisym.
  - apply (compare _ _ _ _ n u _ _ _ _ n' u' (fun p => p) C1 C2 A A').
    + intros p x P Ax. rewrite Sp. split; auto. now apply cut_axial.
    + intros p x P. apply capacities_here. intros sec. rewrite El. now apply cut_here.
  - apply (compare _ _ _ _ n' u' _ _ _ _ n u (fun p => p) C2 C1 A' A).
    + intros p x P Ax. rewrite Sp in P. split; auto. now apply cut_axial.
    + intros p x P. apply capacities_here. intros sec. rewrite El. now apply cut_here.
Qed.
End Cut.

(** *** Joining *)
Lemma join_part_l b1 b2 l1 l2 s1 s a1 a n1 n u1 u : has_lengths b1 l1 -> has_lengths b2 l2 -> b1 <> [] -> b2 <> [] ->
  make_as4100 phi au kt (Some b1) s1 = Ok a1 -> make_as4100 phi au kt (Some (b1 ++ b2)) s = Ok a ->
  loaded (b1 ++ b2) c -> sound_bars kt au (b1 ++ b2) -> answer a1 n1 u1 -> answer a n u -> u1 <= u.
Proof.
  intros H1 H2 N1 N2 M1 M Ld Hs A1 A. pose proof (has_lengths_app b1 b2 l1 l2 H1 H2) as H.
  assert (P2 : 0 <= span l2) by (apply span_nonneg; eapply lengths_nonneg; eauto).
  assert (Ne : b1 ++ b2 <> []) by (destruct b1; [congruence|discriminate]).
  assert (C1 : case_of b1 s1 a1 l1).
  { repeat split; auto; intros x Hx; [apply Ld|apply Hs]; apply in_or_app; auto. }
  assert (C : case_of (b1 ++ b2) s a (l1 ++ l2)) by (repeat split; auto).
  apply (compare _ _ _ _ n1 u1 _ _ _ _ n u (fun p => p) C1 C A1 A).
  - intros p x P (rows & y & Er & I). rewrite span_app. split; [lra|].
    destruct (join_loads qs b1 b2 l1 l2 c (CStr "N") [N] p Hq H1 H2 N1 N2 Ld (d_name N) ltac:(discriminate) ltac:(lra))
      as (rows' & Er' & J1 & _ & J3).
    destruct (Rlt_dec p (span l1)) as [L|L].
    + exists rows', y. split; auto. rewrite (J1 L) in Er. congruence.
    + assert (Ep : p = span l1) by lra. destruct (J3 Ep) as (ra & rb & Ea & Eb & ->).
      exists (ra ++ shifted (span l1) rb), y. split; auto. apply in_or_app. left. rewrite Ep, Ea in Er. injection Er as <-. exact I.
  - intros p x P. apply capacities_here. intros sec Hh. apply here_app; auto.
Qed.

Lemma join_part_r b1 b2 l1 l2 s2 s a2 a n2 n u2 u : has_lengths b1 l1 -> has_lengths b2 l2 -> b1 <> [] -> b2 <> [] ->
  make_as4100 phi au kt (Some b2) s2 = Ok a2 -> make_as4100 phi au kt (Some (b1 ++ b2)) s = Ok a ->
  loaded (b1 ++ b2) c -> sound_bars kt au (b1 ++ b2) -> answer a2 n2 u2 -> answer a n u -> u2 <= u.
Proof.
  intros H1 H2 N1 N2 M2 M Ld Hs A2 A. pose proof (has_lengths_app b1 b2 l1 l2 H1 H2) as H.
  assert (P1 : 0 <= span l1) by (apply span_nonneg; eapply lengths_nonneg; eauto).
  assert (Ne : b1 ++ b2 <> []) by (destruct b1; [congruence|discriminate]).
  assert (C2 : case_of b2 s2 a2 l2).
  { repeat split; auto; intros x Hx; [apply Ld|apply Hs]; apply in_or_app; auto. }
  assert (C : case_of (b1 ++ b2) s a (l1 ++ l2)) by (repeat split; auto).
  apply (compare _ _ _ _ n2 u2 _ _ _ _ n u (fun p => p + span l1) C2 C A2 A).
  - intros p x P (rows & y & Er & I). rewrite span_app. split; [lra|].
    destruct (join_loads qs b1 b2 l1 l2 c (CStr "N") [N] (p + span l1) Hq H1 H2 N1 N2 Ld (d_name N) ltac:(discriminate) ltac:(lra))
      as (rows' & Er' & _ & J2 & J3).
    assert (Ish : forall rb, rb = rows -> In (y + span l1, [Some x]) (shifted (span l1) rb)).
    { intros rb ->. unfold shifted. apply in_map_iff. exists (y, [Some x]). auto. }
    destruct (Rlt_dec (span l1) (p + span l1)) as [L|L].
    + destruct (J2 L) as (rb & Eb & ->). replace (p + span l1 - span l1) with p in Eb by ring.
      exists (shifted (span l1) rb), (y + span l1). split; auto. apply Ish. congruence.
    + assert (Ep : p = 0) by lra. subst p. destruct (J3 ltac:(lra)) as (ra & rb & Ea & Eb & ->).
      exists (ra ++ shifted (span l1) rb), (y + span l1). split; auto. apply in_or_app. right. apply Ish. congruence.
  - intros p x P. apply capacities_here. intros sec Hh. apply here_app; auto. right.
    now replace (p + span l1 - span l1) with p by ring.
Qed.

(** If both parts report the same capacity at the joint, the whole is as bad as its worse
    part. *)
Lemma join_whole b1 b2 l1 l2 s1 s2 s a1 a2 a n1 n2 n u1 u2 u v : has_lengths b1 l1 -> has_lengths b2 l2 -> b1 <> [] -> b2 <> [] ->
  make_as4100 phi au kt (Some b1) s1 = Ok a1 -> make_as4100 phi au kt (Some b2) s2 = Ok a2 ->
  make_as4100 phi au kt (Some (b1 ++ b2)) s = Ok a ->
  loaded (b1 ++ b2) c -> sound_bars kt au (b1 ++ b2) -> answer a1 n1 u1 -> answer a2 n2 u2 -> answer a n u ->
  phiNt a1 (PosNum (span l1)) = Ok v -> phiNt a2 (PosNum 0) = Ok v -> u = Rmax u1 u2.
Proof.
  intros H1 H2 N1 N2 M1 M2 M Ld Hs A1 A2 A V1 V2. pose proof (has_lengths_app b1 b2 l1 l2 H1 H2) as H.
  assert (P1 : 0 <= span l1) by (apply span_nonneg; eapply lengths_nonneg; eauto).
  assert (P2 : 0 <= span l2) by (apply span_nonneg; eapply lengths_nonneg; eauto).
  assert (Ne : b1 ++ b2 <> []) by (destruct b1; [congruence|discriminate]).
  assert (C1 : case_of b1 s1 a1 l1).
  { repeat split; auto; intros x Hx; [apply Ld|apply Hs]; apply in_or_app; auto. }
  assert (C2 : case_of b2 s2 a2 l2).
  { repeat split; auto; intros x Hx; [apply Ld|apply Hs]; apply in_or_app; auto. }
  assert (C : case_of (b1 ++ b2) s a (l1 ++ l2)) by (repeat split; auto).
  apply Rle_antisym.
  2:{ apply Rmax_lub.
      - exact (join_part_l b1 b2 l1 l2 s1 s a1 a n1 n u1 u H1 H2 N1 N2 M1 M Ld Hs A1 A).
      - exact (join_part_r b1 b2 l1 l2 s2 s a2 a n2 n u2 u H1 H2 N1 N2 M2 M Ld Hs A2 A). }
  destruct (worst _ _ _ _ n u C A) as [_ (p & x & P & Ax & ->)].
  destruct (worst _ _ _ _ n1 u1 C1 A1) as [W1 _]. destruct (worst _ _ _ _ n2 u2 C2 A2) as [W2 _].
  rewrite span_app in P.
  destruct (cap_sound phi au kt _ s a _ M H Ne Hphi Hs p ltac:(rewrite span_app; lra)) as (_ & Pc & Ec & _).
  (* the capacity of the whole at [p] is that of a part *)
  assert (Fin : forall a' (q : R), 0 < cap_of a' q -> cap_of a' q / phi <= cap_of a p / phi -> Rmax x 0 / cap_of a p <= Rmax x 0 / cap_of a' q).
  { intros a' q Pq Le. apply Rmult_le_compat_l; [apply Rmax_r|]. apply Rinv_le_contravar; auto.
    apply (Rmult_le_compat_r phi) in Le; [|lra]. unfold Rdiv in Le. rewrite !Rmult_assoc, Rinv_l, !Rmult_1_r in Le by lra. exact Le. }
  assert (L1 : 0 <= p <= span l1 -> cap_of a1 p / phi <= cap_of a p / phi -> axial qs b1 c p x -> Rmax x 0 / cap_of a p <= Rmax u1 u2).
  { intros Q Le Ax1. destruct (cap_sound phi au kt _ s1 a1 _ M1 H1 N1 Hphi (proj2 (proj2 (proj2 (proj2 C1)))) p Q) as (_ & Pq & _).
    eapply Rle_trans; [apply (Fin a1 p Pq Le)|]. eapply Rle_trans; [apply (W1 p x Q Ax1)|apply Rmax_l]. }
  assert (L2 : 0 <= p - span l1 <= span l2 -> cap_of a2 (p - span l1) / phi <= cap_of a p / phi -> axial qs b2 c (p - span l1) x ->
     Rmax x 0 / cap_of a p <= Rmax u1 u2).
  { intros Q Le Ax1. destruct (cap_sound phi au kt _ s2 a2 _ M2 H2 N2 Hphi (proj2 (proj2 (proj2 (proj2 C2)))) (p - span l1) Q) as (_ & Pq & _).
    eapply Rle_trans; [apply (Fin a2 (p - span l1) Pq Le)|]. eapply Rle_trans; [apply (W2 _ x Q Ax1)|apply Rmax_r]. }
  assert (K : (0 <= p <= span l1 /\ cap_of a1 p / phi <= cap_of a p / phi) \/
              (0 <= p - span l1 <= span l2 /\ cap_of a2 (p - span l1) / phi <= cap_of a p / phi)).
  { apply here_capacity in Ec. destruct Ec as (sec & r & m & Hh & Es & Bc). apply here_app in Hh; auto.
    destruct Hh as [Hh|Hh]; [left|right].
    - assert (Q : 0 <= p <= span l1).
      { destruct Hh as (i & el & Cv & _). eapply covers_on_beam; eauto. eapply lengths_nonneg; eauto. }
      split; auto. destruct (cap_sound phi au kt _ s1 a1 _ M1 H1 N1 Hphi (proj2 (proj2 (proj2 (proj2 C1)))) p Q) as (_ & _ & _ & Lq).
      apply Lq, here_capacity. exists sec, r, m. auto.
    - assert (Q : 0 <= p - span l1 <= span l2).
      { destruct Hh as (i & el & Cv & _). eapply covers_on_beam; eauto. eapply lengths_nonneg; eauto. }
      split; auto. destruct (cap_sound phi au kt _ s2 a2 _ M2 H2 N2 Hphi (proj2 (proj2 (proj2 (proj2 C2)))) (p - span l1) Q) as (_ & _ & _ & Lq).
      apply Lq, here_capacity. exists sec, r, m. auto. }
  destruct (join_loads qs b1 b2 l1 l2 c (CStr "N") [N] p Hq H1 H2 N1 N2 Ld (d_name N) ltac:(discriminate) P)
      as (rows & Er & J1 & J2 & J3).
  destruct Ax as (rows' & y & Er' & I). assert (rows' = rows) by congruence. subst rows'.
  destruct (Rtotal_order p (span l1)) as [L|[E|L]].
  - destruct K as [[Q Le]|[Q _]]; [|lra]. apply L1; auto. exists rows, y. auto.
  - assert (Cj : cap_of a1 (span l1) = v /\ cap_of a2 0 = v) by (unfold cap_of; rewrite V1, V2; auto). destruct Cj as [Cj1 Cj2].
    assert (K' : cap_of a1 p / phi <= cap_of a p / phi /\ cap_of a2 (p - span l1) / phi <= cap_of a p / phi).
    { assert (Z : p - span l1 = 0) by lra. assert (E1 : cap_of a1 p = v) by (rewrite E; exact Cj1).
      rewrite Z, Cj2, E1 in *. destruct K as [[_ X]|[_ X]]; auto. }
    destruct (J3 E) as (ra & rb & Ea & Eb & ->). apply in_app_or in I. destruct I as [I|I].
    + apply L1; [lra|apply K'|]. rewrite E. exists ra, y. auto.
    + apply L2; [lra|apply K'|]. unfold shifted in I. apply in_map_iff in I. destruct I as ([y' z'] & Ez & I).
      cbn in Ez. injection Ez as _ ->. replace (p - span l1) with 0 by lra. exists rb, y'. auto.
  - destruct K as [[Q _]|[Q Le]]; [lra|]. apply L2; auto. destruct (J2 L) as (rb & Eb & ->).
    unfold shifted in I. apply in_map_iff in I. destruct I as ([y' z'] & Ez & I).
    cbn in Ez. injection Ez as _ ->. exists rb, y'. auto.
Qed.

(** *** From the other end *)
Lemma mirror_bars b : sound_bars kt au b -> sound_bars kt au (mirror_beam b).
Proof.
  intros H e He. unfold mirror_beam in He. apply in_rev in He. apply in_map_iff in He. destruct He as (e' & <- & He). exact (H e' He).
Qed.

Lemma mirror_here b ls p sec : has_lengths b ls -> here b ls p sec <-> here (mirror_beam b) (rev ls) (span ls - p) sec.
Proof.
  intros H. pose proof (lengths_len b ls H) as Ln. split.
  - intros (i & e & Cv & Ee & Es). assert (Hi := proj1 Cv). exists (List.length ls - 1 - i)%nat, (mirror_elem e). split; [|split].
    + apply covers_rev. split; [lia|]. now replace (List.length ls - 1 - (List.length ls - 1 - i))%nat with i by lia.
    + rewrite <- Ln. now apply mirror_nth.
    + exact Es.
  - intros (i & e & Cv & Ee & Es). apply covers_rev in Cv. destruct Cv as [Hi Cv]. 
    destruct (nth_error b (List.length ls - 1 - i)) as [e'|] eqn:E'; [|apply nth_error_None in E'; lia].
    exists (List.length ls - 1 - i)%nat, e'. split; auto. split; auto.
    pose proof (mirror_nth b _ e' E') as M. rewrite Ln in M. replace (List.length ls - 1 - (List.length ls - 1 - i))%nat with i in M by lia.
    rewrite M in Ee. injection Ee as <-. exact Es.
Qed.

Lemma mirror_axial b ls p x : has_lengths b ls -> b <> [] -> loaded b c -> joints_whole b c ->
  axial qs b c p x <-> axial qs (mirror_beam b) c (span ls - p) x.
Proof.
  intros H Nb Ld J. unfold axial.
  pose proof (mirror_get_loads qs b ls c (PosNum p) None (CStr "N") [N] Hq H Nb Ld J (d_name N) ltac:(discriminate)) as M.
  cbn [mirror_pos] in M. rewrite M. clear M. destruct (beam_get_loads qs b c (PosNum p) None (CStr "N")) as [[rows|]|er]; cbn [rmap option_map].
  - split; intros (rows' & y & E & I).
    + assert (rows' = rows) by congruence. subst rows'. exists (mirror_rows (span ls) rows), (span ls - y). split; auto. unfold mirror_rows. apply -> in_rev. apply in_map_iff. exists (y, [Some x]). split; [reflexivity|exact I].
    + assert (rows' = mirror_rows (span ls) rows) by congruence. subst rows'. unfold mirror_rows in I. apply in_rev in I.
      apply in_map_iff in I. destruct I as ([y' z'] & Ez & I). cbn in Ez. injection Ez as _ ->. exists rows, y'. auto.
  - split; intros (rows' & y & E & _); discriminate E.
  - split; intros (rows' & y & E & _); discriminate E.
Qed.

Theorem mirror_utilisation b ls s s' a a' n n' u u' : has_lengths b ls -> b <> [] -> loaded b c -> joints_whole b c ->
  sound_bars kt au b -> make_as4100 phi au kt (Some b) s = Ok a -> make_as4100 phi au kt (Some (mirror_beam b)) s' = Ok a' ->
  answer a n u -> answer a' n' u' -> u = u'.
Proof.
  intros H Nb Ld J Hs M M' A A'.
  assert (C1 : case_of b s a ls) by (repeat split; auto).
  assert (Nm : mirror_beam b <> []).
  { intros E. assert (L : List.length (mirror_beam b) = 0%nat) by now rewrite E. rewrite mirror_length in L. destruct b; [congruence|discriminate]. }
  assert (C2 : case_of (mirror_beam b) s' a' (rev ls)).
  { repeat split; auto; [now apply mirror_lengths|now apply mirror_loaded|now apply mirror_bars]. }
  apply Rle_antisym.
  - apply (compare _ _ _ _ n u _ _ _ _ n' u' (fun p => span ls - p) C1 C2 A A').
    + intros p x P Ax. rewrite span_rev. split; [lra|]. now apply mirror_axial.
    + intros p x P. apply capacities_here. intros sec. now apply mirror_here.
  - apply (compare _ _ _ _ n' u' _ _ _ _ n u (fun p => span ls - p) C2 C1 A' A).
    + intros p x P Ax. rewrite span_rev in P. split; [lra|]. apply (mirror_axial b ls (span ls - p) x H Nb Ld J).
      now replace (span ls - (span ls - p)) with p by ring.
    + intros p x P. apply capacities_here. intros sec Hh. apply (mirror_here b ls (span ls - p) sec H).
      now replace (span ls - (span ls - p)) with p by ring.
Qed.
End Two.
