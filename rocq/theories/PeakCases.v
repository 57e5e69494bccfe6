(** A tie of two bars: the cases of P_Peak.v. *)

From Coq Require Import ZArith Reals List Bool String Lra Lia Sorted.
From Verif Require Import Base Num RNum OrdFacts Numpy LoadCase LoadSpec LoadFacts LoadProofs Beam BeamSpec BeamFacts
  BeamPositions BeamLoads BeamProofs BeamMisc BeamFloat BeamMirror TransformSpec
  Material AS4100 AS4100Spec AS4100Facts AS4100Util AS4100Scale AS4100Cases PeakSpec Peak SameUtil.
Import ListNotations.
Open Scope R_scope.

(** The utilisation is answered if all tensions are at least 1 and no bar is too strong. *)
Lemma answers qs phi au kt c b s a ls n K : any_argsort qs -> 0 < phi -> case_of phi au kt c b s a ls -> (0 <= n)%Z ->
  (forall e tab r, In e b -> dict_get c (eloads e) = Ok (Some tab) -> In r tab -> 1 <= lN r) ->
  (forall p, 0 <= p <= span ls -> cap_of a p <= K) -> smallest_ratio < / K -> 0 < K ->
  exists u, tension_utilisation qs (set_assessment_points a n) (LCInt c) PosNone = Ok u.
Proof.
  intros Hq Hphi (Hm & Hl & Nb & Ld & Hs) Pn Hn HK Hr PK.
  assert (Hc : forall p, 0 <= p <= span ls -> phiNt a (PosNum p) = Ok (cap_of a p) /\ 0 < cap_of a p).
  { intros p P. destruct (cap_sound phi au kt b s a ls Hm Hl Nb Hphi Hs p P) as (E & Pc & _). auto. }
  destruct (C18_loads b ls c n Hl Nb Ld Pn) as (locs & El & Ps & _).
  pose proof (positions_sound b a ls (cap_of a) Hl (Some n) (Some c) locs El Hc) as F.
  rewrite (util_first qs (set_assessment_points a n) b (LCInt c) c [] locs).
  2:{ cbn. now apply make_beam in Hm. }
  2:{ constructor. }
  2:{ exact El. }
  change (map (fun t => fst (fst t)) locs) with (positions_of locs).
  rewrite util_points.
  destruct (util_iff qs phi au kt b s a ls (cap_of a) Hq Hm Hl Nb (LCInt c) [c] (PosList (positions_of locs)) (positions_of locs)) as (_ & U & V).
  - constructor.
  - apply at_given. constructor.
  - constructor; auto.
  - exact F.
  - destruct (tension_utilisation qs a (LCInt c) (PosList (positions_of locs))) as [u|er] eqn:E; [eauto|exfalso].
    rewrite (V er eq_refl) in U. destruct (proj1 U eq_refl) as [X|[X|(x & (c' & p & m & Ic & Ip & Ax & ->) & [X Y])]].
    + discriminate X.
    + assert (I : In (start_of ls 0) (positions_of locs)).
      { apply Ps. left. exists 0%nat. split; auto. destruct b; [congruence|cbn; lia]. }
      rewrite X in I. destruct I.
    + destruct Ic as [<-|[]]. rewrite Forall_forall in F. destruct (F p Ip) as (Pp & _ & Pc).
      apply (axial_shows0 qs b ls c p m Hq Hl Nb Ld Pp) in Ax.
      assert (D : designates (CStr "N") [N]) by apply (d_name N).
      apply (shows_iff qs b ls c _ _ (CStr "N") [N] 0 m Hq Hl Ld D ltac:(discriminate)) in Ax.
      destruct Ax as (locs1 & p1 & e & l & el & tab & o & _ & _ & Ee & Ed & Io & Iv).
      destruct (Ld el (nth_error_In _ _ Ee)) as (tab' & Ed' & _ & Nt'). assert (tab' = tab) by congruence. subst tab'.
      destruct (block_enclosed tab [N] l o 0 N (Some m) Nt' Io eq_refl Iv) as (m' & Em & [(r & Ir & Lr) _]). assert (m' = m) by congruence. subst m'.
      pose proof (Hn el tab r (nth_error_In _ _ Ee) Ed Ir) as L1. change (load_of N r) with (lN r) in Lr.
      rewrite Rmax_left in Y by lra. specialize (HK p Pp).
      assert (Z : / K <= m / cap_of a p).
      { unfold Rdiv. rewrite <- (Rmult_1_l (/ K)). apply Rmult_le_compat; try lra.
        - left. now apply Rinv_0_lt_compat.
        - apply Rinv_le_contravar; auto. }
      lra.
Qed.

(** ** The tie *)
Definition pull (x y : R) : list (lrow R) := [mk_lrow 0 0 0 x 0 0 0; mk_lrow 1 0 0 y 0 0 0].
Definition tie (l r x y : R) : elem R (section R) := mk_elem (Some l) (Some (rod r)) [(7%Z, Some (pull x y))].
Definition tie_beam : beam_t R (section R) := [tie 2 (1 / 10) 2 4] ++ tie 4 (1 / 20) 2 6 :: [].
(** The second bar cut at a quarter. *)
Definition tie_cut : beam_t R (section R) := [tie 2 (1 / 10) 2 4] ++ tie (1 / 4 * 4) (1 / 20) 2 3 :: tie ((1 - 1 / 4) * 4) (1 / 20) 3 6 :: [].

Definition tie_check (b : beam_t R (section R)) (ws : list (as_section R)) : as4100 R :=
  mk_as4100 (Some b) None 20 ws (9 / 10) (85 / 100) 1.
Definition thick : as_section R := mk_as (1 / 10) rod_steel.
Definition thin : as_section R := mk_as (1 / 20) rod_steel.

Lemma pull_accepted x y : accepted (Some (pull x y)).
Proof. apply accepted_rows. split; repeat constructor; cbn; lra. Qed.

Definition is_tie (e : elem R (section R)) : Prop :=
  exists l r x y, e = tie l r x y /\ 0 <= l /\ 1 / 20 <= r <= 1 / 10 /\ 1 <= x /\ 1 <= y.

Lemma ties_loaded b : Forall is_tie b -> loaded b 7.
Proof.
  rewrite Forall_forall. intros H e He. destruct (H e He) as (l & r & x & y & -> & _). exists (pull x y).
  split; [reflexivity|]. split; [apply pull_accepted|discriminate].
Qed.

Lemma ties_bars b : Forall is_tie b -> sound_bars 1 (85 / 100) b.
Proof.
  rewrite Forall_forall. intros H e He. destruct (H e He) as (l & r & x & y & -> & _ & Hr & _).
  exists r, rod_steel, (rod_capacity r). split; [reflexivity|]. split; [apply rod_bar; lra|apply rod_capacity_pos; lra].
Qed.

Lemma ties_whole b : Forall is_tie b -> joints_whole b 7.
Proof.
  rewrite Forall_forall. intros H e rows He _ D. destruct (H e He) as (l & r & x & y & -> & _).
  cbn in D. injection D as <-. unfold whole, pull. do 3 eexists. split; [reflexivity|].
  split; [eexists [_]; reflexivity|]. split; reflexivity.
Qed.

Lemma ties_case b a ls : Forall is_tie b -> b <> [] -> has_lengths b ls ->
  make_as4100 (9 / 10) (85 / 100) 1 (Some b) None = Ok a -> case_of (9 / 10) (85 / 100) 1 7 b None a ls.
Proof. intros H N L M. split; auto. split; auto. split; auto. split; [now apply ties_loaded|now apply ties_bars]. Qed.

Lemma ties_answer qs b a ls n : any_argsort qs -> Forall is_tie b -> b <> [] -> has_lengths b ls ->
  make_as4100 (9 / 10) (85 / 100) 1 (Some b) None = Ok a -> (0 <= n)%Z ->
  exists u, tension_utilisation qs (set_assessment_points a n) (LCInt 7) PosNone = Ok u.
Proof.
  intros Hq H N L M Pn. pose proof PI_RGT_0. pose proof PI_4.
  pose proof (ties_case b a ls H N L M) as C.
  apply (answers qs (9 / 10) (85 / 100) 1 7 b None a ls n 12 Hq ltac:(lra) C Pn).
  - intros e tab r He D Hr. rewrite Forall_forall in H. destruct (H e He) as (l & r0 & x & y & -> & _ & _ & X & Y).
    cbn in D. injection D as <-. destruct Hr as [<-|[<-|[]]]; cbn; lra.
  - intros p P. destruct C as (Hm & Hl & Nb & Ld & Hs).
    destruct (cap_sound (9 / 10) (85 / 100) 1 b None a ls Hm Hl Nb ltac:(lra) Hs p P) as (_ & Pc & (q & i & _ & _ & (e & r & m & Ee & Es & Bc)) & _).
    rewrite Forall_forall in H. destruct (H e (nth_error_In _ _ Ee)) as (l & r0 & x & y & -> & _ & Hr & _).
    cbn in Es. injection Es as <- <-. apply rod_bar in Bc; try lra.
    pose proof (rod_capacity_le r0 (1 / 10) ltac:(lra) ltac:(lra)) as Le. rewrite <- Bc, rod_capacity_val in Le.
    lra.
  - pose proof smallest_small. lra.
  - lra.
Qed.

Lemma tie_beam_ties : Forall is_tie tie_beam.
Proof. repeat constructor; do 4 eexists; (split; [reflexivity|]); lra. Qed.
Lemma tie_beam_lengths : has_lengths tie_beam [2; 4].
Proof. repeat constructor; cbn; lra. Qed.
Lemma tie_beam_made : make_as4100 (9 / 10) (85 / 100) 1 (Some tie_beam) None = Ok (tie_check tie_beam [thick; thin]).
Proof. reflexivity. Qed.

Lemma tie_cut_made : make_as4100 (9 / 10) (85 / 100) 1 (Some tie_cut) None = Ok (tie_check tie_cut [thick; thin; thin]).
Proof. reflexivity. Qed.
Lemma tie_cut_ties : Forall is_tie tie_cut.
Proof. repeat constructor; do 4 eexists; (split; [reflexivity|]); lra. Qed.
Lemma tie_cut_lengths : has_lengths tie_cut [2; 1 / 4 * 4; (1 - 1 / 4) * 4].
Proof. repeat constructor; cbn; lra. Qed.

Lemma tie_is_cut : element_cut 7 (1 / 4) (tie 4 (1 / 20) 2 6) (tie (1 / 4 * 4) (1 / 20) 2 3) (tie ((1 - 1 / 4) * 4) (1 / 20) 3 6).
Proof.
  exists 4, (pull 2 6), (pull 2 3), (pull 3 6). repeat split; auto using pull_accepted; try discriminate.
  exists [mk_lrow (1 / 4) 0 0 3 0 0 0]. split; [|split].
  - apply cut_between.
    + cbn. intros r [<-|[<-|[]]]; cbn; lra.
    + reflexivity.
    + intros c.
      assert (B : interpolates (pull 2 6) c (1 / 4)
        (nadd (nmul (ndiv (nsub (load_of c (mk_lrow 1 0 0 6 0 0 0)) (load_of c (mk_lrow 0 0 0 2 0 0 0)))
                          (nsub (lpos (mk_lrow 1 0 0 6 0 0 0)) (lpos (mk_lrow 0 0 0 2 0 0 0))))
                    (nsub (1 / 4) (lpos (mk_lrow 0 0 0 2 0 0 0)))) (load_of c (mk_lrow 0 0 0 2 0 0 0)))).
      { apply (between _ _ _ []) with (l' := []); [reflexivity| |]; cbn; apply Rltb_true; cbn; lra. }
      match type of B with interpolates _ _ _ ?v => replace (load_of c (mk_lrow (1 / 4) 0 0 3 0 0 0)) with v; [exact B|] end.
      destruct c; cbn; lra.
  - unfold pull. cbn [filter lpos].
    rewrite (proj2 (Rltb_true 0 (1/4))), (proj2 (Rltb_false 1 (1/4))) by lra. cbn [app map move lpos lVX lVY lN lMX lMY lT].
    unfold move; cbn [lpos lVX lVY lN lMX lMY lT]; f_equal; [f_equal; lra|]. f_equal. f_equal; lra.
  - unfold pull. cbn [filter lpos].
    rewrite (proj2 (Rltb_false (1/4) 0)), (proj2 (Rltb_true (1/4) 1)) by lra. cbn [app map move lpos lVX lVY lN lMX lMY lT].
    unfold move; cbn [lpos lVX lVY lN lMX lMY lT]; f_equal; [f_equal; lra|]. f_equal. f_equal; lra.
Qed.

Lemma tie_mirror_made : make_as4100 (9 / 10) (85 / 100) 1 (Some (mirror_beam tie_beam)) None
  = Ok (tie_check (mirror_beam tie_beam) [thin; thick]).
Proof. reflexivity. Qed.

Lemma tie_mirror_ties : Forall is_tie (mirror_beam tie_beam).
Proof.
  assert (E : mirror_beam tie_beam = [tie 4 (1 / 20) 6 2; tie 2 (1 / 10) 4 2]).
  { unfold mirror_beam, tie_beam, mirror_elem, tie, pull, mirror_table. cbn. unfold move. cbn.
    replace (1 - 1) with 0 by ring. replace (1 - 0) with 1 by ring. reflexivity. }
  rewrite E. repeat constructor; do 4 eexists; (split; [reflexivity|]); lra.
Qed.

(** The parts of the cut tie report the same capacity where they meet. *)
Lemma thin_capacity b a ls p : Forall is_tie b -> b <> [] -> has_lengths b ls ->
  make_as4100 (9 / 10) (85 / 100) 1 (Some b) None = Ok a -> 0 <= p <= span ls ->
  here b ls p (Some (rod (1 / 20))) -> phiNt a (PosNum p) = Ok (9 / 10 * rod_capacity (1 / 20)).
Proof.
  intros H N L M P Hh. pose proof (ties_case b a ls H N L M) as (Hm & Hl & Nb & Ld & Hs).
  destruct (cap_sound (9 / 10) (85 / 100) 1 b None a ls Hm Hl Nb ltac:(lra) Hs p P) as (E & _ & (q & i & _ & _ & (e & r & m & Ee & Es & Bc)) & Lc).
  rewrite E. f_equal. rewrite Forall_forall in H. destruct (H e (nth_error_In _ _ Ee)) as (l & r0 & x & y & -> & _ & Hr & _).
  cbn in Es. injection Es as <- <-. apply rod_bar in Bc; try lra.
  pose proof (rod_capacity_le (1 / 20) r0 ltac:(lra) ltac:(lra)) as Le. rewrite <- Bc in Le.
  assert (Ge : cap_of a p / (9 / 10) <= rod_capacity (1 / 20)).
  { apply Lc. apply here_capacity. exists (Some (rod (1 / 20))), (1 / 20), rod_steel. split; auto. split; [reflexivity|]. apply rod_bar; lra. }
  lra.
Qed.

Lemma tie_joint : exists v,
  phiNt (tie_check ([tie 2 (1 / 10) 2 4] ++ [tie (1 / 4 * 4) (1 / 20) 2 3]) [thick; thin]) (PosNum (span [2; 1 / 4 * 4])) = Ok v
  /\ phiNt (tie_check [tie ((1 - 1 / 4) * 4) (1 / 20) 3 6] [thin]) (PosNum 0) = Ok v.
Proof.
  exists (9 / 10 * rod_capacity (1 / 20)). split.
  - apply (thin_capacity ([tie 2 (1 / 10) 2 4] ++ [tie (1 / 4 * 4) (1 / 20) 2 3]) _ [2; 1 / 4 * 4]).
    + repeat constructor; do 4 eexists; (split; [reflexivity|]); lra.
    + discriminate.
    + repeat constructor; cbn; lra.
    + reflexivity.
    + unfold span. cbn. lra.
    + exists 1%nat, (tie (1 / 4 * 4) (1 / 20) 2 3). split; [|split; reflexivity]. split; [cbn; lia|].
      unfold start_of, end_of, span. cbn. lra.
  - apply (thin_capacity [tie ((1 - 1 / 4) * 4) (1 / 20) 3 6] _ [(1 - 1 / 4) * 4]).
    + repeat constructor; do 4 eexists; (split; [reflexivity|]); lra.
    + discriminate.
    + repeat constructor; cbn; lra.
    + reflexivity.
    + unfold span. cbn. lra.
    + exists 0%nat, (tie ((1 - 1 / 4) * 4) (1 / 20) 3 6). split; [|split; reflexivity]. split; [cbn; lia|].
      unfold start_of, end_of, span. cbn. lra.
Qed.
