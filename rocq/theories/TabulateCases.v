(** A finer table, and a beam with two load cases and their factored sum: the cases of
    P_Tabulate.v. *)

From Coq Require Import ZArith Reals List Bool String Lra Lia Sorted.
From Verif Require Import Base Num RNum OrdFacts Numpy LoadCase LoadSpec LoadFacts LoadProofs Beam BeamSpec BeamFacts
  BeamPositions BeamLoads BeamProofs BeamMisc BeamFloat BeamMirror TransformSpec TableCut
  Material AS4100 AS4100Spec AS4100Facts AS4100Util AS4100Scale AS4100Cases PeakSpec Peak SameUtil PeakCases
  TabulateSpec Tabulate Combine.
Import ListNotations.
Open Scope R_scope.

(** The table [pull 2 6] with the row at a quarter written down. *)
Definition finer : list (lrow R) := [mk_lrow 0 0 0 2 0 0 0; mk_lrow (1 / 4) 0 0 3 0 0 0; mk_lrow 1 0 0 6 0 0 0].

Lemma finer_refine : refine (pull 2 6) (1 / 4) = finer.
Proof.
  unfold refine. assert (py_in (1 / 4) (map lpos (pull 2 6)) = false) as ->.
  { destruct (py_in _ _) eqn:E; auto. apply py_in_R in E. cbn in E. destruct E as [E|[E|[]]]; lra. }
  unfold lower, upper, pull. cbn [filter lpos].
  rewrite (proj2 (Rltb_true 0 (1 / 4))), (proj2 (Rltb_false 1 (1 / 4))), (proj2 (Rltb_false (1 / 4) 0)), (proj2 (Rltb_true (1 / 4) 1)) by lra.
  unfold finer. cbn [app]. f_equal. f_equal. unfold val_row.
  assert (V : forall c, interp_val [mk_lrow 0 0 0 2 0 0 0; mk_lrow 1 0 0 6 0 0 0] (1 / 4) c =
    (lcomp c (mk_lrow 1 0 0 6 0 0 0) - lcomp c (mk_lrow 0 0 0 2 0 0 0)) / (1 - 0) * (1 / 4 - 0) + lcomp c (mk_lrow 0 0 0 2 0 0 0)).
  { intros c. rewrite interp_val_cons, ifr_cons. cbn [lpos].
    rewrite (proj2 (Rltb_false (1 / 4) 0)), (proj2 (Rleb_false 1 (1 / 4))), (proj2 (Reqb_false 0 (1 / 4))) by lra. reflexivity. }
  rewrite !V. cbn [lcomp lVX lVY lN lMX lMY lT]. f_equal; field.
Qed.

Lemma pull_wf x y : well_formed (pull x y).
Proof. apply accepted_rows, pull_accepted. Qed.

Lemma finer_accepted : accepted (Some finer).
Proof. apply accepted_rows. rewrite <- finer_refine. apply refine_wf; [apply pull_wf|lra]. Qed.

Lemma finer_same : same_answers (Some (pull 2 6)) (Some finer).
Proof.
  apply same_blocks; try discriminate; [apply pull_wf|apply accepted_rows, finer_accepted|].
  intros cs x. rewrite <- finer_refine. apply refine_block; [apply pull_wf|discriminate].
Qed.

Definition tie_finer : beam_t R (section R) :=
  [tie 2 (1 / 10) 2 4; mk_elem (Some 4) (Some (rod (1 / 20))) [(7%Z, Some finer)]].

Lemma same_refl lc : same_answers lc lc.
Proof. intros qs position a cs _ _ _. reflexivity. Qed.

Lemma tie_retabulated : Forall2 (retabulated 7) tie_beam tie_finer.
Proof.
  constructor; [|constructor; [|constructor]]; (split; [reflexivity|]); (split; [reflexivity|]).
  - exists (pull 2 4), (pull 2 4). repeat (split; [first [reflexivity|apply pull_accepted|discriminate|apply same_refl]|]). reflexivity.
  - exists (pull 2 6), finer. repeat (split; [first [reflexivity|apply finer_accepted|discriminate|apply finer_same]|]).
    intros E. cbn in E. injection E as E. lra.
Qed.

Lemma tie_finer_made : make_as4100 (9 / 10) (85 / 100) 1 (Some tie_finer) None = Ok (tie_check tie_finer [thick; thin]).
Proof. reflexivity. Qed.

Lemma tie_finer_answer qs n : any_argsort qs -> (0 <= n)%Z -> exists u,
  tension_utilisation qs (set_assessment_points (tie_check tie_finer [thick; thin]) n) (LCInt 7) PosNone = Ok u.
Proof.
  intros Hq Pn. pose proof PI_RGT_0. pose proof PI_4.
  assert (Hl : has_lengths tie_finer [2; 4]) by (repeat constructor; cbn; lra).
  assert (Hs : sound_bars 1 (85 / 100) tie_finer).
  { apply (same_sections_bars (85 / 100) 1 tie_beam); [reflexivity|apply ties_bars, tie_beam_ties]. }
  assert (C : case_of (9 / 10) (85 / 100) 1 7 tie_finer None (tie_check tie_finer [thick; thin]) [2; 4]).
  { split; [apply tie_finer_made|]. split; auto. split; [discriminate|]. split; auto. exact (replaced_loaded 7 tie_beam tie_finer tie_retabulated). }
  apply (answers qs (9 / 10) (85 / 100) 1 7 tie_finer None _ [2; 4] n 12 Hq ltac:(lra) C Pn).
  - intros e tab r He D Hr. destruct He as [<-|[<-|[]]]; cbn in D; injection D as <-; cbn in Hr;
      repeat (destruct Hr as [<-|Hr]; [cbn; lra|]); destruct Hr.
  - intros p P. destruct C as (Hm & _ & Nb & Ld & _).
    destruct (cap_sound (9 / 10) (85 / 100) 1 tie_finer None _ [2; 4] Hm Hl Nb ltac:(lra) Hs p P) as (_ & Pc & (q & i & _ & _ & (e & r & m & Ee & Es & Bc)) & _).
    assert (Hr : 1 / 20 <= r <= 1 / 10 /\ m = rod_steel).
    { apply nth_error_In in Ee. destruct Ee as [<-|[<-|[]]]; cbn in Es; injection Es as <- <-; split; auto; lra. }
    destruct Hr as [Hr ->]. apply rod_bar in Bc; try lra.
    pose proof (rod_capacity_le r (1 / 10) ltac:(lra) ltac:(lra)) as Le. rewrite <- Bc, rod_capacity_val in Le. lra.
  - pose proof smallest_small. lra.
  - lra.
Qed.

(** ** Two load cases and 1.2 times the first plus 1.5 times the second *)
Definition factored (x y x' y' : R) : list (lrow R) :=
  add_rows (map (scale_row (12 / 10)) (pull x y)) (map (scale_row (15 / 10)) (pull x' y')).
Definition member (l r x y x' y' : R) : elem R (section R) :=
  mk_elem (Some l) (Some (rod r)) [(1%Z, Some (pull x y)); (2%Z, Some (pull x' y')); (3%Z, Some (factored x y x' y'))].
(** The first load case is worst at the right end, the second at the joint. *)
Definition frame : beam_t R (section R) := [member 2 (1 / 10) 2 4 3 5; member 4 (1 / 20) 2 6 5 1].
Definition frame_check : as4100 R := tie_check frame [thick; thin].

Lemma frame_combined : Forall (combined (12 / 10) (15 / 10) 1 2 3) frame.
Proof.
  repeat constructor; do 2 eexists; (split; [reflexivity|]); (split; [reflexivity|]); (split; [apply pull_accepted|]);
    (split; [discriminate|]); split; reflexivity.
Qed.
Lemma frame_made : make_as4100 (9 / 10) (85 / 100) 1 (Some frame) None = Ok frame_check.
Proof. reflexivity. Qed.
Lemma frame_lengths : has_lengths frame [2; 4].
Proof. repeat constructor; cbn; lra. Qed.
Lemma frame_bars : sound_bars 1 (85 / 100) frame.
Proof. apply (same_sections_bars (85 / 100) 1 tie_beam); [reflexivity|apply ties_bars, tie_beam_ties]. Qed.
Lemma frame_loaded c : In c [1%Z; 2%Z; 3%Z] -> loaded frame c.
Proof.
  destruct (combined_loaded _ _ _ _ _ frame frame_combined) as (A & B & C). intros [<-|[<-|[<-|[]]]]; auto.
Qed.
Lemma frame_caps p : 0 <= p <= span [2; 4] -> phiNt frame_check (PosNum p) = Ok (cap_of frame_check p) /\ 0 < cap_of frame_check p /\ cap_of frame_check p <= 12.
Proof.
  intros P. pose proof PI_RGT_0. pose proof PI_4.
  destruct (cap_sound (9 / 10) (85 / 100) 1 frame None frame_check [2; 4] frame_made frame_lengths ltac:(discriminate) ltac:(lra) frame_bars p P)
    as (E & Pc & (q & i & _ & _ & (e & r & m & Ee & Es & Bc)) & _).
  split; auto. split; auto.
  assert (Hr : 1 / 20 <= r <= 1 / 10 /\ m = rod_steel).
  { apply nth_error_In in Ee. destruct Ee as [<-|[<-|[]]]; cbn in Es; injection Es as <- <-; split; auto; lra. }
  destruct Hr as [Hr ->]. apply rod_bar in Bc; try lra.
  pose proof (rod_capacity_le r (1 / 10) ltac:(lra) ltac:(lra)) as Le. rewrite <- Bc, rod_capacity_val in Le. lra.
Qed.
Lemma frame_answer qs c n : any_argsort qs -> (0 <= n)%Z -> In c [1%Z; 2%Z; 3%Z] ->
  exists u, tension_utilisation qs (set_assessment_points frame_check n) (LCInt c) PosNone = Ok u.
Proof.
  intros Hq Pn Ic.
  assert (C : case_of (9 / 10) (85 / 100) 1 c frame None frame_check [2; 4]).
  { split; [apply frame_made|]. split; [apply frame_lengths|]. split; [discriminate|]. split; [now apply frame_loaded|apply frame_bars]. }
  apply (answers qs (9 / 10) (85 / 100) 1 c frame None _ [2; 4] n 12 Hq ltac:(lra) C Pn).
  - intros e tab r He D Hr. destruct Ic as [<-|[<-|[<-|[]]]]; destruct He as [<-|[<-|[]]]; cbn in D; injection D as <-; cbn in Hr;
      repeat (destruct Hr as [<-|Hr]; [cbn; lra|]); destruct Hr.
  - intros p P. now apply frame_caps.
  - pose proof smallest_small. lra.
  - lra.
Qed.
