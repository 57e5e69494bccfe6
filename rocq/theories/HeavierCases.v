(** A tie and a heavier one. *)

From Coq Require Import ZArith Reals List Bool String Lra Lia.
From Verif Require Import Base Num RNum Numpy LoadCase LoadSpec LoadProofs Beam BeamSpec Material AS4100 AS4100Spec
  AS4100Cases PeakSpec SameUtil PeakCases HeavierSpec.
Import ListNotations.
Open Scope R_scope.

(** The first bar thinner and pulled harder at its start, the second pulled harder at its end. *)
Definition tie_heavy : beam_t R (section R) := [tie 2 (1 / 20) 3 4; tie 4 (1 / 20) 2 9].

Lemma tie_heavy_ties : Forall is_tie tie_heavy.
Proof. repeat constructor; do 4 eexists; (split; [reflexivity|]); lra. Qed.
Lemma tie_heavy_lengths : has_lengths tie_heavy [2; 4].
Proof. repeat constructor; cbn; lra. Qed.
Lemma tie_heavy_made : make_as4100 (9 / 10) (85 / 100) 1 (Some tie_heavy) None = Ok (tie_check tie_heavy [thin; thin]).
Proof. reflexivity. Qed.

Lemma pull_more x y x' y' : x <= x' -> y <= y' ->
  Forall2 (fun r r' => lpos r' = lpos r /\ lcomp N r <= lcomp N r') (pull x y) (pull x' y').
Proof. intros. unfold pull. apply Forall2_cons; [split; cbn; lra|]. apply Forall2_cons; [split; cbn; lra|apply Forall2_nil]. Qed.

Lemma tie_heavier : Forall2 (heavier N 7) tie_beam tie_heavy.
Proof.
  constructor; [|constructor; [|constructor]]; (split; [reflexivity|]);
    eexists _, _; (split; [reflexivity|]); (split; [reflexivity|]); (split; [apply pull_accepted|]); (split; [discriminate|]);
    apply pull_more; lra.
Qed.

Lemma tie_weaker : Forall2 (weaker_bar 1 (85 / 100) 1 (85 / 100)) tie_beam tie_heavy.
Proof.
  constructor; [exists (1 / 10)|constructor; [exists (1 / 20)|constructor]]; exists rod_steel; eexists; exists (1 / 20), rod_steel; eexists;
    (split; [reflexivity|]); (split; [apply rod_bar; [lra|lra|reflexivity]|]); (split; [reflexivity|]);
    (split; [apply rod_bar; [lra|lra|reflexivity]|]); (split; [apply rod_capacity_pos; lra|apply rod_capacity_le; lra]).
Qed.
