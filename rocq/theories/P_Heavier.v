(** C140: more load or less capacity never lowers the utilisation.  The vocabulary is
    HeavierSpec.v, BeamSpec.v and AS4100Spec.v; exact arithmetic. *)

From Coq Require Import ZArith Reals List Bool String Lra Lia.
From Verif Require Import Base Num RNum Numpy LoadCase LoadSpec LoadProofs Beam BeamSpec Material AS4100 AS4100Spec
  AS4100Cases PeakSpec SameUtil PeakCases HeavierSpec Heavier HeavierCases.
Import ListNotations.
Open Scope R_scope.

(** C140: the loads, for every way to ask, ... *)
Theorem C140_loads :
  forall Sec qs k c (b b' : beam_t R Sec) ls, any_argsort qs -> Forall2 (heavier k c) b b' -> has_lengths b ls ->
  forall position mp a, designates a [k] ->
  (exists e, beam_get_loads qs b c position mp a = Err e /\ beam_get_loads qs b' c position mp a = Err e) \/
  (beam_get_loads qs b c position mp a = Ok None /\ beam_get_loads qs b' c position mp a = Ok None) \/
  (exists out out', beam_get_loads qs b c position mp a = Ok (Some out) /\
     beam_get_loads qs b' c position mp a = Ok (Some out') /\ below out out').
Proof. exact @C140_sum. Qed.
Print Assumptions C140_loads.

(** ... the utilisation without positions, ... *)
Theorem C140_utilisation :
  forall qs phi phi' au kt au' kt' c b b' s s' a a' ls, any_argsort qs -> 0 < phi' <= phi ->
  Forall2 (heavier N c) b b' -> Forall2 (weaker_bar kt au kt' au') b b' -> has_lengths b ls -> b <> [] ->
  make_as4100 phi au kt (Some b) s = Ok a -> make_as4100 phi' au' kt' (Some b') s' = Ok a' ->
  forall n n' u u', (0 <= n)%Z -> (0 <= n')%Z ->
  tension_utilisation qs (set_assessment_points a n) (LCInt c) PosNone = Ok u ->
  tension_utilisation qs (set_assessment_points a' n') (LCInt c) PosNone = Ok u' -> u <= u'.
Proof. exact C140_everywhere. Qed.
Print Assumptions C140_utilisation.

(** ... and at given positions. *)
Theorem C140_utilisation_at :
  forall qs phi phi' au kt au' kt' c b b' s s' a a' ls, any_argsort qs -> 0 < phi' <= phi ->
  Forall2 (heavier N c) b b' -> Forall2 (weaker_bar kt au kt' au') b b' -> has_lengths b ls -> b <> [] ->
  make_as4100 phi au kt (Some b) s = Ok a -> make_as4100 phi' au' kt' (Some b') s' = Ok a' ->
  forall position ps u u', requested position ps -> Forall (fun p => 0 <= p <= span ls) ps ->
  tension_utilisation qs a (LCInt c) position = Ok u -> tension_utilisation qs a' (LCInt c) position = Ok u' -> u <= u'.
Proof. exact C140_at. Qed.
Print Assumptions C140_utilisation_at.

Example C140_case : Forall2 (heavier N 7) tie_beam tie_heavy /\ Forall2 (weaker_bar 1 (85 / 100) 1 (85 / 100)) tie_beam tie_heavy
  /\ has_lengths tie_beam [2; 4]
  /\ make_as4100 (9 / 10) (85 / 100) 1 (Some tie_heavy) None = Ok (tie_check tie_heavy [thin; thin])
  /\ exists u u',
     tension_utilisation stable_argsort (set_assessment_points (tie_check tie_beam [thick; thin]) 5) (LCInt 7) PosNone = Ok u
     /\ tension_utilisation stable_argsort (set_assessment_points (tie_check tie_heavy [thin; thin]) 9) (LCInt 7) PosNone = Ok u'.
Proof.
  split; [apply tie_heavier|]. split; [apply tie_weaker|]. split; [apply tie_beam_lengths|]. split; [apply tie_heavy_made|].
  destruct (ties_answer stable_argsort tie_beam _ [2; 4] 5 stable_argsort_ok tie_beam_ties ltac:(discriminate) tie_beam_lengths tie_beam_made ltac:(lia)) as (u & Eu).
  destruct (ties_answer stable_argsort tie_heavy _ [2; 4] 9 stable_argsort_ok tie_heavy_ties ltac:(discriminate) tie_heavy_lengths tie_heavy_made ltac:(lia)) as (u' & Eu').
  exists u, u'. auto.
Qed.
