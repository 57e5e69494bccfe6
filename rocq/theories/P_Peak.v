(** C102-C104: no extreme is missed between the reported positions, and the utilisation
    does not depend on how a beam is described.  The vocabulary is PeakSpec.v,
    TransformSpec.v, AS4100Spec.v and BeamSpec.v; exact arithmetic. *)

From Coq Require Import ZArith Reals List Bool String Lra Lia.
From Verif Require Import Base Num RNum Numpy LoadCase LoadSpec LoadProofs Beam BeamSpec BeamFacts BeamCases
  TransformSpec BeamMirror Material AS4100 AS4100Spec AS4100Cases PeakSpec Peak SameUtil PeakCases.
Import ListNotations.
Open Scope R_scope.

(** C102. *)
Theorem C102_nothing_between_is_more_extreme :
  forall Sec qs (b : beam_t R Sec) ls c n comp cs p i v, any_argsort qs -> has_lengths b ls -> b <> [] ->
  loaded b c -> designates comp cs -> cs <> [] -> (0 <= n)%Z ->
  shows qs b c (PosNum p) None comp i v ->
  exists lo hi, shows qs b c PosNone (Some n) comp i lo /\ shows qs b c PosNone (Some n) comp i hi /\ lo <= v <= hi.
Proof. exact @C102_loads. Qed.
Print Assumptions C102_nothing_between_is_more_extreme.

Theorem C102_every_reported_value_occurs :
  forall Sec qs (b : beam_t R Sec) ls c n comp cs i v, any_argsort qs -> has_lengths b ls -> b <> [] ->
  loaded b c -> designates comp cs -> cs <> [] -> (0 <= n)%Z ->
  shows qs b c PosNone (Some n) comp i v ->
  exists p, 0 <= p <= span ls /\ shows qs b c (PosNum p) None comp i v.
Proof. exact @C102_somewhere. Qed.
Print Assumptions C102_every_reported_value_occurs.

Example C102_case : has_lengths ex_beam ex_lengths /\ ex_beam <> [] /\ loaded ex_beam 7
  /\ designates (CEnum N) [N] /\ has_lengths rod_beam rod_lengths
  /\ shows stable_argsort rod_beam 7 (PosNum 1) None (CStr "N") 0 3.
Proof.
  split; [apply ex_has_lengths|]. split; [discriminate|]. split; [apply ex_loaded|]. split; [constructor|].
  split; [apply rod_has_lengths|].
  destruct (proj2 (rod_axial stable_argsort 3 stable_argsort_ok) (or_intror eq_refl)) as (rows & x & E & I).
  exists rows, (x, [Some 3]). auto.
Qed.

(** C103: the answer without positions, for any number of assessment points. *)
Theorem C103_worst_anywhere :
  forall qs phi au kt b s a ls cap c,
  any_argsort qs -> make_as4100 phi au kt (Some b) s = Ok a -> 0 <= phi -> has_lengths b ls -> b <> [] ->
  loaded b c -> (forall p, 0 <= p <= span ls -> phiNt a (PosNum p) = Ok (cap p) /\ 0 < cap p) ->
  forall n u, (0 <= n)%Z -> tension_utilisation qs (set_assessment_points a n) (LCInt c) PosNone = Ok u ->
  (forall p t, 0 <= p <= span ls -> tension_at qs a c p t -> t / cap p <= u) /\
  (exists p t, 0 <= p <= span ls /\ tension_at qs a c p t /\ u = t / cap p).
Proof. exact C103_worst. Qed.
Print Assumptions C103_worst_anywhere.

Theorem C103_any_number_of_points :
  forall qs phi au kt b s a ls cap c,
  any_argsort qs -> make_as4100 phi au kt (Some b) s = Ok a -> 0 <= phi -> has_lengths b ls -> b <> [] ->
  loaded b c -> (forall p, 0 <= p <= span ls -> phiNt a (PosNum p) = Ok (cap p) /\ 0 < cap p) ->
  forall n m u v, (0 <= n)%Z -> (0 <= m)%Z ->
  tension_utilisation qs (set_assessment_points a n) (LCInt c) PosNone = Ok u ->
  tension_utilisation qs (set_assessment_points a m) (LCInt c) PosNone = Ok v -> u = v.
Proof. exact C103_points. Qed.
Print Assumptions C103_any_number_of_points.

Theorem C103_no_single_position_is_worse :
  forall qs phi au kt b s a ls cap c,
  any_argsort qs -> make_as4100 phi au kt (Some b) s = Ok a -> 0 <= phi -> has_lengths b ls -> b <> [] ->
  loaded b c -> (forall p, 0 <= p <= span ls -> phiNt a (PosNum p) = Ok (cap p) /\ 0 < cap p) ->
  forall n u p v, (0 <= n)%Z -> 0 <= p <= span ls ->
  tension_utilisation qs (set_assessment_points a n) (LCInt c) PosNone = Ok u ->
  tension_utilisation qs a (LCInt c) (PosNum p) = Ok v -> v <= u.
Proof. exact C103_single. Qed.
Print Assumptions C103_no_single_position_is_worse.

Example C103_case :
  make_as4100 (9 / 10) (85 / 100) 1 (Some rod_beam) None = Ok rod_check /\ has_lengths rod_beam rod_lengths
  /\ (forall p, 0 <= p <= 5 -> phiNt rod_check (PosNum p) = Ok (rod_cap p) /\ 0 < rod_cap p)
  /\ make_as4100 (9 / 10) (85 / 100) 1 (Some tie_beam) None = Ok (tie_check tie_beam [thick; thin])
  /\ forall n, (0 <= n)%Z -> exists u,
     tension_utilisation stable_argsort (set_assessment_points (tie_check tie_beam [thick; thin]) n) (LCInt 7) PosNone = Ok u.
Proof.
  split; [apply rod_made|]. split; [apply rod_has_lengths|]. split; [intros p P; exact (proj2 (rod_sound p P))|].
  split; [apply tie_beam_made|]. intros n Pn.
  exact (ties_answer stable_argsort tie_beam _ [2; 4] n stable_argsort_ok tie_beam_ties ltac:(discriminate) tie_beam_lengths tie_beam_made Pn).
Qed.

(** C104: an element cut in two, ... *)
Theorem C104_cutting :
  forall qs phi au kt c, any_argsort qs -> 0 < phi ->
  forall pre post e e1 e2 t l s s' a a' ls,
  0 < t < 1 -> elength e = Some l -> 0 < l -> element_cut c t e e1 e2 ->
  esection e1 = esection e -> esection e2 = esection e ->
  make_as4100 phi au kt (Some (pre ++ e :: post)) s = Ok a ->
  make_as4100 phi au kt (Some (pre ++ e1 :: e2 :: post)) s' = Ok a' ->
  has_lengths (pre ++ e :: post) ls -> loaded (pre ++ e :: post) c -> sound_bars kt au (pre ++ e :: post) ->
  forall n n' u u',
  (0 <= n)%Z /\ tension_utilisation qs (set_assessment_points a n) (LCInt c) PosNone = Ok u ->
  (0 <= n')%Z /\ tension_utilisation qs (set_assessment_points a' n') (LCInt c) PosNone = Ok u' -> u = u'.
Proof. exact cut_utilisation. Qed.
Print Assumptions C104_cutting.

Example C104_cutting_case :
  tie_beam = [tie 2 (1 / 10) 2 4] ++ tie 4 (1 / 20) 2 6 :: []
  /\ element_cut 7 (1 / 4) (tie 4 (1 / 20) 2 6) (tie (1 / 4 * 4) (1 / 20) 2 3) (tie ((1 - 1 / 4) * 4) (1 / 20) 3 6)
  /\ sound_bars 1 (85 / 100) tie_beam
  /\ exists u u',
     tension_utilisation stable_argsort (set_assessment_points (tie_check tie_beam [thick; thin]) 5) (LCInt 7) PosNone = Ok u
     /\ tension_utilisation stable_argsort (set_assessment_points (tie_check tie_cut [thick; thin; thin]) 9) (LCInt 7) PosNone = Ok u'.
Proof.
  split; [reflexivity|]. split; [apply tie_is_cut|]. split; [apply ties_bars, tie_beam_ties|].
  destruct (ties_answer stable_argsort tie_beam _ [2; 4] 5 stable_argsort_ok tie_beam_ties ltac:(discriminate) tie_beam_lengths tie_beam_made ltac:(lia)) as (u & Eu).
  destruct (ties_answer stable_argsort tie_cut _ _ 9 stable_argsort_ok tie_cut_ties ltac:(discriminate) tie_cut_lengths tie_cut_made ltac:(lia)) as (u' & Eu').
  exists u, u'. auto.
Qed.

(** ... two parts joined, ... *)
Theorem C104_joining_left :
  forall qs phi au kt c, any_argsort qs -> 0 < phi ->
  forall b1 b2 l1 l2 s1 s a1 a n1 n u1 u, has_lengths b1 l1 -> has_lengths b2 l2 -> b1 <> [] -> b2 <> [] ->
  make_as4100 phi au kt (Some b1) s1 = Ok a1 -> make_as4100 phi au kt (Some (b1 ++ b2)) s = Ok a ->
  loaded (b1 ++ b2) c -> sound_bars kt au (b1 ++ b2) ->
  (0 <= n1)%Z /\ tension_utilisation qs (set_assessment_points a1 n1) (LCInt c) PosNone = Ok u1 ->
  (0 <= n)%Z /\ tension_utilisation qs (set_assessment_points a n) (LCInt c) PosNone = Ok u -> u1 <= u.
Proof. exact join_part_l. Qed.
Print Assumptions C104_joining_left.

Theorem C104_joining_right :
  forall qs phi au kt c, any_argsort qs -> 0 < phi ->
  forall b1 b2 l1 l2 s2 s a2 a n2 n u2 u, has_lengths b1 l1 -> has_lengths b2 l2 -> b1 <> [] -> b2 <> [] ->
  make_as4100 phi au kt (Some b2) s2 = Ok a2 -> make_as4100 phi au kt (Some (b1 ++ b2)) s = Ok a ->
  loaded (b1 ++ b2) c -> sound_bars kt au (b1 ++ b2) ->
  (0 <= n2)%Z /\ tension_utilisation qs (set_assessment_points a2 n2) (LCInt c) PosNone = Ok u2 ->
  (0 <= n)%Z /\ tension_utilisation qs (set_assessment_points a n) (LCInt c) PosNone = Ok u -> u2 <= u.
Proof. exact join_part_r. Qed.
Print Assumptions C104_joining_right.

Theorem C104_joining_equal_capacities :
  forall qs phi au kt c, any_argsort qs -> 0 < phi ->
  forall b1 b2 l1 l2 s1 s2 s a1 a2 a n1 n2 n u1 u2 u v, has_lengths b1 l1 -> has_lengths b2 l2 -> b1 <> [] -> b2 <> [] ->
  make_as4100 phi au kt (Some b1) s1 = Ok a1 -> make_as4100 phi au kt (Some b2) s2 = Ok a2 ->
  make_as4100 phi au kt (Some (b1 ++ b2)) s = Ok a ->
  loaded (b1 ++ b2) c -> sound_bars kt au (b1 ++ b2) ->
  (0 <= n1)%Z /\ tension_utilisation qs (set_assessment_points a1 n1) (LCInt c) PosNone = Ok u1 ->
  (0 <= n2)%Z /\ tension_utilisation qs (set_assessment_points a2 n2) (LCInt c) PosNone = Ok u2 ->
  (0 <= n)%Z /\ tension_utilisation qs (set_assessment_points a n) (LCInt c) PosNone = Ok u ->
  phiNt a1 (PosNum (span l1)) = Ok v -> phiNt a2 (PosNum 0) = Ok v -> u = Rmax u1 u2.
Proof. exact join_whole. Qed.
Print Assumptions C104_joining_equal_capacities.

(** Two thin bars after a thick one; the joint between the thin ones. *)
Example C104_joining_case :
  tie_cut = ([tie 2 (1 / 10) 2 4] ++ [tie (1 / 4 * 4) (1 / 20) 2 3]) ++ [tie ((1 - 1 / 4) * 4) (1 / 20) 3 6]
  /\ loaded tie_cut 7 /\ sound_bars 1 (85 / 100) tie_cut
  /\ exists v, phiNt (tie_check ([tie 2 (1 / 10) 2 4] ++ [tie (1 / 4 * 4) (1 / 20) 2 3]) [thick; thin]) (PosNum (span [2; 1 / 4 * 4])) = Ok v
     /\ phiNt (tie_check [tie ((1 - 1 / 4) * 4) (1 / 20) 3 6] [thin]) (PosNum 0) = Ok v.
Proof. exact (conj eq_refl (conj (ties_loaded _ tie_cut_ties) (conj (ties_bars _ tie_cut_ties) tie_joint))). Qed.

(** ... and described from the other end. *)
Theorem C104_mirrored :
  forall qs phi au kt c, any_argsort qs -> 0 < phi ->
  forall b ls s s' a a' n n' u u', has_lengths b ls -> b <> [] -> loaded b c -> joints_whole b c ->
  sound_bars kt au b -> make_as4100 phi au kt (Some b) s = Ok a -> make_as4100 phi au kt (Some (mirror_beam b)) s' = Ok a' ->
  (0 <= n)%Z /\ tension_utilisation qs (set_assessment_points a n) (LCInt c) PosNone = Ok u ->
  (0 <= n')%Z /\ tension_utilisation qs (set_assessment_points a' n') (LCInt c) PosNone = Ok u' -> u = u'.
Proof. exact mirror_utilisation. Qed.
Print Assumptions C104_mirrored.

Example C104_mirrored_case :
  joints_whole tie_beam 7 /\ sound_bars 1 (85 / 100) tie_beam
  /\ make_as4100 (9 / 10) (85 / 100) 1 (Some (mirror_beam tie_beam)) None = Ok (tie_check (mirror_beam tie_beam) [thin; thick])
  /\ exists u', tension_utilisation stable_argsort
       (set_assessment_points (tie_check (mirror_beam tie_beam) [thin; thick]) 9) (LCInt 7) PosNone = Ok u'.
Proof.
  split; [apply ties_whole, tie_beam_ties|]. split; [apply ties_bars, tie_beam_ties|]. split; [apply tie_mirror_made|].
  exact (ties_answer stable_argsort _ _ _ 9 stable_argsort_ok tie_mirror_ties ltac:(discriminate)
    (mirror_lengths _ _ tie_beam_lengths) tie_mirror_made ltac:(lia)).
Qed.
