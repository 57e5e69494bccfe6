(** C137-C139: a load case is replaced by a table of its own answers, the tables of a beam by
    equivalent ones, and a load case is a factored sum of two others.  The vocabulary is
    TabulateSpec.v, LoadSpec.v, BeamSpec.v, PeakSpec.v and AS4100Spec.v; exact arithmetic. *)

From Coq Require Import ZArith Reals List Bool String Lra Lia.
From Verif Require Import Base Num RNum Numpy LoadCase LoadSpec LoadProofs Beam BeamSpec Material AS4100 AS4100Spec
  AS4100Cases PeakSpec SameUtil PeakCases TabulateSpec Tabulate Combine TabulateCases.
Import ListNotations.
Open Scope R_scope.

(** C137: the answer of a query with a minimum number of positions is itself a load case ... *)
Theorem C137_tabulated :
  forall qs rows n, any_argsort qs -> accepted (Some rows) -> rows <> [] -> (0 <= n)%Z ->
  exists out rows', get_load qs (Some rows) PosNone (Some n) CNone = Ok (Some out) /\ reads_as out rows' /\
    load_case (InRows (map seven rows')) = Ok (Some rows') /\ same_answers (Some rows) (Some rows') /\
    forall qs', any_argsort qs' -> get_load qs' (Some rows') PosNone (Some n) CNone = Ok (Some out).
Proof. exact C137_min. Qed.
Print Assumptions C137_tabulated.

(** ... and so is the answer at any positions of the element. *)
Theorem C137_sampled :
  forall qs rows ps, any_argsort qs -> accepted (Some rows) -> rows <> [] -> ps <> [] ->
  Forall (fun p => 0 <= p <= 1) ps ->
  exists out rows', get_load qs (Some rows) (PosList ps) None CNone = Ok (Some out) /\ reads_as out rows' /\
    load_case (InRows (map seven rows')) = Ok (Some rows') /\
    (forall qs' p a cs, any_argsort qs' -> In p ps -> designates a cs -> cs <> [] ->
      get_load qs' (Some rows') (PosNum p) None a = get_load qs' (Some rows) (PosNum p) None a) /\
    ((forall r, In r rows -> In (lpos r) ps) -> same_answers (Some rows) (Some rows')).
Proof. exact C137_list. Qed.
Print Assumptions C137_sampled.

(** A table with jumps; and a table with a row at a quarter left out or written down. *)
Example C137_case : accepted (Some tab4) /\ tab4 <> [] /\ List.length tab4 = 4%nat
  /\ finer <> pull 2 6 /\ same_answers (Some (pull 2 6)) (Some finer)
  /\ forall r, In r (pull 2 6) -> In (lpos r) (map lpos finer).
Proof.
  split; [exact tab4_accepted|]. split; [discriminate|]. split; [reflexivity|]. split; [discriminate|].
  split; [exact finer_same|]. intros r [<-|[<-|[]]]; cbn; auto.
Qed.

(** C138. *)
Theorem C138_loads :
  forall Sec qs c a cs (b b' : beam_t R Sec) ls, any_argsort qs -> designates a cs -> cs <> [] ->
  Forall2 (retabulated c) b b' -> has_lengths b ls -> forall position ps, requested position ps ->
  beam_get_loads qs b' c position None a = beam_get_loads qs b c position None a.
Proof. exact @C138_explicit. Qed.
Print Assumptions C138_loads.

Theorem C138_utilisation :
  forall qs phi au kt c, any_argsort qs -> 0 < phi ->
  forall b b' s s' a a' ls, Forall2 (retabulated c) b b' -> has_lengths b ls -> b <> [] -> loaded b c ->
  sound_bars kt au b -> make_as4100 phi au kt (Some b) s = Ok a -> make_as4100 phi au kt (Some b') s' = Ok a' ->
  forall n n' u u',
  (0 <= n)%Z /\ tension_utilisation qs (set_assessment_points a n) (LCInt c) PosNone = Ok u ->
  (0 <= n')%Z /\ tension_utilisation qs (set_assessment_points a' n') (LCInt c) PosNone = Ok u' -> u = u'.
Proof. exact C138_util. Qed.
Print Assumptions C138_utilisation.

Example C138_case : Forall2 (retabulated 7) tie_beam tie_finer /\ has_lengths tie_beam [2; 4] /\ loaded tie_beam 7
  /\ sound_bars 1 (85 / 100) tie_beam
  /\ exists u u',
     tension_utilisation stable_argsort (set_assessment_points (tie_check tie_beam [thick; thin]) 5) (LCInt 7) PosNone = Ok u
     /\ tension_utilisation stable_argsort (set_assessment_points (tie_check tie_finer [thick; thin]) 9) (LCInt 7) PosNone = Ok u'.
Proof.
  split; [apply tie_retabulated|]. split; [apply tie_beam_lengths|]. split; [apply ties_loaded, tie_beam_ties|].
  split; [apply ties_bars, tie_beam_ties|].
  destruct (ties_answer stable_argsort tie_beam _ [2; 4] 5 stable_argsort_ok tie_beam_ties ltac:(discriminate) tie_beam_lengths tie_beam_made ltac:(lia)) as (u & Eu).
  destruct (tie_finer_answer stable_argsort 9 stable_argsort_ok ltac:(lia)) as (u' & Eu'). exists u, u'. auto.
Qed.

(** C139: the loads of the factored sum, for every way to ask, ... *)
Theorem C139_loads :
  forall Sec qs k1 k2 c1 c2 c3 (b : beam_t R Sec) ls, any_argsort qs -> Forall (combined k1 k2 c1 c2 c3) b ->
  has_lengths b ls -> forall position mp a cs, designates a cs -> cs <> [] ->
  (exists e, beam_get_loads qs b c1 position mp a = Err e /\ beam_get_loads qs b c2 position mp a = Err e /\
     beam_get_loads qs b c3 position mp a = Err e) \/
  (beam_get_loads qs b c1 position mp a = Ok None /\ beam_get_loads qs b c2 position mp a = Ok None /\
     beam_get_loads qs b c3 position mp a = Ok None) \/
  (exists out1 out2, beam_get_loads qs b c1 position mp a = Ok (Some out1) /\
     beam_get_loads qs b c2 position mp a = Ok (Some out2) /\ map fst out1 = map fst out2 /\
     beam_get_loads qs b c3 position mp a = Ok (Some (combine_results k1 k2 out1 out2))).
Proof. exact @C139_sum. Qed.
Print Assumptions C139_loads.

(** ... the utilisation without positions, ... *)
Theorem C139_utilisation :
  forall qs phi au kt k1 k2 c1 c2 c3 b s a ls cap,
  any_argsort qs -> make_as4100 phi au kt (Some b) s = Ok a -> 0 <= phi -> has_lengths b ls -> b <> [] ->
  Forall (combined k1 k2 c1 c2 c3) b -> 0 <= k1 -> 0 <= k2 ->
  (forall p, 0 <= p <= span ls -> phiNt a (PosNum p) = Ok (cap p) /\ 0 < cap p) ->
  forall n1 n2 n3 u1 u2 u3, (0 <= n1)%Z -> (0 <= n2)%Z -> (0 <= n3)%Z ->
  tension_utilisation qs (set_assessment_points a n1) (LCInt c1) PosNone = Ok u1 ->
  tension_utilisation qs (set_assessment_points a n2) (LCInt c2) PosNone = Ok u2 ->
  tension_utilisation qs (set_assessment_points a n3) (LCInt c3) PosNone = Ok u3 -> u3 <= k1 * u1 + k2 * u2.
Proof. exact C139_everywhere. Qed.
Print Assumptions C139_utilisation.

(** ... and at given positions. *)
Theorem C139_utilisation_at :
  forall qs phi au kt k1 k2 c1 c2 c3 b s a ls cap,
  any_argsort qs -> make_as4100 phi au kt (Some b) s = Ok a -> 0 <= phi -> has_lengths b ls -> b <> [] ->
  Forall (combined k1 k2 c1 c2 c3) b -> 0 <= k1 -> 0 <= k2 ->
  (forall p, 0 <= p <= span ls -> phiNt a (PosNum p) = Ok (cap p) /\ 0 < cap p) ->
  forall position ps u1 u2 u3, requested position ps -> Forall (fun p => 0 <= p <= span ls) ps ->
  tension_utilisation qs a (LCInt c1) position = Ok u1 -> tension_utilisation qs a (LCInt c2) position = Ok u2 ->
  tension_utilisation qs a (LCInt c3) position = Ok u3 -> u3 <= k1 * u1 + k2 * u2.
Proof. exact C139_at. Qed.
Print Assumptions C139_utilisation_at.

Example C139_case : Forall (combined (12 / 10) (15 / 10) 1 2 3) frame /\ has_lengths frame [2; 4]
  /\ make_as4100 (9 / 10) (85 / 100) 1 (Some frame) None = Ok frame_check
  /\ (forall p, 0 <= p <= span [2; 4] -> phiNt frame_check (PosNum p) = Ok (cap_of frame_check p) /\ 0 < cap_of frame_check p)
  /\ forall c, In c [1%Z; 2%Z; 3%Z] -> exists u,
     tension_utilisation stable_argsort (set_assessment_points frame_check 5) (LCInt c) PosNone = Ok u.
Proof.
  split; [apply frame_combined|]. split; [apply frame_lengths|]. split; [apply frame_made|].
  split; [intros p P; destruct (frame_caps p P) as (A & B & _); auto|].
  intros c Ic. apply frame_answer; auto using stable_argsort_ok. lia.
Qed.
