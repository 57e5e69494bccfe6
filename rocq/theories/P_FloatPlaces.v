(** C131-C134: the accuracy on IEEE doubles of element ends, of positions along a beam, of the loads
    reported there, and of the tension check against the stored loads.  The vocabulary is
    FloatPlaceSpec.v; exact lengths and ends are those of BeamSpec.v. *)

From Coq Require Import ZArith Reals List Bool String Floats.SpecFloat.
From Verif Require Import Base Num PyNum Numpy LoadCase LoadSpec LoadProofs Beam BeamSpec BeamCases Material AS4100 AS4100Spec AS4100Cases
  FloatSpec FloatValSpec FloatPlaceSpec FloatUtilSpec FloatPlaces FloatLoads FloatEnd FloatCases FloatDesignCases FloatPlaceCases.
Import ListNotations.
Open Scope R_scope.

(** C131: computed ends and length are the exact ones, up to one rounding an element. *)
Theorem C131_floats_ends :
  forall Sec (b : beam_t pynum Sec) ls, ordinary_beam b ls -> exists ends total,
  element_ends b = Ok ends /\ beam_length b = Ok total /\ List.length ends = List.length ls /\
  finite_double total /\ within (S (List.length ls)) (span (exact_lengths ls)) (val total) (span (exact_lengths ls)) /\
  forall i s, nth_error ends i = Some s -> exists e, snd s = Some e /\ finite_double (fst s) /\ finite_double e /\
    within (S i) (start_of (exact_lengths ls) i) (val (fst s)) (start_of (exact_lengths ls) i) /\
    within (S (S i)) (end_of (exact_lengths ls) i) (val e) (end_of (exact_lengths ls) i).
Proof. exact @C131_ends_lemma. Qed.
Print Assumptions C131_floats_ends.

Example C131_case : ordinary_beam fl_beam [fl 1 10; fl 2 10] /\ element_ends fl_beam = Ok short_ends /\ beam_length fl_beam = Ok fl_length.
Proof. split; [exact short_ordinary|]. split; vm_compute; reflexivity. Qed.

(** C132: a local position is where the beam position is on the exact beam. *)
Theorem C132_floats_beam_to_local :
  forall Sec (b : beam_t pynum Sec) ls p e i x, ordinary_beam b ls -> designated (List.length b) e i ->
  finite_double p -> beam_to_local b p e = Ok x -> unit_double x /\ place ls i (val x) (val p).
Proof. exact @C132_local_lemma. Qed.
Print Assumptions C132_floats_beam_to_local.

(** A position along the beam is where the local position is on the exact beam. *)
Theorem C132_floats_local_to_beam :
  forall Sec (b : beam_t pynum Sec) ls x e i, ordinary_beam b ls -> designated (List.length b) e i ->
  unit_double x -> exists p, local_to_beam b x e = Ok p /\ finite_double p /\
    Rabs (val p - (start_of (exact_lengths ls) i + val x * nth i (exact_lengths ls) 0))
      <= INR (i + 4) * powerRZ 2 (-53) * end_of (exact_lengths ls) i + powerRZ 2 (-1074).
Proof. exact @C132_beam_lemma. Qed.
Print Assumptions C132_floats_local_to_beam.

(** There and back. *)
Theorem C132_floats_round_trip :
  forall Sec (b : beam_t pynum Sec) ls p e i x, ordinary_beam b ls -> designated (List.length b) e i ->
  finite_double p -> beam_to_local b p e = Ok x -> exists q, local_to_beam b x e = Ok q /\ finite_double q /\
    Rabs (val q - val p) <= INR (2 * i + 8) * powerRZ 2 (-53) * end_of (exact_lengths ls) i + powerRZ 2 (-1074).
Proof. exact @C132_round_trip_lemma. Qed.
Print Assumptions C132_floats_round_trip.

Example C132_case : ordinary_beam fl_beam [fl 1 10; fl 2 10] /\ designated (List.length fl_beam) (-1) 1 /\ finite_double (fl 2 10) /\
  beam_to_local fl_beam (fl 2 10) (-1) = Ok (fl 1 2) /\ unit_double (fl 1 2).
Proof.
  split; [exact short_ordinary|]. split; [vm_compute; auto|]. split; [a_finite|]. split; [vm_compute; reflexivity|].
  split; [a_finite|split; vm_compute; reflexivity].
Qed.

(** C133: a reported load is that of some element's table, on the exact line, where the position is. *)
Theorem C133_floats_loads :
  forall Sec qs Y (b : beam_t pynum Sec) ls c position ps a cs out, any_argsort qs ->
  ordinary_beam b ls -> ordinary_loads Y b c -> asked position ps -> Forall finite_double ps -> designates a cs -> cs <> [] ->
  beam_get_loads qs b c position None a = Ok (Some out) ->
  Forall (fun o => In (fst o) ps /\ sound_row Y b ls c cs o) out.
Proof. exact @C133_lemma. Qed.
Print Assumptions C133_floats_loads.

(** The same for a least number of positions. *)
Theorem C133_floats_min_loads :
  forall Sec qs Y (b : beam_t pynum Sec) ls c n a cs out, any_argsort qs ->
  ordinary_beam b ls -> ordinary_loads Y b c -> (0 <= n <= 2 ^ 52)%Z -> designates a cs -> cs <> [] ->
  beam_get_loads qs b c PosNone (Some n) a = Ok (Some out) ->
  Forall (fun o => finite_double (fst o) /\ sound_row Y b ls c cs o) out.
Proof. exact @C133_min_lemma. Qed.
Print Assumptions C133_floats_min_loads.

(** No load is left out: each load that an element reaching [p] has there is reported. *)
Theorem C133_floats_all_loads :
  forall Sec qs Y (b : beam_t pynum Sec) ls c p a k out i, any_argsort qs ->
  ordinary_beam b ls -> ordinary_loads Y b c -> finite_double p -> designates a [k] ->
  beam_get_loads qs b c (PosNum p) None a = Ok (Some out) -> extends b i p ->
  exists x, finite_double x /\ (exists y, load_there b ls c k p i (val x) y) /\
    forall y, load_there b ls c k p i (val x) y ->
    exists v, In (p, [Some v]) out /\ finite_double v /\ Rabs (val v - y) <= powerRZ 2 (-49) * Y + powerRZ 2 (-1073).
Proof. exact @C133_all_lemma. Qed.
Print Assumptions C133_floats_all_loads.

Example C133_case : ordinary_beam fl_beam [fl 1 10; fl 2 10] /\ ordinary_loads 6 fl_beam 7 /\
  Forall finite_double [fl 1 10; fl 5 100] /\ designates (CStr "VX") [VX] /\
  (exists out, beam_get_loads stable_argsort fl_beam 7 (PosList [fl 1 10; fl 5 100]) None (CStr "VX") = Ok (Some out) /\ (3 <= List.length out)%nat) /\
  (exists out, beam_get_loads stable_argsort fl_beam 7 (PosNum (fl 1 10)) None (CStr "VX") = Ok (Some out)) /\
  extends fl_beam 0 (fl 1 10) /\ extends fl_beam 1 (fl 1 10) /\
  (exists out, beam_get_loads stable_argsort step_beam 7 PosNone (Some 5%Z) (CStr "VX") = Ok (Some out)).
Proof.
  split; [exact short_ordinary|]. split; [exact short_loads|].
  split; [constructor; [a_finite|constructor; [a_finite|constructor]]|]. split; [apply (d_name VX)|].
  split; [eexists; split; [vm_compute; reflexivity|cbn; auto with arith]|]. split; [eexists; vm_compute; reflexivity|].
  split; [exists short_ends, (fl 0 1), (fl 1 10); repeat split; vm_compute; reflexivity|].
  split; [exists short_ends, (fl 1 10), fl_length; repeat split; vm_compute; reflexivity|].
  eexists. vm_compute. reflexivity.
Qed.

(** C134: the tension utilisation of a bar against the loads stored in its tables. *)
Theorem C134_floats_stored_loads :
  forall qs phi au kt b s a lc cs position ps C ls Y, any_argsort qs -> make_as4100 phi au kt (Some b) s = Ok a ->
  wanted b lc cs -> looked_double b (assessment_points a) position cs ps -> cs <> [] -> ps <> [] ->
  moderate phi -> moderate kt -> moderate au ->
  (forall p, In p ps -> exists at_p ss, beam_get_section b (PosNum p) None None = Ok (at_p, ss) /\
     least (C p) (bar_capacities kt au ss) /\
     forall x, In x ss -> exists r m fy fu, x = Some (SCircle r (Some m)) /\ min_fy (mk_as r m) = Ok fy /\
       min_fu (mk_as r m) = Ok fu /\ moderate r /\ moderate fy /\ moderate fu) ->
  (forall l p, In l cs -> In p ps -> exists rows, beam_get_loads qs b l (PosNum p) None (CStr "N") = Ok (Some rows) /\ rows <> [] /\
     Forall (fun o => exists n, snd o = [Some n] /\ finite_double n /\
       (val n <= 0 \/ powerRZ 2 (-12) <= val n / (val phi * C p) <= powerRZ 2 19)) rows) ->
  ordinary_beam b ls -> (forall l, In l cs -> ordinary_loads Y b l) -> Forall finite_double ps ->
  exists u, tension_utilisation qs a lc position = Ok u /\ finite_double u /\
    (exists l p i x y, In l cs /\ In p ps /\ load_there b ls l N p i x y /\
       Rabs (val u - Rmax y 0 / (val phi * C p)) <= (powerRZ 2 (-47) * Y + powerRZ 2 (-1072)) / (val phi * C p)) /\
    (forall l p i, In l cs -> In p ps -> extends b i p -> exists x, (exists y, load_there b ls l N p i x y) /\
       forall y, load_there b ls l N p i x y ->
       Rmax y 0 / (val phi * C p) <= val u * (1 + powerRZ 2 (-47)) + (powerRZ 2 (-49) * Y + powerRZ 2 (-1073)) / (val phi * C p)).
Proof. exact C134_lemma. Qed.
Print Assumptions C134_floats_stored_loads.

Example C134_case : default_as4100 (Some (bar_beam (fl 3 1) pull)) None = Ok (bar_check (fl 3 1) pull)
  /\ wanted (bar_beam (fl 3 1) pull) LCNone [1%Z; 2%Z]
  /\ looked_double (bar_beam (fl 3 1) pull) 20 (PosList bar_points) [1%Z; 2%Z] bar_points
  /\ (forall p, In p bar_points -> exists at_p ss, beam_get_section (bar_beam (fl 3 1) pull) (PosNum p) None None = Ok (at_p, ss) /\
     least (bar_exact p) (bar_capacities (fl 100 100) (fl 85 100) ss) /\
     forall x, In x ss -> exists r m fy fu, x = Some (SCircle r (Some m)) /\ min_fy (mk_as r m) = Ok fy /\
       min_fu (mk_as r m) = Ok fu /\ moderate r /\ moderate fy /\ moderate fu)
  /\ (forall l p, In l [1%Z; 2%Z] -> In p bar_points -> exists rows,
     beam_get_loads stable_argsort (bar_beam (fl 3 1) pull) l (PosNum p) None (CStr "N") = Ok (Some rows) /\ rows <> [] /\
     Forall (fun o => exists n, snd o = [Some n] /\ finite_double n /\
       (val n <= 0 \/ powerRZ 2 (-12) <= val n / (val (fl 90 100) * bar_exact p) <= powerRZ 2 19)) rows)
  /\ ordinary_beam (bar_beam (fl 3 1) pull) [fl 3 1]
  /\ (forall l, In l [1%Z; 2%Z] -> ordinary_loads 100000 (bar_beam (fl 3 1) pull) l)
  /\ Forall finite_double bar_points /\ (forall p, In p bar_points -> extends (bar_beam (fl 3 1) pull) 0 p).
Proof.
  destruct bar_cap_case as (A & B & C & _). destruct bar_exact_case as (D & E).
  exact (conj A (conj B (conj C (conj D (conj E (conj bar_ordinary (conj bar_loads (conj bar_finite bar_extends)))))))).
Qed.
