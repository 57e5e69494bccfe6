(** C115-C117: capacities and utilisations computed on IEEE doubles against exact arithmetic.  The
    vocabulary is FloatValSpec.v, FloatUtilSpec.v and AS4100Spec.v. *)

From Coq Require Import ZArith Reals List String.
From Verif Require Import Base Num PyNum Numpy LoadCase LoadProofs Beam Material AS4100 AS4100Spec AS4100Cases
  FloatSpec FloatValSpec FloatUtilSpec FloatCheck FloatCapacity FloatDesign FloatDesignCases.
Import ListNotations.
Open Scope R_scope.

(** C115: the utilisation exists and is within 2^-49 of the greatest exact quotient of a reported
    axial load and the reported capacity. *)
Theorem C115_floats_utilisation :
  forall qs phi au kt b s a lc cs position ps cap,
  make_as4100 phi au kt (Some b) s = Ok a ->
  wanted b lc cs -> looked_double b (assessment_points a) position cs ps -> cs <> [] -> ps <> [] ->
  (forall p, In p ps -> tension_capacity a (PosNum p) = Ok (cap p) /\ finite_double (cap p) /\
     powerRZ 2 (-500) <= val (cap p) <= powerRZ 2 500) ->
  (forall l p, In l cs -> In p ps -> moderate_loads qs b (cap p) l p) ->
  exists u g, tension_utilisation qs a lc position = Ok u /\ finite_double u /\
    greatest g (ratio_double qs b cap cs ps) /\ Rabs (val u - g) <= powerRZ 2 (-49) * g.
Proof. exact util_about. Qed.
Print Assumptions C115_floats_utilisation.

Example C115_case : default_as4100 (Some (bar_beam (fl 3 1) pull)) None = Ok (bar_check (fl 3 1) pull)
  /\ wanted (bar_beam (fl 3 1) pull) LCNone [1%Z; 2%Z]
  /\ looked_double (bar_beam (fl 3 1) pull) 20 (PosList bar_points) [1%Z; 2%Z] bar_points
  /\ (forall p, In p bar_points -> tension_capacity (bar_check (fl 3 1) pull) (PosNum p) = Ok (bar_cap p) /\ finite_double (bar_cap p) /\
     powerRZ 2 (-500) <= val (bar_cap p) <= powerRZ 2 500)
  /\ (forall l p, In l [1%Z; 2%Z] -> In p bar_points -> moderate_loads stable_argsort (bar_beam (fl 3 1) pull) (bar_cap p) l p).
Proof. exact bar_cap_case. Qed.

(** C116: the design capacity is within 2^-50 of phi times the least exact capacity of the sections
    considered (exact pi, exact products). *)
Theorem C116_floats_capacity :
  forall phi au kt b s a position ss,
  make_as4100 phi au kt b s = Ok a -> assessed b s position ss -> ss <> [] ->
  moderate phi -> moderate kt -> moderate au ->
  (forall x, In x ss -> exists r m fy fu, x = Some (SCircle r (Some m)) /\ min_fy (mk_as r m) = Ok fy /\
     min_fu (mk_as r m) = Ok fu /\ moderate r /\ moderate fy /\ moderate fu) ->
  exists n c, phiNt a position = Ok n /\ finite_double n /\ least c (bar_capacities kt au ss) /\
    Rabs (val n - val phi * c) <= powerRZ 2 (-50) * (val phi * c).
Proof. exact phiNt_close. Qed.
Print Assumptions C116_floats_capacity.

Example C116_case :
  (forall p, In p bar_points -> exists at_p, beam_get_section (bar_beam (fl 3 1) pull) (PosNum p) None None = Ok (at_p, [Some bar20]))
  /\ moderate (fl 90 100) /\ moderate (fl 100 100) /\ moderate (fl 85 100)
  /\ (forall x, In x [Some bar20] -> exists r m fy fu, x = Some (SCircle r (Some m)) /\ min_fy (mk_as r m) = Ok fy /\
       min_fu (mk_as r m) = Ok fu /\ moderate r /\ moderate fy /\ moderate fu).
Proof. exact (conj bar_sections (conj phi_moderate (conj kt_moderate (conj au_moderate bar_moderate_sections)))). Qed.

(** C117: the utilisation is within 2^-48 of the greatest exact quotient of an axial load and the
    exact design capacity. *)
Theorem C117_floats_design :
  forall qs phi au kt b s a lc cs position ps C,
  make_as4100 phi au kt (Some b) s = Ok a ->
  wanted b lc cs -> looked_double b (assessment_points a) position cs ps -> cs <> [] -> ps <> [] ->
  moderate phi -> moderate kt -> moderate au ->
  (forall p, In p ps -> exists at_p ss, beam_get_section b (PosNum p) None None = Ok (at_p, ss) /\
     least (C p) (bar_capacities kt au ss) /\
     forall x, In x ss -> exists r m fy fu, x = Some (SCircle r (Some m)) /\ min_fy (mk_as r m) = Ok fy /\
       min_fu (mk_as r m) = Ok fu /\ moderate r /\ moderate fy /\ moderate fu) ->
  (forall l p, In l cs -> In p ps -> exists rows, beam_get_loads qs b l (PosNum p) None (CStr "N") = Ok (Some rows) /\ rows <> [] /\
     Forall (fun o => exists n, snd o = [Some n] /\ finite_double n /\
       (val n <= 0 \/ powerRZ 2 (-12) <= val n / (val phi * C p) <= powerRZ 2 19)) rows) ->
  exists u g, tension_utilisation qs a lc position = Ok u /\ finite_double u /\
    greatest g (exact_ratio qs b phi C cs ps) /\ Rabs (val u - g) <= powerRZ 2 (-48) * g.
Proof. exact util_exact. Qed.
Print Assumptions C117_floats_design.

Example C117_case :
  (forall p, In p bar_points -> exists at_p ss, beam_get_section (bar_beam (fl 3 1) pull) (PosNum p) None None = Ok (at_p, ss) /\
     least (bar_exact p) (bar_capacities (fl 100 100) (fl 85 100) ss) /\
     forall x, In x ss -> exists r m fy fu, x = Some (SCircle r (Some m)) /\ min_fy (mk_as r m) = Ok fy /\
       min_fu (mk_as r m) = Ok fu /\ moderate r /\ moderate fy /\ moderate fu)
  /\ (forall l p, In l [1%Z; 2%Z] -> In p bar_points -> exists rows,
     beam_get_loads stable_argsort (bar_beam (fl 3 1) pull) l (PosNum p) None (CStr "N") = Ok (Some rows) /\ rows <> [] /\
     Forall (fun o => exists n, snd o = [Some n] /\ finite_double n /\
       (val n <= 0 \/ powerRZ 2 (-12) <= val n / (val (fl 90 100) * bar_exact p) <= powerRZ 2 19)) rows).
Proof. exact bar_exact_case. Qed.
