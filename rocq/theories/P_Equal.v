(** C105 and C111: equal materials, and what a change of sections or loads leaves alone. *)

From Coq Require Import ZArith Reals List Bool String.
From Verif Require Import Base Num RNum PyNum OrdFacts Numpy LoadCase Beam BeamCases Material AS4100 AS4100Cases
  MatSpec Frame MatEq EqualCases.
Import ListNotations.
Open Scope R_scope.

(** C105: [==] of materials is an equivalence, with exact numbers and with doubles. *)
Theorem C105_equivalence :
  (forall m : material R, mat_ok Rok m -> mat_eqb m m = true)
  /\ (forall m m' : material R, mat_ok Rok m -> mat_ok Rok m' ->
        mat_eqb m m' = true -> mat_eqb m' m = true)
  /\ (forall m m' m'' : material R, mat_ok Rok m -> mat_ok Rok m' -> mat_ok Rok m'' ->
        mat_eqb m m' = true -> mat_eqb m' m'' = true -> mat_eqb m m'' = true).
Proof. exact mat_equivalence. Qed.
Print Assumptions C105_equivalence.

Theorem C105_equivalence_doubles :
  (forall m : material pynum, mat_ok Pok m -> mat_eqb m m = true)
  /\ (forall m m' : material pynum, mat_ok Pok m -> mat_ok Pok m' ->
        mat_eqb m m' = true -> mat_eqb m' m = true)
  /\ (forall m m' m'' : material pynum, mat_ok Pok m -> mat_ok Pok m' -> mat_ok Pok m'' ->
        mat_eqb m m' = true -> mat_eqb m' m'' = true -> mat_eqb m m'' = true).
Proof. exact mat_equivalence. Qed.
Print Assumptions C105_equivalence_doubles.

(** Equal means: same type, name and standard, and every property the same. *)
Theorem C105_meaning :
  forall m m' : material R, mat_ok Rok m -> mat_ok Rok m' ->
  mat_eqb m m' = true <->
  mtype m = mtype m' /\ mname m = mname m' /\ mstandard m = mstandard m'
  /\ forall k, sget k (mprops m) = sget k (mprops m').
Proof. exact mat_eqb_R. Qed.
Print Assumptions C105_meaning.

Example C105_material_case :
  mat_ok Rok (steel250 true) /\ mat_ok Rok (steel250 false)
  /\ mat_eqb (steel250 true) (steel250 false) = true /\ steel250 true <> steel250 false.
Proof. exact (conj (steel250_ok true) (conj (steel250_ok false) steel250_equal)). Qed.

(** Replacing materials by equal ones changes neither whether a check can be made nor any
    capacity or utilisation. *)
Theorem C105_interchangeable_accepted :
  forall phi au kt b b' s s',
  Forall2 (fun e e' => same_frame e e' /\ alike (esection e) (esection e')) b b' ->
  (exists a, make_as4100 phi au kt (Some b) s = Ok a)
  <-> (exists a', make_as4100 phi au kt (Some b') s' = Ok a').
Proof. exact alike_accepted. Qed.
Print Assumptions C105_interchangeable_accepted.

Theorem C105_interchangeable :
  forall phi au kt b b' s s' a a',
  Forall2 (fun e e' => same_frame e e' /\ alike (esection e) (esection e')) b b' ->
  make_as4100 phi au kt (Some b) s = Ok a -> make_as4100 phi au kt (Some b') s' = Ok a' ->
  forall qs lc position,
  tension_capacity a' position = tension_capacity a position
  /\ tension_utilisation qs a' lc position = tension_utilisation qs a lc position.
Proof. exact alike_results. Qed.
Print Assumptions C105_interchangeable.

Example C105_interchangeable_case :
  Forall2 (fun e e' => same_frame e e' /\ alike (esection e) (esection e')) (bars true) (bars false)
  /\ bars true <> bars false
  /\ exists a, make_as4100 (9 / 10) (85 / 100) 1 (Some (bars true)) None = Ok a.
Proof. exact bars_case. Qed.

(** The materials shipped with the package can be compared, and are equal under the same name
    only. *)
Theorem C105_shipped :
  forall n m n' m',
  load_material (T := pynum) material_toml n = Ok m ->
  load_material (T := pynum) material_toml n' = Ok m' ->
  mat_ok Pok m /\ (mat_eqb m m' = true <-> n = n').
Proof. exact shipped_compared. Qed.
Print Assumptions C105_shipped.

(** C111: positions and loads do not depend on the sections ... *)
Theorem C111_loads_ignore_sections :
  forall (T : Type) (NT : Num T) (S S' : Type) (b : beam_t T S) (b' : beam_t T S'),
  Forall2 same_frame b b' ->
  beam_length b' = beam_length b /\ element_ends b' = element_ends b
  /\ beam_load_cases b' = beam_load_cases b
  /\ (forall p, in_elements b' p = in_elements b p)
  /\ (forall position mp lc, beam_list_positions b' position mp lc = beam_list_positions b position mp lc)
  /\ forall qs lc position mp comp,
     beam_get_loads qs b' lc position mp comp = beam_get_loads qs b lc position mp comp.
Proof. exact @fr_all. Qed.
Print Assumptions C111_loads_ignore_sections.

Example C111_sections_case : Forall2 same_frame rod_beam (map bare rod_beam).
Proof. exact bare_frame. Qed.

(** ... and capacities do not depend on the loads. *)
Theorem C111_capacity_ignores_loads :
  forall (T : Type) (NT : Num T) phi au kt (b b' : beam_t T (section T)) s s' a a',
  Forall2 (fun e e' => elength e' = elength e /\ esection e' = esection e) b b' ->
  make_as4100 phi au kt (Some b) s = Ok a -> make_as4100 phi au kt (Some b') s' = Ok a' ->
  forall position,
  Nty a' position = Nty a position /\ Ntu a' position = Ntu a position
  /\ tension_capacity a' position = tension_capacity a position.
Proof. exact @ln_capacity. Qed.
Print Assumptions C111_capacity_ignores_loads.

Example C111_capacity_case :
  Forall2 (fun e e' => elength e' = elength e /\ esection e' = esection e) rod_beam (map idle rod_beam)
  /\ (exists a, make_as4100 (9 / 10) (85 / 100) 1 (Some rod_beam) None = Ok a
        /\ exists c, tension_capacity a (PosNum 1) = Ok c /\ 0 < c)
  /\ exists a', make_as4100 (9 / 10) (85 / 100) 1 (Some (map idle rod_beam)) None = Ok a'.
Proof. exact idle_case. Qed.
