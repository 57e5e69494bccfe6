(** C147: the exceptions of beams and their queries are [BeamError]s; C148: those of code checks are [BeamDesignError]s. *)

From Coq Require Import ZArith Reals List Bool String.
From Verif Require Import Base Num PyNum Numpy LoadCase LoadSpec LoadProofs Beam Material AS4100 AS4100Spec AS4100Cases Exceptions
  ErrorSpec Errors ErrorsCheck ErrorsCases.
Import ListNotations.
Open Scope Z_scope.

(** ** C147 *)

(** Constructing an element or a beam fails only with an [ElementError], whatever is passed. *)
Theorem C147_constructors :
  forall Sec : Type,
  (forall inp : beam_input pynum Sec, refuses_only (fun e => caught_by CElementError e) (beam inp)) /\
  (forall (loads : list (Z * lcase pynum)) len (s : option Sec), refuses_only (fun e => e = ElementLengthError) (element loads len s)).
Proof. exact (fun Sec => conj (@made_beam Sec) (@made_element Sec)). Qed.
Print Assumptions C147_constructors.

(** Queries of a beam of known lengths for a load case that every element has, with a table that is not empty: every refusal
    is a [BeamError], for any positions (NaN and infinities included) that are not an int, and any number of positions that is
    not negative.  Missing for the full statement: those arguments, load cases that an element lacks or has no loads for, and
    arguments that name no component. *)
Theorem C147_loads_partial :
  forall (Sec : Type) (qs : argsort_oracle pynum) (b : beam_t pynum Sec) c a cs position n, any_argsort qs ->
  known_lengths b -> stored_tables b c -> designates a cs -> cs <> [] -> well_asked position n ->
  refuses_only (fun e => caught_by CBeamError e) (beam_get_loads qs b c position n a).
Proof. exact (fun Sec => @py_loads Sec). Qed.
Print Assumptions C147_loads_partial.

Theorem C147_positions_partial :
  forall (Sec : Type) (b : beam_t pynum Sec) lc position n, known_lengths b -> tables_if_any b lc -> well_asked position n ->
  refuses_only (fun e => caught_by CBeamError e) (beam_list_positions b position n lc).
Proof. exact (fun Sec => @py_list Sec). Qed.
Print Assumptions C147_positions_partial.

Theorem C147_sections_partial :
  forall (Sec : Type) (b : beam_t pynum Sec) lc position n, known_lengths b -> tables_if_any b lc -> well_asked position n ->
  refuses_only (fun e => caught_by CBeamError e) (beam_get_section b position n lc).
Proof. exact (fun Sec => @py_section Sec). Qed.
Print Assumptions C147_sections_partial.

(** Conversions between positions along the beam and along an element, for an element that exists. *)
Theorem C147_conversions_partial :
  forall (Sec : Type) (b : beam_t pynum Sec) p i, known_lengths b -> 0 <= i < Z.of_nat (List.length b) ->
  refuses_only (fun e => e = PositionNotInElementError \/ e = ElementLengthError) (beam_to_local b p i) /\
  refuses_only (fun e => e = PositionNotInElementError) (local_to_beam b p i).
Proof. exact (fun Sec b p i H Hi => conj (py_local b p i H Hi) (py_global b p i H Hi)). Qed.
Print Assumptions C147_conversions_partial.

(** In general the statement fails: a position that is an int raises TypeError, *)
Theorem C147_positions_refuted :
  ~ (forall (inp : beam_input pynum (section pynum)) b position n lc, beam inp = Ok b ->
     refuses_only (fun e => caught_by CBeamDesignError e) (beam_list_positions b position n lc)).
Proof. exact queries_refuted. Qed.
Print Assumptions C147_positions_refuted.

(** a negative number of positions ValueError, *)
Theorem C147_numbers_refuted :
  ~ (forall (inp : beam_input pynum (section pynum)) b n lc, beam inp = Ok b ->
     refuses_only (fun e => caught_by CBeamDesignError e) (beam_list_positions b PosNone (Some n) lc)).
Proof. exact numbers_refuted. Qed.
Print Assumptions C147_numbers_refuted.

(** a load case that does not exist KeyError, *)
Theorem C147_cases_refuted :
  ~ (forall (inp : beam_input pynum (section pynum)) b c p, beam inp = Ok b -> nisfloat p = true ->
     refuses_only (fun e => caught_by CBeamDesignError e) (beam_get_loads stable_argsort b c (PosNum p) None (CStr "N"))).
Proof. exact cases_refuted. Qed.
Print Assumptions C147_cases_refuted.

(** and a load table whose positions are out of order AssertionError. *)
Theorem C147_tables_refuted :
  ~ (forall inp : load_input pynum, refuses_only (fun e => caught_by CBeamDesignError e) (load_case inp)).
Proof. exact tables_refuted. Qed.
Print Assumptions C147_tables_refuted.

(** A bar of 3 m that meets the hypotheses; some of its queries are refused. *)
Example C147_case :
  known_lengths good_bar /\ stored_tables good_bar 2 /\ designates (CStr "N") [N] /\
  well_asked (T := pynum) (PosNum (fl 4 1)) None /\ well_asked (T := pynum) PosNone (Some 5) /\
  beam_list_positions good_bar (PosNum (fl 4 1)) None None = Err PositionNotInBeamError /\
  beam_list_positions good_bar PosNone None None = Err InvalidPositionError /\
  beam_to_local good_bar (fl 4 1) 0 = Err PositionNotInElementError /\
  local_to_beam good_bar (fl 2 1) 0 = Err PositionNotInElementError /\
  match beam_get_loads stable_argsort good_bar 2 PosNone (Some 5) (CStr "N") with Ok _ => True | Err _ => False end /\
  beam (S := section pynum) (BList [Some (mk_elem (Some (fl 3 1)) None [(1, None)]);
    Some (mk_elem (Some (fl 3 1)) None [(2, None)])]) = Err ElementCaseError.
Proof.
  exact (conj (bar_lengths _) (conj (bar_tables _ 2 (or_intror (or_introl eq_refl))) (conj (d_name N)
    (conj (proj1 some_asked) (conj (proj2 some_asked) bar_queries))))).
Qed.

(** The hierarchy: these are not caught as the errors of the library, and a material error is not a beam error. *)
Example C147_uncaught :
  ~ caught_by CBeamDesignError TypeError /\ ~ caught_by CBeamDesignError ValueError /\
  ~ caught_by CBeamDesignError AssertionError /\ ~ caught_by CBeamError InvalidMaterialError.
Proof. exact (conj type_uncaught (conj value_uncaught (conj assertion_uncaught material_uncaught))). Qed.

(** ** C148 *)

(** Constructing a code check of round sections with a material fails only with a [CodeCheckError]. *)
Theorem C148_constructor_partial :
  forall (phi au kt : pynum) (b : option (beam_t pynum (section pynum))) s,
  (forall b', b = Some b' -> forall e, In e b' -> round_section (esection e)) -> (b = None -> s = None \/ round_section s) ->
  refuses_only (fun e => caught_by CCodeCheckError e) (make_as4100 phi au kt b s).
Proof. exact made_check. Qed.
Print Assumptions C148_constructor_partial.

(** A tension check of round bars of materials with tables of strengths, whatever the numbers in them (NaN and infinities
    included), fails only with a [BeamDesignError] or with ValueError.  Missing for the full statement: ValueError is not a
    [BeamDesignError]. *)
Theorem C148_tension_partial :
  forall (qs : argsort_oracle pynum) phi au kt b s a lc cs position, any_argsort qs -> make_as4100 phi au kt (Some b) s = Ok a ->
  rated_bars b -> wanted b lc cs -> (forall c, In c cs -> stored_tables b c) -> float_positions position ->
  refuses_only (fun e => caught_by CBeamDesignError e \/ e = ValueError) (tension_utilisation qs a lc position).
Proof. exact (fun qs phi au kt b s a lc cs position Hq Ha Hb W Ht Fp => tension_only qs phi au kt b s a Hq Ha Hb lc cs position W Ht Fp). Qed.
Print Assumptions C148_tension_partial.

(** In general it fails: a force of 1e-10 N makes the search for the load factor give up with ValueError. *)
Theorem C148_refuted :
  ~ (forall (qs : argsort_oracle pynum) phi au kt b s a lc cs position, any_argsort qs -> make_as4100 phi au kt (Some b) s = Ok a -> b <> [] -> rated_bars b ->
     wanted b lc cs -> (forall c, In c cs -> stored_tables b c) -> float_positions position ->
     refuses_only (fun e => caught_by CBeamDesignError e) (tension_utilisation qs a lc position)).
Proof. exact check_refuted. Qed.
Print Assumptions C148_refuted.

Example C148_case :
  rated_bars (bar_beam (fl 3 1) (fl 10000 1)) /\ (forall c, In c [1; 2] -> stored_tables (bar_beam (fl 3 1) (fl 10000 1)) c) /\
  default_as4100 (Some (bar_beam (fl 3 1) (fl 10000 1))) None = Ok (bar_check (fl 3 1) (fl 10000 1)) /\
  tension_utilisation stable_argsort (bar_check (fl 3 1) (fl 10000 1)) (LCList [1; 2]) (PosNum (fl 4 1)) = Err PositionNotInBeamError.
Proof. exact (conj (rated_bar _) (conj (bar_tables _) (conj (bar_made _ _) outside_refused))). Qed.
