(** Vocabulary for stored loads among the reported ones, on doubles. *)

From Coq Require Import ZArith Reals List Sorted.
From Verif Require Import Base Num PyNum LoadCase LoadSpec Beam BeamSpec FloatSpec FloatValSpec FloatPlaceSpec.
Import ListNotations.
Open Scope R_scope.

(** The positions of a table ascend by at least [g]: no jumps. *)
Definition spread (g : R) (rows : list (lrow pynum)) : Prop :=
  StronglySorted (fun r r' => val (lpos r) + g <= val (lpos r')) rows.

(** How far a local position of element [i] (of length [l]) can be off after conversion to a position along
    the beam and back. *)
Definition place_error (ls : list pynum) (i : nat) (l : pynum) : R :=
  (INR (2 * i + 8) * powerRZ 2 (-53) * end_of (exact_lengths ls) i + powerRZ 2 (-1074)) / val l.

(** How far a load reported near a stored one can be off, in a table of positions [g] apart with loads up to [Y]. *)
Definition load_error (Y g : R) (ls : list pynum) (i : nat) (l : pynum) : R :=
  powerRZ 2 (-49) * Y + powerRZ 2 (-1073) + 2 * Y / g * place_error ls i l.

(** Element [i], not of zero length, has the table [rows] of load case [c]. *)
Definition long_element {Sec} (b : beam_t pynum Sec) (ls : list pynum) (c : Z) (i : nat) (l : pynum) (rows : list (lrow pynum)) : Prop :=
  exists el, nth_error b i = Some el /\ nth_error ls i = Some l /\ 0 < val l /\ dict_get c (eloads el) = Ok (Some rows).
