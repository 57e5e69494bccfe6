(** Load tables of doubles. *)

From Coq Require Import ZArith List Bool Sorted.
From Verif Require Import Base Num PyNum Numpy LoadCase LoadSpec FloatSpec.
Import ListNotations.

(** A row of Python floats, infinities and NaN included. *)
Definition double_row (r : lrow pynum) : Prop := Forall double (seven r).

(** Positions in [0.0, 1.0] and never descending, as Python compares floats (so no position is NaN). *)
Definition well_formed_double (rows : list (lrow pynum)) : Prop :=
  Forall (fun r => nleb (fl 0 1) (lpos r) = true /\ nleb (lpos r) (fl 1 1) = true) rows /\
  StronglySorted (fun a b => nleb (lpos a) (lpos b) = true) rows.

(** The result [out] of a six-component query, read as a table. *)
Definition reads_as_table {T} (out : list (orow T)) (rows : list (lrow T)) : Prop :=
  out = map (fun r => (lpos r, [Some (lVX r); Some (lVY r); Some (lN r); Some (lMX r); Some (lMY r); Some (lT r)])) rows.
