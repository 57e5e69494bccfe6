(** Vocabulary for the root-finder properties (exact arithmetic). *)

From Coq Require Import ZArith Reals.
From Verif Require Import Base.
Open Scope R_scope.

(** What "the guesses are the same within the tolerance" means: the larger of the
    absolute tolerance and 1e-9 of the larger magnitude. *)
Definition slack (tol a b : R) : R := Rmax tol (/ 1000000000 * Rmax (Rabs a) (Rabs b)).
Definition indistinguishable (tol a b : R) : Prop := Rabs (b - a) <= slack tol a b.

Definition inside (lo hi x : R) : Prop := Rmin lo hi <= x <= Rmax lo hi.

(** A Python function that never raises. *)
Definition total (f : R -> R) (x : R) : res R := Ok (f x).
Definition limit_ok (max_its : option Z) : Prop :=
  match max_its with Some m => (1 < m)%Z | None => True end.
