(** Vocabulary for bisection on doubles. *)

From Coq Require Import ZArith Reals.
From Verif Require Import Base Num PyNum FloatSpec FloatValSpec SolverSpec.
Open Scope R_scope.

(** A starting value: an int of at most 53 bits or a finite double, of magnitude up to 2^1020. *)
Definition starting (x : pynum) : Prop := guess x /\ Rabs (val x) <= powerRZ 2 1020.

(** A tolerance: a finite double of at least 2^-500 (the default is 1e-9). *)
Definition tolerance (tol : pynum) : Prop := finite_double tol /\ powerRZ 2 (-500) <= val tol.

(** [x] is an int or a double, between [lo] and [hi]. *)
Definition in_bracket (lo hi x : pynum) : Prop := ((exists z, x = PInt z) \/ double x) /\ between lo hi x.

(** Between [lo] and [hi] the function returns finite doubles where it returns. *)
Definition finite_valued (lo hi : pynum) (func : pynum -> res pynum) : Prop :=
  forall x y, in_bracket lo hi x -> func x = Ok y -> finite_double y.

(** The function values [ya] and [yb] are of opposite sign, or one of them is zero to within [tol]. *)
Definition straddle (tol : R) (ya yb : pynum) : Prop :=
  val ya * val yb < 0 \/ Rabs (val ya) <= tol \/ Rabs (val yb) <= tol.

(** [a] and [b] are as close as [math.isclose] or the tolerance demands (with one millionth to spare). *)
Definition close_enough (tol : R) (a b : pynum) : Prop :=
  Rabs (val b - val a) <= (1 + / 1000000) * slack tol (val a) (val b).
