(** Vocabulary for the secant method on doubles. *)

From Coq Require Import ZArith Reals.
From Verif Require Import Base Num PyNum FloatSpec FloatValSpec.
Open Scope R_scope.

(** An int of at most 53 bits or a finite double. *)
Definition number (x : pynum) : Prop := (exists z, x = PInt z /\ (Z.abs z <= 2 ^ 53)%Z) \/ finite_double x.

(** Where the function returns, it returns a double: finite, infinite or nan. *)
Definition double_valued (func : pynum -> res pynum) : Prop := forall x y, func x = Ok y -> double y.

(** Where the function returns, it returns a finite double of magnitude up to [B]. *)
Definition bounded_valued (B : R) (func : pynum -> res pynum) : Prop :=
  forall x y, func x = Ok y -> finite_double y /\ Rabs (val y) <= B.

(** The values at [a] and [b] differ by at most [L] times the distance, and [e] for the function's own rounding. *)
Definition nearly_lipschitz (L e : R) (func : pynum -> res pynum) : Prop :=
  forall a b ya yb, number a -> number b -> func a = Ok ya -> func b = Ok yb ->
    Rabs (val ya - val yb) <= L * Rabs (val a - val b) + e.
