(** Vocabulary for the properties about the order of results computed on doubles. *)

From Coq Require Import ZArith Reals List Floats.SpecFloat.
From Verif Require Import Base Num PyNum FloatSpec FloatValSpec.
Import ListNotations.
Open Scope R_scope.

(** A float other than NaN: a finite one of any size or an infinity. *)
Definition some_double (x : pynum) : Prop := finite_double x \/ exists s, x = PFlt (S754_infinity s).

(** The same, and not below 0. *)
Definition non_negative (x : pynum) : Prop := some_double x /\ nleb (fl 0 1) x = true.

(** A finite float above 0. *)
Definition positive (x : pynum) : Prop := finite_double x /\ 0 < val x.

(** [x <= y] as Python compares them: no tolerance. *)
Definition le (x y : pynum) : Prop := nleb x y = true.

(** [c] is one of the numbers present in [l] and not above any of them. *)
Definition least_of (c : option pynum) (l : list (option pynum)) : Prop :=
  exists n, c = Some n /\ In c l /\ forall v, In (Some v) l -> le n v.

(** Neither is below 0 (nor NaN), and the second is at least the first. *)
Definition grows (x x' : pynum) : Prop := non_negative x /\ non_negative x' /\ le x x'.

(** Both are finite and above 0, and the second is at least the first. *)
Definition pgrows (x x' : pynum) : Prop := positive x /\ positive x' /\ le x x'.
