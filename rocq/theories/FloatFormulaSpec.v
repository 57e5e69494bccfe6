(** Vocabulary for the properties about rounding in the formulas of S5, S6 and S7. *)

From Coq Require Import ZArith Reals List.
From Verif Require Import Base Num PyNum FloatSpec FloatValSpec.
Open Scope R_scope.

(** [x] is a finite float within a relative distance 2^-k of [X]. *)
Definition accurate (k : Z) (x : pynum) (X : R) : Prop :=
  finite_double x /\ Rabs (val x - X) <= powerRZ 2 (- k) * Rabs X.

(** Zero, or of everyday size with either sign. *)
Definition tame (x : pynum) : Prop :=
  finite_double x /\ (val x = 0 \/ powerRZ 2 (-60) <= Rabs (val x) <= powerRZ 2 60).

(** What is assumed about Python's [x ** y], i.e. the C library's [pow], for the exponents 0.5, 2 and
    3: no failure, and an error of at most four units 2^-53, for positive arguments that keep the result
    well inside the range of doubles.  (C libraries promise about one unit.) *)
Record good_pow (pw : pynum -> pynum -> res pynum) : Prop := mk_good_pow {
  good_root : forall x, finite_double x -> powerRZ 2 (-1000) <= val x <= powerRZ 2 1000 ->
    exists r, pw x (fl 1 2) = Ok r /\ accurate 51 r (sqrt (val x));
  good_square : forall x, finite_double x -> powerRZ 2 (-500) <= val x <= powerRZ 2 500 ->
    exists r, pw x (PInt 2) = Ok r /\ accurate 51 r (val x ^ 2);
  good_cube : forall x, finite_double x -> powerRZ 2 (-330) <= val x <= powerRZ 2 330 ->
    exists r, pw x (PInt 3) = Ok r /\ accurate 51 r (val x ^ 3) }.

(** S6.3.3 in exact arithmetic: the member slenderness factor for a modified slenderness [ln] and a
    member section constant [b]. *)
Definition member_factor (ln b : R) : R :=
  let a := 2100 * (ln - 135 / 10) / (ln ^ 2 - 153 / 10 * ln + 2050) in
  let l := ln + a * b in
  let eta := Rmax (326 / 100000 * (l - 135 / 10)) 0 in
  let xi := ((l / 90) ^ 2 + 1 + eta) / (2 * (l / 90) ^ 2) in
  xi * (1 - sqrt (1 - (90 / (xi * l)) ^ 2)).

(** The slenderness [l] from which that factor is computed, and the range the rounding bounds cover: up to
    1000, and not so stocky that [l] falls below 1. *)
Definition effective_slenderness (ln b : R) : R :=
  ln + 2100 * (ln - 135 / 10) / (ln ^ 2 - 153 / 10 * ln + 2050) * b.
Definition usual_slenderness (ln b : R) : Prop := 0 < ln <= 1000 /\ 1 <= effective_slenderness ln b.
