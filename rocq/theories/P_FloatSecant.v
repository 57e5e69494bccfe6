(** The secant method on doubles: C151, C152. *)

From Coq Require Import ZArith Reals Bool Floats.SpecFloat.
From Verif Require Import Base Num PyNum Solvers SolverSpec FloatSpec FloatValSpec FloatBisectSpec FloatSecantSpec FloatSecant FloatSecantCases.
Open Scope R_scope.

(** C151: the residual of a secant result on doubles.  Full statement: for every function with finite values whose values at
    two numbers differ by at most [L] times their distance and [e], the value at the result is at most (2 + 1/1000) L times the
    distance demanded between the last two points, plus 3 e and 2^-570.  False: a difference of two values that overflows moves
    the next point to 0.0. *)
Theorem C151_refuted : ~ forall func L e lo hi tol max_its fallback nargs fuel x n,
  (forall z y, func z = Ok y -> finite_double y) -> nearly_lipschitz L e func -> 0 <= L -> 0 <= e ->
  starting lo -> starting hi -> tolerance tol -> val tol <= powerRZ 2 1000 ->
  secant func fuel lo hi tol max_its fallback nargs = Ok (x, n, false) ->
  exists prev, number prev /\ close_enough (val tol) prev x /\
    forall y, func x = Ok y ->
      Rabs (val y) <= (2 + / 1000) * (L * slack (val tol) (val prev) (val x)) + 3 * e + powerRZ 2 (-570).
Proof. exact secant_found_refuted. Qed.
Print Assumptions C151_refuted.

(** The wrong root: 0.0, where the function is -2^1023. *)
Example C151_wrong : exists (func : pynum -> res pynum) L lo hi tol x n,
  (forall z y, func z = Ok y -> finite_double y) /\ nearly_lipschitz L 0 func /\ 0 <= L /\
  starting lo /\ starting hi /\ tolerance tol /\ val tol <= powerRZ 2 1000 /\
  secant func 5 lo hi tol None false 0 = Ok (x, n, false) /\
  exists y, func x = Ok y /\ forall prev, number prev -> close_enough (val tol) prev x ->
    (2 + / 1000) * (L * slack (val tol) (val prev) (val x)) + powerRZ 2 (-570) < Rabs (val y).
Proof. exact overflow_accepted. Qed.

(** What holds: it is true of functions with values of magnitude up to 2^1000. *)
Theorem C151_partial : forall func L e lo hi tol max_its fallback nargs fuel x n,
  bounded_valued (powerRZ 2 1000) func -> nearly_lipschitz L e func -> 0 <= L -> 0 <= e ->
  starting lo -> starting hi -> tolerance tol -> val tol <= powerRZ 2 1000 ->
  secant func fuel lo hi tol max_its fallback nargs = Ok (x, n, false) ->
  finite_double x /\ exists prev, number prev /\ close_enough (val tol) prev x /\
    forall y, func x = Ok y ->
      Rabs (val y) <= (2 + / 1000) * (L * slack (val tol) (val prev) (val x)) + 3 * e + powerRZ 2 (-570).
Proof. exact secant_found. Qed.
Print Assumptions C151_partial.

(** [float(x) ** 2 - 2.0] on [-4, 4] from 1 and 2: the root of 2 after six iterations. *)
Example C151_case : (bounded_valued (powerRZ 2 1000) guarded /\ nearly_lipschitz 8 (/ 500000000000) guarded /\ double_valued guarded /\
  starting (PInt 1) /\ starting (PInt 2) /\ tolerance default_tol /\ val default_tol <= powerRZ 2 1000) /\
  match secant guarded 20 (PInt 1) (PInt 2) default_tol (Some 20%Z) false 0 with
  | Ok (x, n, false) => nltb (fl 1414213562 1000000000) x && nltb x (fl 1414213563 1000000000) && (n =? 6)%Z
  | _ => false end = true.
Proof. exact (conj guarded_case guarded_found). Qed.

(** C152: what a call of the secant method without fallback can do, for any function returning doubles (infinities and nan
    included) or raising: a finite double after at least one iteration and fewer than the limit, ValueError, or what the
    function itself raised.  Never ZeroDivisionError, never an unbound name; without limit it may also run on. *)
Theorem C152_outcomes : forall func lo hi tol max_its nargs fuel,
  double_valued func -> starting lo -> starting hi -> finite_double tol -> 0 <= val tol ->
  (1 <= fuel)%nat -> (forall m, max_its = Some m -> (m <= Z.of_nat fuel)%Z) ->
  match secant func fuel lo hi tol max_its false nargs with
  | Ok (x, n, b) => b = false /\ finite_double x /\ (1 <= n)%Z /\ forall m, max_its = Some m -> (n < m)%Z
  | Err e => e = ValueError \/ (exists x, func x = Err e) \/ (max_its = None /\ e = Diverges)
  end.
Proof. exact secant_outcomes. Qed.
Print Assumptions C152_outcomes.

(** A result found within one limit is found with every greater limit or none, with or without fallback. *)
Theorem C152_limit : forall (func : pynum -> res pynum) lo hi tol m max_its fallback nargs nargs' fuel fuel' x n,
  (fuel <= fuel')%nat -> (forall m', max_its = Some m' -> (m <= m')%Z) ->
  secant func fuel lo hi tol (Some m) false nargs = Ok (x, n, false) ->
  secant func fuel' lo hi tol max_its fallback nargs' = Ok (x, n, false).
Proof. exact secant_limit. Qed.
Print Assumptions C152_limit.

Example C152_case : double_valued guarded /\ starting (PInt 1) /\ starting (PInt 2) /\
  match secant guarded 20 (PInt 1) (PInt 2) default_tol (Some 7%Z) false 0, secant guarded 20 (PInt 1) (PInt 2) default_tol (Some 6%Z) false 0 with
  | Ok (x, n, false), Err ValueError => nltb (fl 1414213562 1000000000) x && nltb x (fl 1414213563 1000000000) && (n =? 6)%Z
  | _, _ => false end = true.
Proof. exact limits_case. Qed.

(** The tolerance must be a number: with nan the loop is never entered and an unbound name is read. *)
Example C152_nan : secant guarded 20 (PInt 1) (PInt 2) (PFlt S754_nan) (Some 20%Z) false 0 = Err AttributeError.
Proof. exact nan_tolerance. Qed.
