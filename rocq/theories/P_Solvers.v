(** C40-C49, C81: the root finders.  Over the reals (exact arithmetic) unless the
    number type is quantified over; [fuel] bounds the recursion of the model and running
    out of it is [Err Diverges], so every statement about [Ok] holds for the real loop. *)

From Coq Require Import ZArith Reals Lra Lia.
From Verif Require Import Base Num RNum PyNum Solvers SolverSpec SolverFacts SolverProofs.
Open Scope R_scope.

(** C40: the result is between the guesses, for any function, even one that raises. *)
Theorem C40_never_leaves_bracket :
  forall (func : R -> res R) fuel lo hi tol max_its fail x n,
  bisection func fuel lo hi tol max_its fail = Ok (x, n) ->
  Rmin lo hi <= x <= Rmax lo hi.
Proof. exact bisection_inside. Qed.
Print Assumptions C40_never_leaves_bracket.

Example C40_case :
  bisection (total line) 5 1000000000 1000000002 (/ 1000000000) None true = Ok (1000000000 + / 2, 1%Z).
Proof. exact (bis_case 5 ltac:(lia)). Qed.

(** C81 is false of doubles: the midpoint of a bracket of numbers near the largest
    double overflows, and the infinite result is outside the bracket. *)
Theorem C81_huge_brackets_refuted :
  exists (func : pynum -> res pynum) lo hi x n,
  bisection func 9 lo hi (fl 1 1000000000) (Some 5%Z) false = Ok (x, n)
  /\ nltb lo hi = true /\ nisinf hi = false /\ nltb hi x = true /\ nisinf x = true.
Proof. exact huge_bracket. Qed.
Print Assumptions C81_huge_brackets_refuted.

(** C41: a result obtained by convergence ([fail = true]: the iteration limit raises) is
    near a root or is itself a point where the function is within the tolerance. *)
Theorem C41_near_a_root :
  forall f fuel lo hi tol max_its x n, continuity f ->
  bisection (total f) fuel lo hi tol max_its true = Ok (x, n) ->
  Rabs (f x) <= tol \/
  exists r, inside lo hi r /\ f r = 0
    /\ Rabs (x - r) <= Rmax tol (/ 1000000000 * Rmax (Rabs lo) (Rabs hi)) / 2.
Proof. exact bisection_root. Qed.
Print Assumptions C41_near_a_root.

Example C41_case : continuity line /\
  bisection (total line) 5 1000000000 1000000002 (/ 1000000000) None true = Ok (1000000000 + / 2, 1%Z).
Proof. exact (conj line_continuous (bis_case 5 ltac:(lia))). Qed.

(** C42 is false: relative closeness of the guesses also ends the search, however small
    the tolerance; here both the residual and the distance to the root exceed it. *)
Theorem C42_absolute_tolerance_refuted :
  exists f lo hi tol x n, continuity f /\ 0 < tol
  /\ (forall fuel, (5 <= fuel)%nat -> bisection (total f) fuel lo hi tol None true = Ok (x, n))
  /\ tol < Rabs (f x) /\ (forall r, f r = 0 -> tol < Rabs (x - r)).
Proof. exact not_absolute. Qed.
Print Assumptions C42_absolute_tolerance_refuted.

(** What holds: it is absolute once tol is at least 1e-9 of the bracket's magnitude. *)
Theorem C42_absolute_tolerance_partial :
  forall f fuel lo hi tol max_its x n, continuity f ->
  / 1000000000 * Rmax (Rabs lo) (Rabs hi) <= tol ->
  bisection (total f) fuel lo hi tol max_its true = Ok (x, n) ->
  Rabs (f x) <= tol \/ exists r, inside lo hi r /\ f r = 0 /\ Rabs (x - r) <= tol / 2.
Proof. exact near_root_absolute. Qed.
Print Assumptions C42_absolute_tolerance_partial.

Example C42_case : / 1000000000 * Rmax (Rabs 0) (Rabs 1) <= / 3 /\
  bisection (total steep) 5 0 1 (/ 3) None true = Ok (3 / 8, 2%Z).
Proof. exact (conj small_magnitude (proj2 late_check)). Qed.

(** C43: at most max_its iterations, for every number type and so for doubles. *)
Theorem C43_iteration_budget :
  forall (T : Type) (N : Num T) (func : T -> res T) fuel lo hi tol m fail,
  (forall x, func x <> Err Diverges) -> (m <= Z.of_nat fuel)%Z ->
  bisection func fuel lo hi tol (Some m) fail <> Err Diverges
  /\ forall x n, bisection func fuel lo hi tol (Some m) fail = Ok (x, n) -> (0 <= n <= m)%Z.
Proof. exact @budget. Qed.
Print Assumptions C43_iteration_budget.

Example C43_case : forall x, jump x <> Err Diverges.
Proof. discriminate. Qed.

(** Exact arithmetic, no limit: N iterations suffice as soon as width <= tol * 2^N. *)
Theorem C43_terminates_without_limit :
  forall f N lo hi tol fail, 0 < tol -> Rabs (hi - lo) <= tol * 2 ^ N ->
  bisection (total f) N lo hi tol None fail = Err ValueError \/
  exists x n, bisection (total f) N lo hi tol None fail = Ok (x, n) /\ (1 <= n <= Z.of_nat N)%Z.
Proof. exact unlimited_terminates. Qed.
Print Assumptions C43_terminates_without_limit.

Example C43_case2 : 0 < / 3 /\ Rabs (1 - 0) <= / 3 * 2 ^ 2.
Proof. exact steep_width. Qed.

(** C44 is false: the limit is checked before the convergence test. *)
Theorem C44_late_convergence_refuted :
  exists f lo hi tol m x n, (1 < m)%Z
  /\ bisection (total f) 5 lo hi tol (Some m) true = Err ValueError
  /\ bisection (total f) 5 lo hi tol None true = Ok (x, n) /\ (n <= m)%Z.
Proof. exact limit_too_early. Qed.
Print Assumptions C44_late_convergence_refuted.

(** What holds: the error is never raised before the last allowed iteration. *)
Theorem C44_late_convergence_partial :
  forall f fuel lo hi tol m x n, (1 < m)%Z ->
  bisection (total f) fuel lo hi tol (Some m) true = Err ValueError ->
  bisection (total f) fuel lo hi tol None true = Ok (x, n) -> (m <= n)%Z.
Proof. exact bisection_limit. Qed.
Print Assumptions C44_late_convergence_partial.

Example C44_case : bisection (total steep) 5 0 1 (/ 3) (Some 2%Z) true = Err ValueError
  /\ bisection (total steep) 5 0 1 (/ 3) None true = Ok (3 / 8, 2%Z).
Proof. exact late_check. Qed.

(** C45: same sign beyond tol: rejected. *)
Theorem C45_same_sign_rejected :
  forall f fuel lo hi tol max_its fail,
  tol < f lo /\ tol < f hi \/ f lo < - tol /\ f hi < - tol -> (0 < fuel)%nat ->
  bisection (total f) fuel lo hi tol max_its fail = Err ValueError.
Proof. exact same_sign_rejected. Qed.
Print Assumptions C45_same_sign_rejected.

Example C45_case : / 3 < steep 1 /\ / 3 < steep (/ 2).
Proof. exact steep_positive. Qed.

(** Different signs (guesses apart): no error at all, at any depth. *)
Theorem C45_bracketing_accepted :
  forall f lo hi tol fail fuel, 0 <= tol -> ~ indistinguishable tol lo hi -> f lo * f hi <= 0 ->
  bisection (total f) fuel lo hi tol None fail = Err Diverges \/
  exists r, bisection (total f) fuel lo hi tol None fail = Ok r.
Proof. exact bracketing_accepted. Qed.
Print Assumptions C45_bracketing_accepted.

Theorem C45_bracketing_accepted_with_limit :
  forall f lo hi tol m fuel, 0 <= tol -> ~ indistinguishable tol lo hi -> f lo * f hi <= 0 ->
  (1 < m <= Z.of_nat fuel)%Z ->
  exists r, bisection (total f) fuel lo hi tol (Some m) false = Ok r.
Proof. exact bracketing_accepted_limit. Qed.
Print Assumptions C45_bracketing_accepted_with_limit.

Example C45_case2 : ~ indistinguishable (/ 3) 0 1 /\ steep 0 * steep 1 <= 0.
Proof. exact steep_brackets. Qed.

(** C46: affine functions are solved exactly in one or two iterations. *)
Theorem C46_affine_exact :
  forall f fuel lo hi tol max_its fallback nargs m q,
  (forall x, f x = m * x + q) -> m <> 0 -> 0 <= tol ->
  ~ indistinguishable tol lo hi -> ~ indistinguishable tol (f hi) (f lo) ->
  tol < Rabs (f hi) \/ indistinguishable tol hi (- q / m) ->
  (2 <= fuel)%nat -> match max_its with Some k => (2 < k)%Z | None => True end ->
  secant (total f) fuel lo hi tol max_its fallback nargs = Ok (- q / m, 1%Z, false) \/
  secant (total f) fuel lo hi tol max_its fallback nargs = Ok (- q / m, 2%Z, false).
Proof. exact secant_affine. Qed.
Print Assumptions C46_affine_exact.

Example C46_case : (forall x, steep x = 100 * x + -30) /\ 100 <> 0
  /\ ~ indistinguishable (/ 3) 0 1 /\ ~ indistinguishable (/ 3) (steep 1) (steep 0)
  /\ / 3 < Rabs (steep 1).
Proof. exact steep_affine. Qed.

(** C47: the residual of a secant result. *)
Theorem C47_residual :
  forall f L fuel lo hi tol max_its nargs x n,
  0 <= L /\ (forall a b, Rabs (f a - f b) <= L * Rabs (a - b)) ->
  secant (total f) fuel lo hi tol max_its false nargs = Ok (x, n, false) ->
  exists prev, Rabs (x - prev) <= Rmax tol (/ 1000000000 * Rmax (Rabs x) (Rabs prev))
  /\ Rabs (f x) <= 2 * L * Rmax tol (/ 1000000000 * Rmax (Rabs x) (Rabs prev)).
Proof. exact secant_residual. Qed.
Print Assumptions C47_residual.

Example C47_case : (0 <= 100 /\ forall a b, Rabs (steep a - steep b) <= 100 * Rabs (a - b))
  /\ exists n, secant (total steep) 2 0 1 (/ 3) None false 0 = Ok (3 / 10, n, false).
Proof. exact (conj steep_lipschitz steep_secant). Qed.

(** C48: a result of at least one iteration, or ValueError; never more than the limit. *)
Theorem C48_always_a_result :
  forall f tol max_its lo hi nargs fuel,
  (forall m, max_its = Some m -> (1 <= m)%Z) ->
  (exists x n, secant (total f) fuel lo hi tol max_its false nargs = Ok (x, n, false)
     /\ (1 <= n)%Z /\ (forall m, max_its = Some m -> (n <= m)%Z)) \/
  secant (total f) fuel lo hi tol max_its false nargs = Err ValueError \/
  secant (total f) fuel lo hi tol max_its false nargs = Err Diverges
    /\ (forall m, max_its = Some m -> (Z.of_nat fuel < m)%Z).
Proof. exact secant_outcome. Qed.
Print Assumptions C48_always_a_result.

Theorem C48_limit_one :
  forall f tol m lo hi nargs fuel, (m <= 1)%Z -> (1 <= fuel)%nat ->
  secant (total f) fuel lo hi tol (Some m) false nargs = Err ValueError.
Proof. exact secant_limit_one. Qed.
Print Assumptions C48_limit_one.

Example C48_case : exists n, secant (total steep) 2 0 1 (/ 3) None false 0 = Ok (3 / 10, n, false).
Proof. exact steep_secant. Qed.

(** C49 is false with any extra positional argument: where the limit is exhausted (the
    unlimited run is still going after m iterations, or returns exactly then), the
    fallback call itself raises TypeError. *)
Theorem C49_positional_arguments_refuted :
  forall f tol m lo hi nargs fuel, (1 <= m)%Z -> (m <= Z.of_nat fuel)%Z ->
  secant (total f) (Z.to_nat m) lo hi tol None true (S nargs) = Err Diverges \/
  (exists x, secant (total f) (Z.to_nat m) lo hi tol None true (S nargs) = Ok (x, m, false)) ->
  secant (total f) fuel lo hi tol (Some m) true (S nargs) = Err TypeError.
Proof. exact fallback_positional. Qed.
Print Assumptions C49_positional_arguments_refuted.

(** What holds: without positional arguments the result is bisection's (with its default
    limit of 20000 iterations) on the original bracket. *)
Theorem C49_no_arguments_partial :
  forall f tol m lo hi fuel, (1 <= m)%Z -> (m <= Z.of_nat fuel)%Z ->
  secant (total f) (Z.to_nat m) lo hi tol None true 0 = Err Diverges \/
  (exists x, secant (total f) (Z.to_nat m) lo hi tol None true 0 = Ok (x, m, false)) ->
  secant (total f) fuel lo hi tol (Some m) true 0 =
  let! r := bisection (total f) (Z.to_nat 20000) lo hi tol (Some 20000%Z) true in
  Ok (fst r, snd r, true).
Proof. exact fallback_none. Qed.
Print Assumptions C49_no_arguments_partial.

Example C49_case : forall nargs,
  secant (total (fun x => x)) (Z.to_nat 1) (-1) 2 (/ 1000) None true nargs = Err Diverges.
Proof. exact still_running. Qed.
