(** C157: the secant method on convex functions (exact arithmetic). *)

From Coq Require Import ZArith Reals Lra Lia Psatz Bool List.
From Verif Require Import Base Num RNum Solvers SolverSpec SolverFacts SecantConvex.
Open Scope R_scope.

(** C157: [f] has a root [r], is convex from there upwards (chords get steeper) and its chords have slope
    1 or more.  Started from two guesses above the root, whose chord has slope [L], the secant method
    returns within [N + 2] steps as soon as [(1 - 1/L)^N] times the distance of the smaller guess from
    the root is within the tolerance; the result is never below the root, and above it by at most [L]
    times the tolerance (or [L * 1e-9] times the larger guess). *)
Theorem C157_converges : forall (f : R -> R) (r : R),
  (forall a b c, r <= a -> a < b -> b < c -> (f b - f a) * (c - b) <= (f c - f b) * (b - a)) ->
  (forall a b, r <= a -> a <= b -> b - a <= f b - f a) ->
  f r = 0 ->
  forall (L : R) (N fuel : nat) (lo hi tol : R) (max_its : option Z) (fallback : bool) (nargs : nat),
  0 <= r -> r < lo -> r < hi -> 0 < tol -> ~ indistinguishable tol lo hi ->
  L = (f hi - f lo) / (hi - lo) ->
  (1 - / L) ^ N * (Rmin lo hi - r) <= tol ->
  (N + 2 <= fuel)%nat ->
  match max_its with Some m => (Z.of_nat N + 2 < m)%Z | None => True end ->
  exists x n, secant (total f) fuel lo hi tol max_its fallback nargs = Ok (x, n, false)
    /\ r <= x <= Rmin lo hi /\ (1 <= n <= Z.of_nat N + 2)%Z
    /\ x - r <= L * Rmax tol (/ 1000000000 * Rmax lo hi).
Proof. exact secant_convex. Qed.
Print Assumptions C157_converges.

(** The square root of 2, guesses 2 and 3, tolerance 1e-9: at most 97 steps. *)
Example C157_sqrt2 : exists x n,
  secant (total (fun x => x * x - 2)) 100 2 3 (/ 1000000000) (Some 100%Z) true 0 = Ok (x, n, false)
  /\ sqrt 2 <= x <= sqrt 2 + / 50000000 /\ (n <= 97)%Z.
Proof.
  destruct square2_facts as (C & S & Z0 & B1 & B2).
  destruct (C157_converges square2 (sqrt 2) C S Z0 5 95 100 2 3 (/ 1000000000) (Some 100%Z) true 0)
    as (x & n & E & X & Bn & Y); try lra; try lia.
  - unfold indistinguishable, slack. rewrite !Rabs_pos_eq by lra. rewrite (Rmax_right 2 3) by lra.
    rewrite (Rmax_right (/ 1000000000)) by lra. lra.
  - unfold square2. lra.
  - rewrite Rmin_left by lra.
    apply Rle_trans with ((1 - / 5) ^ 95 * 1); [apply Rmult_le_compat_l; [apply pow_le; lra|lra]|].
    rewrite Rmult_1_r. replace (1 - / 5) with (4 / 5) by lra. lra.
  - exists x, n. split; [exact E|].
    assert (Rmax (/ 1000000000) (/ 1000000000 * Rmax 2 3) <= 3 * / 1000000000).
    { rewrite (Rmax_right 2 3) by lra. apply Rmax_lub; lra. }
    split; [split; [lra|]|lia]. lra.
Qed.

(** The slopes are needed: on [(x*x - 1)/1000] the values at the guesses are within the tolerance of each
    other, and the call fails. *)
Theorem C157_flat_function_fails : forall (fuel : nat) (fallback : bool) (nargs : nat), (1 <= fuel)%nat ->
  secant (total (fun x => / 1000 * (x * x - 1))) fuel 3 2 (/ 100) None fallback nargs = Err ValueError.
Proof. exact flat_fails. Qed.
Print Assumptions C157_flat_function_fails.
Example C157_flat_is_convex : convex_from 1 flat_square /\ flat_square 1 = 0.
Proof.
  split; [|unfold flat_square; lra]. intros a b c Ha Hb Hc. unfold flat_square.
  assert (0 <= (c - b) * (b - a) * (c - a)).
  { apply Rmult_le_pos; [apply Rmult_le_pos|]; lra. }
  apply Rminus_le. match goal with |- ?x <= 0 =>
    replace x with (- / 1000 * ((c - b) * (b - a) * (c - a))) by field end. lra.
Qed.
