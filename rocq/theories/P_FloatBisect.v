(** C144, C145: bisection on doubles.  The vocabulary is FloatBisectSpec.v, FloatSpec.v ([between]) and SolverSpec.v ([slack]);
    [fuel] bounds the recursion of the model and running out of it is [Err Diverges]. *)

From Coq Require Import ZArith Reals List Bool Lra Lia.
From Verif Require Import Base Num PyNum Solvers SolverSpec FloatSpec FloatValSpec FloatBisectSpec FloatBisect FloatBisectCases.
Open Scope R_scope.

(** C144: bisection ends on doubles for any function: [N] iterations suffice as soon as the width is at most 1.9^N times the
    tolerance (1.9 and not 2 because of rounding), and a limit above [N] has no effect. *)
Theorem C144_terminates :
  forall func N fuel lo hi tol fail, starting lo -> starting hi -> tolerance tol ->
  (forall x, in_bracket lo hi x -> func x <> Err Diverges) -> (1 <= N <= fuel)%nat ->
  Rabs (val hi - val lo) <= val tol * (19 / 10) ^ N ->
  bisection func fuel lo hi tol None fail <> Err Diverges /\
  (forall x n, bisection func fuel lo hi tol None fail = Ok (x, n) -> (n <= Z.of_nat N)%Z) /\
  forall m, (Z.of_nat N < m)%Z ->
    bisection func fuel lo hi tol (Some m) fail = bisection func fuel lo hi tol None fail.
Proof. exact bisection_ends. Qed.
Print Assumptions C144_terminates.

(** The default limit of 20000 iterations is never reached: 1800 are enough for all guesses and tolerances. *)
Theorem C144_default_limit :
  forall func fuel lo hi tol fail, starting lo -> starting hi -> tolerance tol ->
  (forall x, in_bracket lo hi x -> func x <> Err Diverges) -> (1800 <= Z.of_nat fuel)%Z ->
  bisection func fuel lo hi tol default_max_its fail = bisection func fuel lo hi tol None fail /\
  bisection func fuel lo hi tol None fail <> Err Diverges /\
  forall x n, bisection func fuel lo hi tol None fail = Ok (x, n) -> (n <= 1800)%Z.
Proof. exact default_limit. Qed.
Print Assumptions C144_default_limit.

(** Guesses with function values of opposite sign: there is a result. *)
Theorem C144_succeeds :
  forall func fuel lo hi tol yl yh, starting lo -> starting hi -> tolerance tol ->
  (forall x, in_bracket lo hi x -> exists y, func x = Ok y /\ finite_double y) -> isclose hi lo tol = Ok false ->
  func lo = Ok yl -> func hi = Ok yh -> val yl * val yh <= 0 -> (1800 <= Z.of_nat fuel)%Z ->
  exists x n, bisection func fuel lo hi tol default_max_its true = Ok (x, n) /\ (n <= 1800)%Z.
Proof. exact bisection_succeeds. Qed.
Print Assumptions C144_succeeds.

Example C144_case : starting (PInt 0) /\ starting (fl 7 10) /\ tolerance default_tol /\
  isclose (fl 7 10) (PInt 0) default_tol = Ok false /\
  (forall x, in_bracket (PInt 0) (fl 7 10) x -> exists y, third x = Ok y /\ finite_double y) /\
  (exists yl yh, third (PInt 0) = Ok yl /\ third (fl 7 10) = Ok yh /\ val yl * val yh < 0) /\
  Rabs (val (fl 7 10) - val (PInt 0)) <= val default_tol * (19 / 10) ^ 33 /\
  match bisection third (Z.to_nat 1800) (PInt 0) (fl 7 10) default_tol default_max_its true with
  | Ok (x, n) => nltb (fl 333333333 1000000000) x && nltb x (fl 333333335 1000000000) && (n =? 26)%Z
  | Err _ => false end = true.
Proof.
  destruct bracket_start as (A & B & C & D). split; [exact A|]. split; [exact B|]. split; [exact C|]. split; [exact D|].
  split; [exact third_finite|]. split; [exact third_signs|]. split; [exact third_width|]. exact third_found.
Qed.

(** C145 is false for every positive tolerance: the product of two small function values underflows, so bisection
    reports a root of a function that is larger than the tolerance everywhere. *)
Theorem C145_tiny_tolerance_refuted :
  exists (func : pynum -> res pynum) lo hi tol x n,
  starting lo /\ starting hi /\ finite_double tol /\ 0 < val tol /\
  (forall z, exists y, func z = Ok y /\ finite_double y /\ val tol < val y) /\
  bisection func 100 lo hi tol default_max_its true = Ok (x, n).
Proof. exact const_accepted. Qed.
Print Assumptions C145_tiny_tolerance_refuted.

(** What holds (tolerances of at least 2^-500): a result is a point where the function is within the tolerance, or it
    is between two points of the bracket that are as close as the tolerances demand and at which the function has
    opposite signs or is within the tolerance. *)
Theorem C145_sign_change_partial :
  forall func fuel lo hi tol max_its x n, starting lo -> starting hi -> tolerance tol -> finite_valued lo hi func ->
  bisection func fuel lo hi tol max_its true = Ok (x, n) ->
  (exists y, func x = Ok y /\ Rabs (val y) <= val tol) \/
  exists a b ya yb, between lo hi a /\ between lo hi b /\ between a b x /\ func a = Ok ya /\ func b = Ok yb /\
    straddle (val tol) ya yb /\ close_enough (val tol) a b.
Proof. exact bisection_crossing. Qed.
Print Assumptions C145_sign_change_partial.

Example C145_case : starting (PInt 0) /\ starting (fl 7 10) /\ tolerance default_tol /\ finite_valued (PInt 0) (fl 7 10) third /\
  exists x n, bisection third (Z.to_nat 1800) (PInt 0) (fl 7 10) default_tol default_max_its true = Ok (x, n).
Proof.
  destruct bracket_start as (A & B & C & D). split; [exact A|]. split; [exact B|]. split; [exact C|]. split.
  - intros x y H E. destruct (third_finite x H) as (y' & E' & F). rewrite E in E'. injection E' as <-. exact F.
  - pose proof third_found as K. destruct (bisection third _ _ _ _ _ _) as [(x & n)|]; [now exists x, n|discriminate].
Qed.

(** Same signs, both beyond the tolerance: rejected, whatever the other arguments. *)
Theorem C145_same_sign_partial :
  forall func fuel lo hi tol max_its fail yl yh, starting lo -> starting hi -> tolerance tol ->
  func lo = Ok yl -> func hi = Ok yh -> finite_double yl -> finite_double yh -> 0 < val yl * val yh ->
  val tol < Rabs (val yl) -> val tol < Rabs (val yh) -> (0 < fuel)%nat ->
  bisection func fuel lo hi tol max_its fail = Err ValueError.
Proof. exact same_signs_rejected. Qed.
Print Assumptions C145_same_sign_partial.

Example C145_case2 : starting (PInt 0) /\ starting (fl 7 10) /\ tolerance default_tol /\ finite_double (fl 1 1) /\
  0 < val (fl 1 1) * val (fl 1 1) /\ val default_tol < Rabs (val (fl 1 1)).
Proof. exact one_case. Qed.
