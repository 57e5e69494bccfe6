(** Concrete cases for the secant method on doubles. *)

From Coq Require Import ZArith Reals List Bool Lra Lia Floats.SpecFloat.
From Verif Require Import Base Num PyNum Solvers SolverSpec FloatSpec FloatValSpec FloatRound FloatOps FloatFacts FloatSolvers
  FloatError FloatUtil FloatBisectSpec FloatBisect FloatBisectCases FloatSecantSpec FloatSecant.
Open Scope R_scope.

(** [float(x) ** 2 - 2.0] for [abs(x) <= 4], refused elsewhere. *)
Definition square (x : pynum) : res pynum :=
  if nleb (nabs x) (PInt 4) then Ok (nsub (nmul (PFlt (tofl x)) (PFlt (tofl x))) (fl 2 1)) else Err ValueError.

Lemma two_fl : fl 2 1 = PFlt (S754_finite false 4503599627370496 (-51)) /\ sfR (S754_finite false 4503599627370496 (-51)) = 2.
Proof.
  split; [vm_compute; reflexivity|]. cbn [sfR signed]. assert (E : bp (-51) * bp 51 = 1) by (rewrite <- bp_add; apply bp_0).
  rewrite (bp_Z 51) in E by lia. change (2 ^ 51)%Z with 2251799813685248%Z in E. lra.
Qed.

Local Opaque SFsub SFmul.

Lemma square_val x y : number x -> square x = Ok y ->
  finite_double y /\ Rabs (val x) <= 4 /\ Rabs (val y - (val x * val x - 2)) <= / 1000000000000.
Proof.
  intros N E. unfold square in E. destruct (nleb (nabs x) (PInt 4)) eqn:G; [|discriminate].
  assert (Y : y = nsub (nmul (PFlt (tofl x)) (PFlt (tofl x))) (fl 2 1)) by congruence. subst y. clear E.
  destruct (number_fin x N) as (Fx & Tx & Vx). destruct (fin_abs x Fx) as (Fa & Va).
  pose proof (proj1 (leb_val _ (PInt 4) Fa Logic.I) G) as B. clear G. rewrite Va in B. change (val (PInt 4)) with 4 in B.
  destruct two_fl as (-> & V2). set (two := S754_finite false 4503599627370496 (-51)) in *.
  assert (F2 : fin64 two) by (vm_compute; reflexivity). cbn [nsub nmul PNum arith2 tofl].
  pose proof (bp_ge_1 1022 ltac:(lia)) as B1. pose proof u_bounds as U.
  assert (P : 0 <= val x * val x <= 16).
  { split; [apply Rle_0_sqr|]. rewrite <- (Rabs_right (val x * val x)) by (apply Rle_ge, Rle_0_sqr). rewrite Rabs_mult.
    pose proof (Rabs_pos (val x)). nra. }
  assert (Big : 32 <= bp 1022). { replace 32 with (bp 5) by (rewrite bp_Z by lia; reflexivity). apply bp_le. lia. }
  destruct (mul_rel (tofl x) (tofl x) Tx Tx) as (e1 & h1 & He1 & Hh1 & Fm & Em); [rewrite Vx, Rabs_right; lra|].
  rewrite Vx in Em. set (m := SFmul f64 e64 (tofl x) (tofl x)) in *.
  assert (Hs : bp (-1075) <= / 10000000000000).
  { apply Rle_trans with (bp (-53)); [apply bp_le; lia|]. change (bp (-53)) with u53. lra. }
  assert (Q : Rabs (sfR m - val x * val x) <= / 2000000000000).
  { rewrite Em. replace (val x * val x * (1 + e1) + h1 - val x * val x) with (val x * val x * e1 + h1) by ring.
    apply Rle_trans with (1 := Rabs_triang _ _). rewrite Rabs_mult, (Rabs_right (val x * val x)) by lra.
    assert (val x * val x * Rabs e1 <= 16 * u53) by (apply Rmult_le_compat; auto using Rabs_pos; lra). lra. }
  apply abs_le in Q.
  destruct (sub_rel m two Fm F2) as (e2 & He2 & Fs & Es); [rewrite V2; apply abs_le; lra|].
  split; [now apply fin_double|]. split; [exact B|]. rewrite val_sfR, Es, V2.
  replace ((sfR m - 2) * (1 + e2) - (val x * val x - 2)) with ((sfR m - val x * val x) + (sfR m - 2) * e2) by ring.
  apply Rle_trans with (1 := Rabs_triang _ _). rewrite Rabs_mult.
  assert (Rabs (sfR m - 2) <= 20) by (apply abs_le; lra).
  assert (Rabs (sfR m - 2) * Rabs e2 <= 20 * u53) by (apply Rmult_le_compat; auto using Rabs_pos).
  assert (Rabs (sfR m - val x * val x) <= / 2000000000000) by (apply abs_le; lra). lra.
Qed.

Lemma square_bounded x y : number x -> square x = Ok y -> Rabs (val y) <= 20.
Proof.
  intros N E. destruct (square_val x y N E) as (_ & B & V). pose proof (Rabs_pos (val x)). apply abs_le in V.
  assert (0 <= val x * val x <= 16).
  { split; [apply Rle_0_sqr|]. rewrite <- (Rabs_right (val x * val x)) by (apply Rle_ge, Rle_0_sqr). rewrite Rabs_mult. nra. }
  apply abs_le. lra.
Qed.

Lemma square_lipschitz : nearly_lipschitz 8 (/ 500000000000) square.
Proof.
  intros a b ya yb Na Nb Ea Eb. destruct (square_val a ya Na Ea) as (_ & Ba & Va), (square_val b yb Nb Eb) as (_ & Bb & Vb).
  assert (K : Rabs (val a * val a - val b * val b) <= 8 * Rabs (val a - val b)).
  { replace (val a * val a - val b * val b) with ((val a + val b) * (val a - val b)) by ring. rewrite Rabs_mult.
    apply Rmult_le_compat_r; [apply Rabs_pos|]. apply Rle_trans with (1 := Rabs_triang _ _). lra. }
  replace (val ya - val yb) with ((val ya - (val a * val a - 2)) + - (val yb - (val b * val b - 2)) + (val a * val a - val b * val b)) by ring.
  apply Rle_trans with (1 := Rabs_triang _ _). pose proof (Rabs_triang (val ya - (val a * val a - 2)) (- (val yb - (val b * val b - 2)))) as T.
  rewrite Rabs_Ropp in T. lra.
Qed.

Lemma small_start z : (-4 <= z <= 4)%Z -> starting (PInt z).
Proof.
  intros H. split; [left; exists z; split; [reflexivity|]; lia|]. cbn [val]. apply Rle_trans with (bp 2); [|change (bp 2 <= bp 1020); apply bp_le; lia].
  rewrite (bp_Z 2) by lia. rewrite <- abs_IZR. apply IZR_le. lia.
Qed.

Lemma tol_case : tolerance default_tol /\ val default_tol <= powerRZ 2 1000.
Proof.
  split; [apply bracket_start|]. rewrite (proj2 tol9_eq), val_sfR. pose proof tol9_val. pose proof (bp_ge_1 1000 ltac:(lia)).
  change (sfR tol9 <= bp 1000). lra.
Qed.

(** With ints outside 53 bits the function must be refused too. *)
Definition guarded (x : pynum) : res pynum :=
  match x with PInt z => if (Z.abs z <=? 2 ^ 53)%Z then square x else Err ValueError
  | PFlt f => if valid_binary f64 e64 f then square x else Err ValueError end.

Lemma guarded_number x y : guarded x = Ok y -> number x /\ square x = Ok y.
Proof.
  destruct x as [z|f]; cbn [guarded].
  - destruct (Z.leb_spec (Z.abs z) (2 ^ 53)); [|discriminate]. intros E. split; [left; eauto|exact E].
  - destruct (valid_binary f64 e64 f) eqn:V; [|discriminate]. intros E. split; [|exact E]. right.
    split; [eexists; split; [reflexivity|exact V]|]. unfold square in E.
    destruct f as [s|s| |s c e]; [split; reflexivity|discriminate|discriminate|split; reflexivity].
Qed.

Lemma guarded_case : bounded_valued (powerRZ 2 1000) guarded /\ nearly_lipschitz 8 (/ 500000000000) guarded /\ double_valued guarded /\
  starting (PInt 1) /\ starting (PInt 2) /\ tolerance default_tol /\ val default_tol <= powerRZ 2 1000.
Proof.
  split; [|split; [|split; [|split; [|split]]]].
  - intros x y E. destruct (guarded_number x y E) as (N & S). destruct (square_val x y N S) as (F & _). split; [exact F|].
    apply Rle_trans with (1 := square_bounded x y N S). apply Rle_trans with (bp 5); [rewrite (bp_Z 5) by lia; apply IZR_le; lia|].
    change (bp 5 <= bp 1000). apply bp_le. lia.
  - intros a b ya yb Na Nb Ea Eb. destruct (guarded_number a ya Ea), (guarded_number b yb Eb). now apply square_lipschitz.
  - intros x y E. destruct (guarded_number x y E) as (N & S). apply (square_val x y N S).
  - apply small_start. lia.
  - apply small_start. lia.
  - apply tol_case.
Qed.

Lemma guarded_found : match secant guarded 20 (PInt 1) (PInt 2) default_tol (Some 20%Z) false 0 with
  | Ok (x, n, false) => nltb (fl 1414213562 1000000000) x && nltb x (fl 1414213563 1000000000) && (n =? 6)%Z
  | _ => false end = true.
Proof. vm_compute. reflexivity. Qed.

(** ** Values of magnitude 2^1023: their difference overflows and 0.0 is returned *)

Definition huge (s : bool) : pynum := PFlt (S754_finite s 4503599627370496 971).
Definition cliff (x : pynum) : res pynum :=
  if nleb x (fl 1 2) then Ok (huge true) else if neqb x (PInt 1) then Ok (huge false) else Err ValueError.

Lemma huge_val : val (huge false) = bp 1023 /\ val (huge true) = - bp 1023.
Proof.
  unfold huge. rewrite !val_sfR. cbn [sfR signed]. assert (E : IZR (Z.pos 4503599627370496) * bp 971 = bp 1023).
  { change 1023%Z with (52 + 971)%Z. rewrite bp_add, (bp_Z 52) by lia. reflexivity. }
  rewrite E. auto.
Qed.
Lemma half_fl : finp (fl 1 2) /\ val (fl 1 2) = 1 / 2.
Proof.
  replace (fl 1 2) with (PFlt (S754_finite false 4503599627370496 (-53))) by (vm_compute; reflexivity). split; [vm_compute; reflexivity|].
  rewrite val_sfR. cbn [sfR signed]. assert (E : bp (-53) * bp 53 = 1) by (rewrite <- bp_add; apply bp_0).
  rewrite (bp_Z 53) in E by lia. change (2 ^ 53)%Z with 9007199254740992%Z in E. lra.
Qed.

Lemma cliff_cases x y : number x -> cliff x = Ok y -> (val x <= 1 / 2 /\ y = huge true) \/ (val x = 1 /\ y = huge false).
Proof.
  intros N E. destruct (number_fin x N) as (F & _). destruct half_fl as (Fh & Vh). unfold cliff in E.
  destruct (nleb x (fl 1 2)) eqn:L.
  - left. pose proof (proj1 (leb_val x (fl 1 2) F Fh) L) as K. clear L. rewrite Vh in K. split; [exact K|]. congruence.
  - right. clear L. destruct (neqb x (PInt 1)) eqn:Q; [|discriminate]. split; [|congruence]. cbn [neqb PNum] in Q. unfold py_eqb in Q.
    apply andb_true_iff in Q. destruct Q as (Q1 & Q2). pose proof (proj1 (leb_val x (PInt 1) F Logic.I) Q1) as K1.
    pose proof (proj1 (leb_val (PInt 1) x Logic.I F) Q2) as K2. change (val (PInt 1)) with 1 in K1, K2. lra.
Qed.

Lemma cliff_lipschitz : nearly_lipschitz (4 * bp 1023) 0 cliff.
Proof.
  intros a b ya yb Na Nb Ea Eb. pose proof (bp_pos 1023) as P. destruct huge_val as (V1 & V2).
  destruct (cliff_cases a ya Na Ea) as [(A & ->)|(A & ->)], (cliff_cases b yb Nb Eb) as [(B & ->)|(B & ->)]; rewrite ?V1, ?V2.
  1, 4: rewrite Rminus_eq_0, Rabs_R0, Rplus_0_r; apply Rmult_le_pos; [lra|apply Rabs_pos].
  - rewrite Rabs_left by lra. rewrite (Rabs_left (val a - val b)) by lra. nra.
  - rewrite Rabs_right by lra. rewrite (Rabs_right (val a - val b)) by lra. nra.
Qed.

Lemma cliff_finite x y : cliff x = Ok y -> finite_double y.
Proof.
  unfold cliff. intros E. assert (H : y = huge true \/ y = huge false).
  { destruct (nleb x (fl 1 2)); [left; congruence|]. destruct (neqb x (PInt 1)); [right; congruence|discriminate]. }
  destruct H as [-> | ->]; (split; [eexists; split; vm_compute; reflexivity|split; vm_compute; reflexivity]).
Qed.

Definition cliff_hi : pynum := fl 1 10000000000.
Lemma cliff_run : secant cliff 5 (PInt 1) cliff_hi default_tol None false 0 = Ok (PFlt (S754_zero false), 1%Z, false).
Proof. vm_compute. reflexivity. Qed.
Lemma cliff_start : starting (PInt 1) /\ starting cliff_hi.
Proof.
  split; [apply small_start; lia|]. unfold cliff_hi.
  assert (E : fl 1 10000000000 = PFlt (S754_finite false 7737125245533627 (-86))) by (vm_compute; reflexivity). rewrite E. split.
  - right. split; [split; [eexists; split; vm_compute; reflexivity|split; vm_compute; reflexivity]|vm_compute; reflexivity].
  - rewrite val_sfR. change (powerRZ 2 1020) with (bp 1020). cbn [sfR signed].
    replace (IZR (Z.pos 7737125245533627) * bp (-86)) with (IZR (Z.pos 7737125245533627) * bp (-53) * bp (-33)).
    + rewrite Rabs_right.
      * apply Rle_trans with (1 * 1); [|rewrite Rmult_1_l; apply bp_ge_1; lia]. apply Rmult_le_compat; try (left; apply bp_pos).
        -- apply Rmult_le_pos; [apply IZR_le; lia|left; apply bp_pos].
        -- assert (Q : bp (-53) * bp 53 = 1) by (rewrite <- bp_add; apply bp_0).
           rewrite (bp_Z 53) in Q by lia. change (2 ^ 53)%Z with 9007199254740992%Z in Q. lra.
        -- rewrite <- bp_0. apply bp_le. lia.
      * apply Rle_ge. repeat apply Rmult_le_pos; try (left; apply bp_pos). apply IZR_le. lia.
    + rewrite Rmult_assoc, <- bp_add. reflexivity.
Qed.

Lemma overflow_accepted : exists (func : pynum -> res pynum) L lo hi tol x n,
  (forall z y, func z = Ok y -> finite_double y) /\ nearly_lipschitz L 0 func /\ 0 <= L /\
  starting lo /\ starting hi /\ tolerance tol /\ val tol <= powerRZ 2 1000 /\
  secant func 5 lo hi tol None false 0 = Ok (x, n, false) /\
  exists y, func x = Ok y /\ forall prev, number prev -> close_enough (val tol) prev x ->
    (2 + / 1000) * (L * slack (val tol) (val prev) (val x)) + powerRZ 2 (-570) < Rabs (val y).
Proof.
  exists cliff, (4 * bp 1023), (PInt 1), cliff_hi, default_tol, (PFlt (S754_zero false)), 1%Z.
  pose proof (bp_pos 1023) as P. destruct cliff_start as (S1 & S2), tol_case as (T1 & T2), huge_val as (_ & V).
  split; [exact cliff_finite|]. split; [exact cliff_lipschitz|]. split; [lra|]. split; [exact S1|]. split; [exact S2|].
  split; [exact T1|]. split; [exact T2|]. split; [exact cliff_run|]. exists (huge true). split; [vm_compute; reflexivity|].
  intros prev Np C. rewrite V, Rabs_Ropp, Rabs_right by lra. unfold close_enough in C. rewrite val_sfR in *. cbn [sfR] in *.
  rewrite (proj2 tol9_eq), val_sfR in *. pose proof tol9_tight as T9.
  unfold slack in *. rewrite Rabs_R0 in *. rewrite Rminus_0_l, Rabs_Ropp in C. rewrite (Rmax_left (Rabs (val prev)) 0) in * by apply Rabs_pos.
  pose proof (Rabs_pos (val prev)) as P0. set (p := Rabs (val prev)) in *.
  assert (B : Rmax (sfR tol9) (/ 1000000000 * p) <= 101 / 100000000000).
  { apply Rmax_lub; [lra|]. unfold Rmax in C. destruct (Rle_dec _ _); lra. }
  assert (M : 4 * bp 1023 * Rmax (sfR tol9) (/ 1000000000 * p) <= 4 * bp 1023 * (101 / 100000000000)) by (apply Rmult_le_compat_l; lra).
  change (powerRZ 2 (-570)) with (bp (-570)). assert (bp (-570) <= / 4 * bp 1023).
  { replace (bp 1023) with (4 * bp 1021); [pose proof (bp_le (-570) 1021 ltac:(lia)); lra|].
    change 1023%Z with (1021 + 1 + 1)%Z. rewrite !bp_add, bp_1. ring. }
  lra.
Qed.

Lemma secant_found_refuted : ~ forall func L e lo hi tol max_its fallback nargs fuel x n,
  (forall z y, func z = Ok y -> finite_double y) -> nearly_lipschitz L e func -> 0 <= L -> 0 <= e ->
  starting lo -> starting hi -> tolerance tol -> val tol <= powerRZ 2 1000 ->
  secant func fuel lo hi tol max_its fallback nargs = Ok (x, n, false) ->
  exists prev, number prev /\ close_enough (val tol) prev x /\
    forall y, func x = Ok y ->
      Rabs (val y) <= (2 + / 1000) * (L * slack (val tol) (val prev) (val x)) + 3 * e + powerRZ 2 (-570).
Proof.
  intros H. destruct overflow_accepted as (func & L & lo & hi & tol & x & n & A1 & A2 & A3 & A4 & A5 & A6 & A7 & A8 & y & Ey & K).
  destruct (H func L 0 lo hi tol None false 0%nat 5%nat x n A1 A2 A3 (Rle_refl 0) A4 A5 A6 A7 A8) as (prev & Np & C & B).
  specialize (B y Ey). specialize (K prev Np C). lra.
Qed.

Lemma limits_case : double_valued guarded /\ starting (PInt 1) /\ starting (PInt 2) /\
  match secant guarded 20 (PInt 1) (PInt 2) default_tol (Some 7%Z) false 0, secant guarded 20 (PInt 1) (PInt 2) default_tol (Some 6%Z) false 0 with
  | Ok (x, n, false), Err ValueError => nltb (fl 1414213562 1000000000) x && nltb x (fl 1414213563 1000000000) && (n =? 6)%Z
  | _, _ => false end = true.
Proof.
  destruct guarded_case as (_ & _ & D & S1 & S2 & _). split; [exact D|]. split; [exact S1|]. split; [exact S2|]. vm_compute. reflexivity.
Qed.

(** A tolerance of nan: the loop is never entered and [x_3] is read unassigned (line 255, UnboundLocalError). *)
Lemma nan_tolerance : secant guarded 20 (PInt 1) (PInt 2) (PFlt S754_nan) (Some 20%Z) false 0 = Err AttributeError.
Proof. vm_compute. reflexivity. Qed.
