(** Concrete cases for bisection on doubles. *)

From Coq Require Import ZArith Reals List Bool Lra Lia Floats.SpecFloat.
From Verif Require Import Base Num PyNum Solvers SolverSpec FloatSpec FloatValSpec FloatRound FloatOps FloatFacts FloatSolvers
  FloatError FloatUtil FloatBisectSpec FloatBisect.
Open Scope R_scope.

(** [x - 1/3] *)
Definition third (x : pynum) : res pynum := Ok (nsub x (fl 1 3)).

Lemma third_val : fin64 (match fl 1 3 with PFlt f => f | _ => S754_nan end) /\ 33 / 100 <= val (fl 1 3) <= 34 / 100.
Proof.
  split; [vm_compute; reflexivity|].
  replace (fl 1 3) with (PFlt (S754_finite false 6004799503160661 (-54))) by (vm_compute; reflexivity).
  rewrite val_sfR. cbn [sfR signed]. assert (E : bp (-54) * bp 54 = 1) by (rewrite <- bp_add; apply bp_0).
  rewrite (bp_Z 54) in E by lia. change (2 ^ 54)%Z with 18014398509481984%Z in E. lra.
Qed.

Lemma seven_val : fin64 (match fl 7 10 with PFlt f => f | _ => S754_nan end) /\ 69 / 100 <= val (fl 7 10) <= 71 / 100.
Proof.
  split; [vm_compute; reflexivity|].
  replace (fl 7 10) with (PFlt (S754_finite false 6305039478318694 (-53))) by (vm_compute; reflexivity).
  rewrite val_sfR. cbn [sfR signed]. assert (E : bp (-53) * bp 53 = 1) by (rewrite <- bp_add; apply bp_0).
  rewrite (bp_Z 53) in E by lia. change (2 ^ 53)%Z with 9007199254740992%Z in E. lra.
Qed.

Lemma third_finite x : in_bracket (PInt 0) (fl 7 10) x -> exists y, third x = Ok y /\ finite_double y.
Proof.
  intros ([(z & ->)|(f & -> & V)] & B); unfold third; (eexists; split; [reflexivity|]).
  - assert (E : z = 0%Z).
    { destruct seven_val as (F7 & V7). assert (F : finp (fl 7 10)) by (vm_compute; reflexivity).
      assert (Fz : forall n, finp (PInt n)) by (intros; exact Logic.I).
      destruct B as [(L1 & L2)|(L1 & L2)].
      - pose proof (proj1 (leb_val (PInt 0) (PInt z) (Fz _) (Fz _)) L1) as K1. pose proof (proj1 (leb_val (PInt z) (fl 7 10) (Fz _) F) L2) as K2.
        change (val (PInt 0)) with 0 in K1. change (val (PInt z)) with (IZR z) in K1, K2.
        apply le_IZR in K1. assert (z < 1)%Z by (apply lt_IZR; lra). lia.
      - pose proof (proj1 (leb_val (fl 7 10) (PInt z) F (Fz _)) L1) as K1. pose proof (proj1 (leb_val (PInt z) (PInt 0) (Fz _) (Fz _)) L2) as K2.
        change (val (PInt 0)) with 0 in K2. lra. }
    subst z. vm_compute. repeat split. eexists. split; reflexivity.
  - assert (F7 : finp (fl 7 10)) by (vm_compute; reflexivity). assert (F0 : finp (PInt 0)) by exact Logic.I.
    destruct seven_val as (_ & V7), third_val as (_ & V3).
    assert (F : fin64 f).
    { pose proof (valid_cases f V) as C. clear V V3 V7. destruct C as [F|[(s & E)|E]]; [exact F|exfalso|exfalso]; subst f; unfold between in B.
      - destruct s; destruct B as [(L1 & L2)|(L1 & L2)]; first [discriminate L1|discriminate L2].
      - destruct B as [(L1 & L2)|(L1 & L2)]; discriminate L2. }
    assert (R : 0 <= sfR f <= 71 / 100).
    { rewrite <- val_sfR. assert (Ff : finp (PFlt f)) by exact F. destruct B as [(L1 & L2)|(L1 & L2)].
      - pose proof (proj1 (leb_val (PInt 0) (PFlt f) F0 Ff) L1) as K1. pose proof (proj1 (leb_val (PFlt f) (fl 7 10) Ff F7) L2) as K2.
        change (val (PInt 0)) with 0 in K1. lra.
      - pose proof (proj1 (leb_val (fl 7 10) (PFlt f) F7 Ff) L1) as K1. pose proof (proj1 (leb_val (PFlt f) (PInt 0) Ff F0) L2) as K2.
        change (val (PInt 0)) with 0 in K2. lra. }
    revert V3. replace (fl 1 3) with (PFlt (S754_finite false 6004799503160661 (-54))) by (vm_compute; reflexivity). rewrite val_sfR. intros V3.
    assert (F3 : fin64 (S754_finite false 6004799503160661 (-54))) by reflexivity. pose proof (bp_ge_1 1022 ltac:(lia)) as B1.
    destruct (sub_rel f _ F F3) as (e & _ & Fs & _); [apply abs_le; lra|]. cbn [nsub PNum arith2 tofl]. now apply fin_double.
Qed.

Lemma bracket_start : starting (PInt 0) /\ starting (fl 7 10) /\ tolerance default_tol /\ isclose (fl 7 10) (PInt 0) default_tol = Ok false.
Proof.
  pose proof (bp_ge_1 1020 ltac:(lia)) as B1. change (bp 1020) with (powerRZ 2 1020) in B1. destruct seven_val as (_ & V7).
  split; [|split; [|split; [|vm_compute; reflexivity]]].
  - split; [left; exists 0%Z; split; [reflexivity|vm_compute; discriminate]|]. cbn [val]. rewrite Rabs_R0. lra.
  - split; [right; split; [split; [eexists; split; vm_compute; reflexivity|split; vm_compute; reflexivity]|vm_compute; reflexivity]|]. rewrite Rabs_right; lra.
  - split; [split; [eexists; split; vm_compute; reflexivity|split; vm_compute; reflexivity]|].
    rewrite (proj2 tol9_eq), val_sfR. pose proof tol9_val as T.
    apply Rle_trans with (bp (-140)); [change (bp (-500) <= bp (-140)); apply bp_le; lia|]. pose proof small_bp. lra.
Qed.

Lemma third_signs : exists yl yh, third (PInt 0) = Ok yl /\ third (fl 7 10) = Ok yh /\ val yl * val yh < 0.
Proof.
  exists (PFlt (S754_finite true 6004799503160661 (-54))), (PFlt (S754_finite false 6605279453476727 (-54))).
  split; [vm_compute; reflexivity|]. split; [vm_compute; reflexivity|]. rewrite !val_sfR. cbn [sfR signed].
  pose proof (bp_pos (-54)). nra.
Qed.

Lemma third_found : match bisection third (Z.to_nat 1800) (PInt 0) (fl 7 10) default_tol default_max_its true with
  | Ok (x, n) => nltb (fl 333333333 1000000000) x && nltb x (fl 333333335 1000000000) && (n =? 26)%Z
  | Err _ => false end = true.
Proof. vm_compute. reflexivity. Qed.

(** A constant function, 2^-600 everywhere, with a tolerance of 2^-700: the product of two of its values underflows to zero. *)
Definition small_const : pynum := PFlt (S754_finite false 4503599627370496 (-652)).
Definition small_tol : pynum := PFlt (S754_finite false 4503599627370496 (-752)).

Lemma const_accepted : exists (func : pynum -> res pynum) lo hi tol x n,
  starting lo /\ starting hi /\ finite_double tol /\ 0 < val tol /\
  (forall z, exists y, func z = Ok y /\ finite_double y /\ val tol < val y) /\
  bisection func 100 lo hi tol default_max_its true = Ok (x, n).
Proof.
  exists (fun _ => Ok small_const), (PInt 1), (PInt 2), small_tol.
  assert (E : exists x n, bisection (fun _ => Ok small_const) 100 (PInt 1) (PInt 2) small_tol default_max_its true = Ok (x, n)).
  { do 2 eexists. vm_compute. reflexivity. }
  destruct E as (x & n & E). exists x, n.
  assert (B : 2 <= powerRZ 2 1020) by (change (2 <= bp 1020); rewrite <- bp_1; apply bp_le; lia).
  split; [split; [left; exists 1%Z; split; [reflexivity|vm_compute; discriminate]|cbn [val]; rewrite Rabs_right; lra]|].
  split; [split; [left; exists 2%Z; split; [reflexivity|vm_compute; discriminate]|cbn [val]; rewrite Rabs_right; lra]|].
  split; [split; [eexists; split; vm_compute; reflexivity|split; vm_compute; reflexivity]|].
  assert (P : 0 < val small_tol) by (unfold small_tol; rewrite val_sfR; cbn [sfR signed]; pose proof (bp_pos (-752)); lra).
  split; [exact P|]. split; [|exact E]. intros z. exists small_const. split; [reflexivity|].
  split; [split; [eexists; split; vm_compute; reflexivity|split; vm_compute; reflexivity]|].
  unfold small_tol, small_const. rewrite !val_sfR. cbn [sfR signed]. pose proof (bp_lt (-752) (-652) ltac:(lia)). lra.
Qed.

(** A function that is 1 everywhere. *)
Lemma one_case : starting (PInt 0) /\ starting (fl 7 10) /\ tolerance default_tol /\ finite_double (fl 1 1) /\
  0 < val (fl 1 1) * val (fl 1 1) /\ val default_tol < Rabs (val (fl 1 1)).
Proof.
  destruct bracket_start as (A & B & C & _). split; auto. split; auto. split; auto.
  split; [split; [eexists; split; vm_compute; reflexivity|split; vm_compute; reflexivity]|].
  rewrite one_fin, (proj2 tol9_eq), !val_sfR, one_val. pose proof tol9_val. split; [lra|]. rewrite Rabs_right; lra.
Qed.

(** The width of the case. *)
Lemma third_width : Rabs (val (fl 7 10) - val (PInt 0)) <= val default_tol * (19 / 10) ^ 33.
Proof.
  destruct seven_val as (_ & V7). rewrite (proj2 tol9_eq), val_sfR. change (val (PInt 0)) with 0. pose proof tol9_val as T.
  assert (P : 1000000000 <= (19 / 10) ^ 33).
  { replace ((19 / 10) ^ 33) with (IZR (19 ^ 33) / IZR (10 ^ 33)).
    - apply Rmult_le_reg_r with (IZR (10 ^ 33)); [apply IZR_lt; reflexivity|].
      unfold Rdiv. rewrite Rmult_assoc, Rinv_l by (apply IZR_neq; discriminate). rewrite Rmult_1_r, <- mult_IZR. apply IZR_le. vm_compute. discriminate.
    - replace (IZR (19 ^ 33)) with (19 ^ 33) by (rewrite pow_IZR; reflexivity).
      replace (IZR (10 ^ 33)) with (10 ^ 33) by (rewrite pow_IZR; reflexivity). unfold Rdiv. rewrite Rpow_mult_distr, pow_inv. ring. }
  rewrite Rabs_right by lra. apply Rle_trans with (99 / 100000000000 * 1000000000); [lra|]. apply Rmult_le_compat; lra.
Qed.
