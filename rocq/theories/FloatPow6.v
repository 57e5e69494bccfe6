(** A power function that meets [full_pow]. *)

From Coq Require Import ZArith Reals List Bool Lia Lra Psatz Floats.SpecFloat.
From Verif Require Import Base Num PyNum FloatSpec FloatValSpec FloatRound FloatOps FloatFacts FloatError FloatUtil
  FloatUtilSpec FloatCheck FloatLocs FloatCapacity FloatRoot FloatFormulaSpec FloatS6Spec FloatCalc FloatNear FloatTorsion FloatPow.
Import ListNotations.
Open Scope R_scope.

(** 0.658 to the power [y], rounded to a multiple of 2^-53 (in the reals, so not computable). *)
Definition near53 (v : R) : pynum := PFlt (SFdiv f64 e64 (sf_of_Z (Int_part (v * bp 53 + / 2))) (sf_of_Z (2 ^ 53))).
Definition tiny : pynum := PFlt (S754_finite false 4503599627370496 (-1052)).

Definition real_pow (x y : pynum) : res pynum :=
  match x, y with
  | PFlt f, PFlt _ =>
      if py_eqb y (fl 1 2) then
        if py_ltb x (PInt 0) then Err EComplex
        else if py_ltb x tiny then Ok (PFlt (S754_zero false)) else Ok (PFlt (SFsqrt f64 e64 f))
      else if py_eqb x (fl 658 1000) then Ok (near53 (Rpower (val x) (val y))) else Err ValueError
  | PFlt f, PInt 2 => Ok (nmul x x)
  | PFlt f, PInt 3 => Ok (nmul (nmul x x) x)
  | _, _ => Err ValueError
  end.

Lemma half_lit : fl 1 2 = PFlt (S754_finite false 4503599627370496 (-53)).
Proof. vm_compute. reflexivity. Qed.
Lemma half_val : val (fl 1 2) = 1 / 2.
Proof.
  rewrite half_lit, val_sfR. cbn [sfR signed]. change (-53)%Z with (- (53))%Z. rewrite <- bp_inv, bp_Z by lia.
  change (2 ^ 53)%Z with 9007199254740992%Z. lra.
Qed.
Lemma tiny_val : finite_double tiny /\ val tiny = bp (-1000).
Proof.
  split.
  - apply fin_double. cbn. vm_compute. reflexivity.
  - unfold tiny. rewrite val_sfR. cbn [sfR signed]. replace (IZR (Z.pos 4503599627370496)) with (bp 52) by (rewrite bp_Z by lia; reflexivity).
    rewrite <- bp_add. reflexivity.
Qed.

Lemma base_val : finite_double (fl 658 1000) /\ Rabs (val (fl 658 1000) - 658 / 1000) <= u53.
Proof.
  pose proof (clit 658 1000 ltac:(lia) ltac:(lia)) as (F & E & _). split; [exact F|]. change (@nflt pynum PNum 658 1000) with (fl 658 1000) in E.
  apply Rle_trans with (1 := E). pose proof u53_small. lra.
Qed.

Lemma near53_acc v : 1 / 4 <= v <= 1 -> accurate 51 (near53 v) v.
Proof.
  intros H. unfold near53. pose proof u53_small as U. pose proof (bp_pos 53) as P53.
  assert (U53 : u53 * bp 53 = 1) by (unfold u53; rewrite <- bp_add; apply bp_0).
  destruct (base_Int_part (v * bp 53 + / 2)) as [I1 I2]. set (n := Int_part (v * bp 53 + / 2)) in *.
  assert (B53 : bp 53 = IZR (2 ^ 53)) by (rewrite bp_Z by lia; reflexivity).
  assert (Hn : (0 <= n <= 2 ^ 53)%Z).
  { split.
    - apply le_IZR. apply Rlt_le. apply Rlt_le_trans with (v * bp 53 + / 2 - 1); [|lra].
      assert (1 / 4 * 4 <= v * bp 53); [|lra]. apply Rmult_le_compat; lra.
    - apply Z.lt_succ_r. apply lt_IZR. rewrite succ_IZR, <- B53. assert (v * bp 53 <= 1 * bp 53) by (apply Rmult_le_compat_r; lra). lra. }
  destruct (small_int n Hn) as [Fn Vn]. destruct (small_int (2 ^ 53)) as [Fd Vd]; [lia|].
  rewrite <- B53 in Vd.
  assert (E1 : Rabs (IZR n / bp 53 - v) <= u53 / 2).
  { replace (IZR n / bp 53 - v) with ((IZR n - v * bp 53) * / bp 53) by (field; lra). rewrite Rabs_mult.
    rewrite (Rabs_right (/ bp 53)) by (apply Rle_ge, Rlt_le, Rinv_0_lt_compat; lra).
    replace (/ bp 53) with u53 by (apply Rmult_eq_reg_r with (bp 53); [|lra]; rewrite U53, Rinv_l; lra).
    replace (u53 / 2) with (/ 2 * u53) by field. apply Rmult_le_compat_r; [lra|]. apply abs_le. lra. }
  assert (B1 : Rabs (IZR n / bp 53) <= 2) by (apply abs_le in E1; apply abs_le; lra).
  destruct (op_err _ _ (div_rounds _ _ Fn Fd ltac:(rewrite Vd; lra))) as [F E].
  { rewrite Vn, Vd. apply Rle_trans with (1 := B1). rewrite <- bp_1. apply bp_le. lia. }
  split; [exact F|]. rewrite Vn, Vd in E. change (powerRZ 2 (- (51))) with (bp (-51)). rewrite bp51, (Rabs_right v) by lra.
  pose proof h_small as Hh. set (r := val (PFlt (SFdiv f64 e64 (sf_of_Z n) (sf_of_Z (2 ^ 53))))) in *.
  assert (B2 : u53 * Rabs (IZR n / bp 53) <= u53 * (v + u53 / 2)).
  { apply Rmult_le_compat_l; [lra|]. apply abs_le in E1. apply abs_le. lra. }
  assert (u53 * (v + u53 / 2) <= u53 * (v + 1 / 1000)) by (apply Rmult_le_compat_l; lra).
  assert (u53 * 1 <= u53 * (4 * v)) by (apply Rmult_le_compat_l; lra).
  apply abs_le in E, E1. apply abs_le. lra.
Qed.

Lemma ln_nonpos b : 0 < b <= 1 -> ln b <= 0.
Proof. intros H. destruct (Req_dec b 1) as [->|N]; [rewrite ln_1; lra|]. left. rewrite <- ln_1. apply ln_increasing; lra. Qed.

Lemma Rpower_range b y : 65 / 100 <= b <= 1 -> 0 <= y <= 3 -> 1 / 4 <= Rpower b y <= 1.
Proof.
  intros Hb Hy. pose proof (ln_nonpos b ltac:(lra)) as L0. split.
  - apply Rle_trans with (Rpower b 3).
    + replace 3 with (INR 3) by (cbn; lra). rewrite Rpower_pow by lra. apply Rle_trans with ((65 / 100) ^ 3); [lra|]. apply pow_incr. lra.
    + unfold Rpower. assert (3 * ln b <= y * ln b) as [L|E].
      { assert ((3 - y) * ln b <= 0); [|lra]. rewrite <- (Rmult_0_r (3 - y)). apply Rmult_le_compat_l; lra. }
      * left. now apply exp_increasing.
      * rewrite E. lra.
  - unfold Rpower. rewrite <- exp_0. assert (y * ln b <= 0) as [L|E].
    { rewrite <- (Rmult_0_r y). apply Rmult_le_compat_l; lra. }
    * left. now apply exp_increasing.
    * rewrite E. lra.
Qed.

Lemma soft_half x f : x = PFlt f -> real_pow x (fl 1 2) = if py_ltb x (PInt 0) then Err EComplex
  else if py_ltb x tiny then Ok (PFlt (S754_zero false)) else Ok (PFlt (SFsqrt f64 e64 f)).
Proof. intros ->. unfold real_pow. rewrite half_lit. reflexivity. Qed.

Lemma real_full : full_pow real_pow.
Proof.
  destruct tiny_val as [Ft Vt]. pose proof u53_small as U.
  assert (RT : forall x, finite_double x -> bp (-1000) <= val x <= bp 1000 ->
    exists r, real_pow x (fl 1 2) = Ok r /\ accurate 51 r (sqrt (val x))).
  { intros x F B. destruct (proj1 (finite_double_fin x) F) as (f & -> & G). rewrite (soft_half _ f eq_refl).
    pose proof (bp_pos (-1000)) as P.
    rewrite ltb_f; [|now apply finite_finp|exact I|change (val (PInt 0)) with 0; lra].
    rewrite ltb_f; [|now apply finite_finp|now apply finite_finp|rewrite Vt; lra].
    destruct (good_root soft_pow soft_good (PFlt f) F B) as (r & Er & A). exists r. split; [|exact A].
    unfold soft_pow in Er. rewrite half_lit in Er. exact Er. }
  constructor.
  - constructor.
    + exact RT.
    + intros x F B. destruct (good_square soft_pow soft_good x F B) as (r & Er & A). exists r. split; [|exact A].
      destruct x; exact Er.
    + intros x F B. destruct (good_cube soft_pow soft_good x F B) as (r & Er & A). exists r. split; [|exact A].
      destruct x; exact Er.
  - intros x F B. destruct (proj1 (finite_double_fin x) F) as (f & -> & G). exists (nmul (PFlt f) (PFlt f)). split; [reflexivity|].
    change (nmul (PFlt f) (PFlt f)) with (PFlt (SFmul f64 e64 f f)). change (powerRZ 2 500) with (bp 500) in B. rewrite val_sfR in B.
    assert (S2 : 0 <= sfR f * sfR f) by apply (Rle_0_sqr (sfR f)).
    destruct (op_err _ _ (mul_rounds f f G G)) as [F' E].
    { rewrite Rabs_mult. apply Rle_trans with (bp 500 * bp 500); [apply Rmult_le_compat; auto using Rabs_pos|]. rewrite <- bp_add. apply bp_le. lia. }
    split; [exact F'|]. rewrite (val_sfR f). change (powerRZ 2 (-51)) with (bp (-51)). change (powerRZ 2 (-1000)) with (bp (-1000)). rewrite bp51.
    replace (sfR f ^ 2) with (sfR f * sfR f) by ring. rewrite (Rabs_right (sfR f * sfR f)) in E by lra.
    assert (h75 <= bp (-1000)) by (unfold h75; apply bp_le; lia).
    assert (0 <= u53 * (sfR f * sfR f)) by (apply Rmult_le_pos; lra). lra.
  - intros x F B. change (powerRZ 2 1000) with (bp 1000) in B. destruct (Rlt_le_dec (val x) (bp (-1000))) as [L|L].
    + destruct (proj1 (finite_double_fin x) F) as (f & -> & G). exists (PFlt (S754_zero false)). rewrite (soft_half _ f eq_refl).
      rewrite ltb_f; [|now apply finite_finp|exact I|change (val (PInt 0)) with 0; lra].
      rewrite ltb_t; [|now apply finite_finp|now apply finite_finp|rewrite Vt; lra]. split; [reflexivity|].
      split; [apply fin_double; exact I|]. rewrite (val_sfR (S754_zero false)). cbn [sfR].
      change (powerRZ 2 (-51)) with (bp (-51)). change (powerRZ 2 (-500)) with (bp (-500)).
      pose proof (sqrt_pos (val (PFlt f))) as SP. rewrite Rminus_0_l, Rabs_Ropp, Rabs_right by lra.
      assert (sqrt (val (PFlt f)) <= bp (-500)).
      { rewrite <- (sqrt_square (bp (-500))) by (left; apply bp_pos). apply sqrt_le_1_alt. rewrite <- bp_add. change (-500 + -500)%Z with (-1000)%Z. lra. }
      assert (0 <= bp (-51) * sqrt (val (PFlt f))) by (apply Rmult_le_pos; [left; apply bp_pos|exact SP]). lra.
    + destruct (RT x F ltac:(lra)) as (r & Er & Fr & A). exists r. split; [exact Er|]. split; [exact Fr|].
      rewrite (Rabs_right (sqrt (val x))) in A by (apply Rle_ge, sqrt_pos). apply Rle_trans with (1 := A).
      change (powerRZ 2 (-500)) with (bp (-500)). pose proof (bp_pos (-500)). change (- (51))%Z with (-51)%Z. lra.
  - intros x F L. destruct (proj1 (finite_double_fin x) F) as (f & -> & G). rewrite (soft_half _ f eq_refl).
    rewrite ltb_t; [reflexivity|now apply finite_finp|exact I|exact L].
  - intros y F B. destruct base_val as [Fb Eb]. pose proof u53_val as U'.
    destruct (proj1 (finite_double_fin y) F) as (g & -> & G). destruct (proj1 (finite_double_fin _) Fb) as (f & Ef & Gf).
    assert (Rb : 65 / 100 <= val (fl 658 1000) <= 1) by (apply abs_le in Eb; lra).
    destruct (py_eqb (PFlt g) (fl 1 2)) eqn:EQ.
    + assert (Vy : val (PFlt g) = 1 / 2).
      { destruct (Req_dec (val (PFlt g)) (1 / 2)) as [E|N]; [exact E|]. rewrite eqb_f in EQ; [discriminate| | |rewrite half_val; exact N].
        - now apply finite_finp. - apply finite_finp. rewrite half_lit. apply fin_double. vm_compute. reflexivity. }
      destruct (RT (fl 658 1000) Fb) as (r & Er & A).
      { split; [apply Rle_trans with (bp (-1)); [apply bp_le; lia|]; change (-1)%Z with (- (1))%Z; rewrite <- bp_inv, bp_1; lra|].
        apply Rle_trans with (bp 0); [rewrite bp_0; lra|apply bp_le; lia]. }
      exists r. split.
      * rewrite Ef in *. rewrite (soft_half _ f eq_refl) in Er. cbn [real_pow]. rewrite EQ. exact Er.
      * apply accurate_eq with (2 := A). rewrite Vy, <- Rpower_sqrt by lra. f_equal. lra.
    + exists (near53 (Rpower (val (fl 658 1000)) (val (PFlt g)))). split.
      * rewrite Ef. cbn [real_pow]. rewrite EQ. rewrite <- Ef. replace (py_eqb (fl 658 1000) (fl 658 1000)) with true by (vm_compute; reflexivity).
        reflexivity.
      * apply near53_acc. apply Rpower_range; assumption.
Qed.
