(** A power function that meets [good_pow]: the correctly rounded square root and repeated products. *)

From Coq Require Import ZArith Reals List Bool Lia Lra Psatz Floats.SpecFloat.
From Verif Require Import Base Num PyNum FloatSpec FloatValSpec FloatRound FloatOps FloatFacts FloatError FloatUtil
  FloatUtilSpec FloatCheck FloatLocs FloatCapacity FloatRoot FloatFormulaSpec FloatCalc.
Import ListNotations.
Open Scope R_scope.

Definition soft_pow (x y : pynum) : res pynum :=
  match x, y with
  | PFlt f, PFlt _ => if py_eqb y (fl 1 2) then Ok (PFlt (SFsqrt f64 e64 f)) else Err ValueError
  | PFlt f, PInt 2 => Ok (nmul x x)
  | PFlt f, PInt 3 => Ok (nmul (nmul x x) x)
  | _, _ => Err ValueError
  end.

Lemma accurate_eq k x X Y : X = Y -> accurate k x X -> accurate k x Y.
Proof. now intros ->. Qed.

Lemma soft_good : good_pow soft_pow.
Proof.
  constructor; intros x F B.
  - destruct (proj1 (finite_double_fin x) F) as (f & -> & G). rewrite val_sfR in *.
    destruct (root_norm f G) as (e & He & Fr & Er).
    { change (powerRZ 2 (-1000)) with (bp (-1000)) in B. change (powerRZ 2 1000) with (bp 1000) in B.
      pose proof (bp_le (-1022) (-1000) ltac:(lia)). pose proof (bp_le 1000 1022 ltac:(lia)). lra. }
    exists (PFlt (SFsqrt f64 e64 f)). split; [unfold soft_pow; replace (fl 1 2) with (PFlt (S754_finite false 4503599627370496 (-53))) by (vm_compute; reflexivity); reflexivity|].
    split; [now apply fin_double|]. rewrite val_sfR, Er. change (powerRZ 2 (- (51))) with (bp (-51)). rewrite bp51.
    replace (sqrt (sfR f) * (1 + e) - sqrt (sfR f)) with (e * sqrt (sfR f)) by ring. rewrite Rabs_mult.
    apply Rmult_le_compat_r; [apply Rabs_pos|]. pose proof u53_small. lra.
  - assert (C : close 0 500 x (val x)).
    { split; [exact F|]. split; [rewrite Rminus_eq_0, Rabs_R0; lra|exact B]. }
    pose proof (cmul _ _ _ _ _ _ _ _ C C ltac:(lra) ltac:(lra) ltac:(lia) ltac:(lia) ltac:(lia)) as M.
    exists (nmul x x). split; [destruct (proj1 (finite_double_fin x) F) as (f & -> & _); reflexivity|].
    apply accurate_eq with (val x * val x); [ring|]. apply (close_units _ _ 2 _ _ M); [lia|]. change (2 ^ 2)%Z with 4%Z. lra.
  - assert (C : close 0 330 x (val x)).
    { split; [exact F|]. split; [rewrite Rminus_eq_0, Rabs_R0; lra|exact B]. }
    pose proof (cmul _ _ _ _ _ _ _ _ C C ltac:(lra) ltac:(lra) ltac:(lia) ltac:(lia) ltac:(lia)) as M.
    pose proof (cmul _ _ _ _ _ _ _ _ M C ltac:(lra) ltac:(lra) ltac:(lia) ltac:(lia) ltac:(lia)) as M3.
    exists (nmul (nmul x x) x). split; [destruct (proj1 (finite_double_fin x) F) as (f & -> & _); reflexivity|].
    apply accurate_eq with (val x * val x * val x); [ring|]. apply (close_units _ _ 2 _ _ M3); [lia|]. change (2 ^ 2)%Z with 4%Z. lra.
Qed.
