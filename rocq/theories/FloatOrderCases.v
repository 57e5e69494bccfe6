(** Concrete cases for C128-C130. *)

From Coq Require Import ZArith Reals List Bool Lra Lia String Floats.SpecFloat.
From Verif Require Import Base Num PyNum FloatSpec FloatValSpec FloatUtilSpec FloatRound FloatOps FloatFacts FloatError FloatUtil FloatCheck
  FloatBeam FloatCalc FloatOrderSpec FloatOrder FloatMono FloatNc FloatDesignCases FloatPow NumS6 NumSect NumFormulas FloatNcCases Symmetry.
Import ListNotations.
Open Scope string_scope.
Open Scope R_scope.

Lemma some_dec f : match f with S754_nan => false | S754_finite _ m e => bounded f64 e64 m e | _ => true end = true ->
  some_double (PFlt f).
Proof. intros H. apply some_nn. exists f. split; [reflexivity|]. destruct f; try discriminate; [left; exact I|right; eauto|left; exact H]. Qed.

Lemma pos_dec f : match f with S754_finite false m e => bounded f64 e64 m e | _ => false end = true -> positive (PFlt f).
Proof.
  intros H. apply pos_fin. exists f. split; [reflexivity|]. destruct f as [| | |[] m e]; try discriminate. split; [exact H|].
  cbn [sfR signed]. apply Rmult_lt_0_compat; [apply IZR_lt; lia|apply bp_pos].
Qed.

Lemma pgrows_dec f g : match f with S754_finite false m e => bounded f64 e64 m e | _ => false end = true ->
  match g with S754_finite false m e => bounded f64 e64 m e | _ => false end = true -> fle f g = true -> pgrows (PFlt f) (PFlt g).
Proof. intros F G L. split; [now apply pos_dec|]. split; [now apply pos_dec|exact L]. Qed.

Ltac pg := match goal with |- pgrows ?x ?y => let a := eval vm_compute in x in let b := eval vm_compute in y in
  change (pgrows a b); apply pgrows_dec; vm_compute; reflexivity end.

Lemma grow_case : grows (fl 0 1) (PFlt (S754_infinity false)) /\ grows (fl 1 10) (fl 3 10) /\ pgrows (fl 250 1) (fl 350 1) /\
  pgrows (fl 9 10) (fl 9 10).
Proof.
  split; [|split; [apply pgrows_grows; pg|split; pg]].
  apply grows_fl. exists (S754_zero false), (S754_infinity false). split; [vm_compute; reflexivity|]. split; [reflexivity|].
  split; [left; exact I|]. split; [right; eauto|]. repeat split; reflexivity.
Qed.

(** A column whose four capacities are all different. *)
Definition slim : nsect pynum := mk_nsect (fl 5 1000) (fl 1 1) (fl 8 100) (fl 4 100) (fl 0 1) (fl 0 1)
  (fl 1 100000000) (fl 0 1) (fl 300000000 1) (fl 200000000000 1) (fl 80000000000 1).

Lemma slim_case : exists s ps x px y py z pz c pc,
  ns6_1_1_Nc soft_pow (fun _ _ _ _ => []) slim (fl 3 1) (fl 1 1) (fl 1 1) (fl 1 1) (Some [AxStr "x"; AxStr "y"])
    (fl 250000000 1) (fl 5 10) (fl 85 100) (fl 9 10) true true = Ok [s; ps; x; px; y; py; z; pz; c; pc] /\
  (forall v, In (Some v) [s; x; y; z] -> some_double v) /\ positive (fl 9 10) /\ c = z /\ z <> x /\ x <> y /\ y <> s.
Proof.
  do 10 eexists. split; [vm_compute; reflexivity|]. split.
  - intros v H. repeat (destruct H as [H|H]; [injection H as <-; apply some_dec; vm_compute; reflexivity|]). destruct H.
  - split; [let a := eval vm_compute in (fl 9 10) in change (positive a); apply pos_dec; vm_compute; reflexivity|].
    split; [reflexivity|]. repeat split; discriminate.
Qed.

Lemma euler_case : exists n n', nN_euler (fl 200 1) (fl 4 10) (fl 5 1) = Ok n /\ nN_euler (fl 200 1) (fl 5 10) (fl 4 1) = Ok n' /\
  nisnan n = false /\ nisnan n' = false /\ n <> n'.
Proof. do 2 eexists. split; [vm_compute; reflexivity|]. split; [vm_compute; reflexivity|]. repeat split; discriminate. Qed.

Lemma diameter_case : exists r, ns6_2_d_e_CHS soft_pow (fl 1 10) (fl 100 1) (fl 82 1) = Ok r /\ some_double (fl 1 10) /\ some_double r /\
  r <> fl 1 10.
Proof.
  eexists. split; [vm_compute; reflexivity|]. split; [let a := eval vm_compute in (fl 1 10) in change (some_double a); apply some_dec; vm_compute; reflexivity|].
  split; [apply some_dec; vm_compute; reflexivity|discriminate].
Qed.

Lemma plate_case : moderate (fl 2 10) /\ moderate (fl 1 100) /\ moderate (fl 300 1) /\ moderate (fl 40 1) /\ moderate (fl 250 1) /\
  exists r, ns6_2_A_e_flatplate soft_pow (fl 5 10) (fl 1 100) (fl 300 1) (fl 40 1) (fl 250 1) = Ok r.
Proof. repeat (split; [mods|]). eexists. vm_compute. reflexivity. Qed.
