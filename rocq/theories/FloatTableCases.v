(** Tables of doubles for the examples of P_FloatTable.v. *)

From Coq Require Import ZArith List Bool Sorted Floats.SpecFloat.
From Verif Require Import Base Num PyNum Numpy LoadCase LoadSpec FloatSpec FloatCases FloatTableSpec.
Import ListNotations.

Definition drow (p v : pynum) : lrow pynum := mk_lrow p v (fl 1 3) (fl (-7) 10) (fl 0 1) v (fl 5 1).

(** A jump at 0.1, the last row at 0.7. *)
Definition dtab : list (lrow pynum) :=
  [drow (fl 1 10) (fl 2 1); drow (fl 1 10) (fl (-3) 1); drow (fl 7 10) (fl 1 7)].

(** The greatest double below 0.1. *)
Definition below_tenth : pynum := PFlt (S754_finite false 7205759403792793 (-56)).

(** Two adjacent doubles in the wrong order. *)
Definition dswap : list (lrow pynum) := [drow (fl 1 10) (fl 2 1); drow below_tenth (fl 2 1)].

Ltac a_double_row := unfold double_row; cbn [seven drow lpos lVX lVY lN lMX lMY lT]; repeat (apply Forall_cons; [a_double|]); apply Forall_nil.

Lemma dtab_double : Forall double_row dtab.
Proof. unfold dtab. repeat (apply Forall_cons; [a_double_row|]). apply Forall_nil. Qed.

Lemma dswap_double : Forall double_row dswap.
Proof. unfold dswap. repeat (apply Forall_cons; [a_double_row|]). apply Forall_nil. Qed.

Lemma dtab_wf : well_formed_double dtab.
Proof.
  split; [repeat (apply Forall_cons; [split; vm_compute; reflexivity|]); apply Forall_nil|].
  repeat (apply SSorted_cons; [|repeat (apply Forall_cons; [vm_compute; reflexivity|]); apply Forall_nil]). apply SSorted_nil.
Qed.

Lemma dswap_bad : ~ well_formed_double dswap /\ load_case (InRows (map seven dswap)) = Err AssertionError.
Proof.
  split; [|vm_compute; reflexivity]. intros [_ S]. inversion S as [|? ? _ F]; subst. inversion F as [|? ? H _]; subst.
  vm_compute in H. discriminate H.
Qed.

(** What [get_load] returns for three positions at least: 0.0, 0.1 twice, 0.5, 0.7 and 1.0. *)
Lemma dtab_out : exists out, get_load stable_argsort (Some dtab) PosNone (Some 3%Z) CNone = Ok (Some out) /\
  map fst out = [fl 0 1; fl 1 10; fl 1 10; fl 1 2; fl 7 10; fl 1 1].
Proof. eexists. split; vm_compute; reflexivity. Qed.

Lemma dtab_points : Forall unit_double [fl 1 2; fl 1 10; fl 3 10; fl 1 2].
Proof. repeat (apply Forall_cons; [split; [a_finite|split; vm_compute; reflexivity]|]). apply Forall_nil. Qed.
