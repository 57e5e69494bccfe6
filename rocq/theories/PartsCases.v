(** A round bar in two load cases at three positions: the check over all of them is that of load case 2 at mid span. *)

From Coq Require Import ZArith Reals List Bool.
From Verif Require Import Base Num RNum PyNum Numpy LoadCase Beam Material AS4100 AS4100Cases Parts.
Import ListNotations.

Definition bar := bar_check (fl 3 1) (fl 1000000 1).
Definition stations : list pynum := [fl 1 1; fl 3 2; fl 149 100].
Definition good (r : res pynum) : bool := match r with Ok v => negb (nisnan v) | Err _ => false end.

Lemma bar_singles : forallb (fun c => forallb (fun p => good (single stable_argsort bar c p)) stations) [1; 2]%Z = true.
Proof. vm_compute. reflexivity. Qed.

Lemma bar_all c p : In c [1; 2]%Z -> In p stations -> exists v, single stable_argsort bar c p = Ok v /\ nisnan v = false.
Proof.
  intros Hc Hp. pose proof bar_singles as H. rewrite forallb_forall in H. specialize (H c Hc). rewrite forallb_forall in H.
  specialize (H p Hp). unfold good in H. destruct (single stable_argsort bar c p) as [v|]; [|discriminate].
  exists v. split; auto. now destruct (nisnan v).
Qed.

Definition joint_bar : bool :=
  match single stable_argsort bar 1 (fl 3 2), single stable_argsort bar 2 (fl 149 100), single stable_argsort bar 2 (fl 3 2),
        joint stable_argsort bar [1; 2]%Z stations with
  | Ok u, Ok v, Ok w, Ok x => nltb u v && nltb v w && neqb x w && nltb (nint 0) x
  | _, _, _, _ => false
  end.
Lemma bar_joint : joint_bar = true.
Proof. vm_compute. reflexivity. Qed.

Lemma bar_outside : joint stable_argsort bar [1; 2]%Z [fl 1 1; fl 4 1] = single stable_argsort bar 1 (fl 4 1) /\
  single stable_argsort bar 1 (fl 4 1) = Err PositionNotInBeamError.
Proof. split; vm_compute; reflexivity. Qed.
