(** The exact-arithmetic instance: real numbers.  Every real counts as a "float"
    ([nisfloat] is always true), conversions are the identity.  [ndiv x 0] is Coq's
    unspecified [x * / 0]; the model guards divisions (see [pydiv]). *)

From Coq Require Import ZArith Reals List Bool Lra.
From Verif Require Import Base Num.
Open Scope R_scope.

Definition Rleb (x y : R) : bool := if Rle_dec x y then true else false.
Definition Rltb (x y : R) : bool := if Rlt_dec x y then true else false.
Definition Reqb (x y : R) : bool := if Req_EM_T x y then true else false.

Global Instance RNum : Num R := {
  nint z := IZR z;
  nflt n d := IZR n / IZR (Zpos d);
  nadd := Rplus;
  nsub := Rminus;
  nmul := Rmult;
  ndiv := Rdiv;
  nneg := Ropp;
  nabs := Rabs;
  nleb := Rleb;
  nltb := Rltb;
  neqb := Reqb;
  nisfloat _ := true;
  nfloat x := x;
  ntrunc x := IZR (Int_part x);
  nisnan _ := false;
  nisinf _ := false;
  npi := PI
}.

Lemma Rleb_true x y : Rleb x y = true <-> x <= y.
Proof. unfold Rleb. destruct (Rle_dec x y); split; intros; auto; discriminate. Qed.
Lemma Rleb_false x y : Rleb x y = false <-> y < x.
Proof. unfold Rleb. destruct (Rle_dec x y); split; intros; try discriminate; auto; lra. Qed.
Lemma Rltb_true x y : Rltb x y = true <-> x < y.
Proof. unfold Rltb. destruct (Rlt_dec x y); split; intros; auto; discriminate. Qed.
Lemma Rltb_false x y : Rltb x y = false <-> y <= x.
Proof. unfold Rltb. destruct (Rlt_dec x y); split; intros; try discriminate; auto; lra. Qed.
Lemma Reqb_true x y : Reqb x y = true <-> x = y.
Proof. unfold Reqb. destruct (Req_EM_T x y); split; intros; auto; discriminate. Qed.
Lemma Reqb_false x y : Reqb x y = false <-> x <> y.
Proof. unfold Reqb. destruct (Req_EM_T x y); split; intros; try discriminate; auto; lra. Qed.
Lemma Reqb_refl x : Reqb x x = true.
Proof. now apply Reqb_true. Qed.

Definition Rok (_ : R) : Prop := True.

Global Instance RNumOrd : NumOrd R Rok.
Proof.
  constructor; cbn; intros; auto.
  - rewrite !Rleb_true. lra.
  - rewrite !Rleb_true in *. lra.
  - unfold Rltb, Rleb. destruct (Rlt_dec x y), (Rle_dec y x); auto; lra.
  - unfold Reqb, Rleb. destruct (Req_EM_T x y), (Rle_dec x y), (Rle_dec y x); auto; lra.
Qed.

(** Case-splitting on every comparison of reals in sight. *)
Ltac rcases :=
  repeat match goal with
  | H : Rleb _ _ = true |- _ => apply Rleb_true in H
  | H : Rleb _ _ = false |- _ => apply Rleb_false in H
  | H : Rltb _ _ = true |- _ => apply Rltb_true in H
  | H : Rltb _ _ = false |- _ => apply Rltb_false in H
  | H : Reqb _ _ = true |- _ => apply Reqb_true in H
  | H : Reqb _ _ = false |- _ => apply Reqb_false in H
  end.
