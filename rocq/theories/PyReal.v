(** Python arithmetic on floats read as exact real arithmetic, with Python's run-time
    failures kept: division by zero and fractional powers of negative numbers. *)

From Coq Require Import ZArith Reals List Lra.
From Verif Require Import Base Num RNum.
Open Scope R_scope.

(** [x / y]. *)
Definition rdiv (x y : R) : res R :=
  if Req_EM_T y 0 then Err ZeroDivisionError else Ok (x / y).

(** [x ** 0.5]: complex for negative [x]. *)
Definition rroot (x : R) : res R :=
  if Rlt_dec x 0 then Err EComplex else Ok (sqrt x).

Lemma rdiv_ok x y : y <> 0 -> rdiv x y = Ok (x / y).
Proof. intros H. unfold rdiv. now destruct (Req_EM_T y 0). Qed.
Lemma rdiv_0 x : rdiv x 0 = Err ZeroDivisionError.
Proof. unfold rdiv. now destruct (Req_EM_T 0 0). Qed.
Lemma rroot_ok x : 0 <= x -> rroot x = Ok (sqrt x).
Proof.
  intros H. unfold rroot. destruct (Rlt_dec x 0) as [L|L]; [|reflexivity].
  exfalso. apply (Rle_not_lt _ _ H L).
Qed.
Lemma rroot_neg x : x < 0 -> rroot x = Err EComplex.
Proof.
  intros H. unfold rroot. destruct (Rlt_dec x 0) as [L|L]; [reflexivity|].
  contradiction.
Qed.

Lemma pymin_R (a b : R) : pymin a b = Rmin a b.
Proof.
  unfold pymin. cbn. unfold Rltb, Rmin. destruct (Rlt_dec b a), (Rle_dec a b); lra.
Qed.
Lemma pymax_R (a b : R) : pymax a b = Rmax a b.
Proof.
  unfold pymax. cbn. unfold Rltb, Rmax. destruct (Rlt_dec a b), (Rle_dec a b); lra.
Qed.

(** Step through successful divisions and roots. *)
Ltac rstep :=
  match goal with
  | |- context [rdiv ?x ?y] => rewrite (rdiv_ok x y); cbn [bind]
  | |- context [rroot ?x] => rewrite (rroot_ok x); cbn [bind]
  end.

Lemma div_pos a b : 0 < a -> 0 < b -> 0 < a / b.
Proof. intros. apply Rmult_lt_0_compat; auto. now apply Rinv_0_lt_compat. Qed.
Lemma div_nonneg a b : 0 <= a -> 0 < b -> 0 <= a / b.
Proof. intros. apply Rmult_le_pos; auto. left. now apply Rinv_0_lt_compat. Qed.
Lemma div_le_l a a' b : 0 < b -> a <= a' -> a / b <= a' / b.
Proof. intros. apply Rmult_le_compat_r; auto. left. now apply Rinv_0_lt_compat. Qed.
Lemma div_lt_l a a' b : 0 < b -> a < a' -> a / b < a' / b.
Proof. intros. apply Rmult_lt_compat_r; auto. now apply Rinv_0_lt_compat. Qed.
Lemma div_le_r a b b' : 0 <= a -> 0 < b' -> b' <= b -> a / b <= a / b'.
Proof. intros. apply Rmult_le_compat_l; auto. now apply Rinv_le_contravar. Qed.
Lemma div_lt_r a b b' : 0 < a -> 0 < b' -> b' < b -> a / b < a / b'.
Proof.
  intros. apply Rmult_lt_compat_l; auto. apply Rinv_lt_contravar; auto.
  apply Rmult_lt_0_compat; lra.
Qed.
Lemma div_lt_1 a b : 0 < b -> a < b -> a / b < 1.
Proof.
  intros. apply Rmult_lt_reg_r with b; auto. unfold Rdiv.
  rewrite Rmult_assoc, Rinv_l by lra. lra.
Qed.
Lemma div_le_1 a b : 0 < b -> a <= b -> a / b <= 1.
Proof.
  intros. apply Rmult_le_reg_r with b; auto. unfold Rdiv.
  rewrite Rmult_assoc, Rinv_l by lra. lra.
Qed.

(** Positivity of products, quotients and roots, by their visible shape. *)
Ltac pos :=
  repeat match goal with
  | H : ?g |- ?g => exact H
  | |- 0 < PI => exact PI_RGT_0
  | |- 0 <= PI => left; exact PI_RGT_0
  | |- 0 < _ * _ => apply Rmult_lt_0_compat
  | |- 0 < _ / _ => apply div_pos
  | |- 0 < / _ => apply Rinv_0_lt_compat
  | |- 0 < sqrt _ => apply sqrt_lt_R0
  | |- 0 < _ ^ _ => apply pow_lt
  | |- 0 <= sqrt _ => apply sqrt_pos
  | |- 0 <= ?x * ?x => apply Rle_0_sqr
  | |- 0 <= _ * _ => apply Rmult_le_pos
  | |- 0 <= _ / _ => apply div_nonneg
  end; try lra.
