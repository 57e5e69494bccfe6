(** math.pi is the double next to pi: an enclosure of pi from Machin's series. *)

From Coq Require Import ZArith Reals Lra Lia QArith Qreals.
Open Scope R_scope.

(** The terms of the series of the standard library as rational numbers. *)
Definition term (n : nat) : Q :=
  ((if Nat.even n then 1 else -1) *
   ((2 # Pos.of_nat (2 * n + 1)) * (1 # 3 ^ Pos.of_nat (2 * n + 1)) +
    (1 # Pos.of_nat (2 * n + 1)) * (1 # 7 ^ Pos.of_nat (2 * n + 1))))%Q.
Fixpoint partial (n : nat) : Q := match n with O => term 0 | S k => Qred (partial k + term n) end.

Lemma odd_R n : IZR (Z.pos (Pos.of_nat (2 * n + 1))) = INR (2 * n + 1).
Proof. rewrite INR_IZR_INZ. f_equal. lia. Qed.
Lemma odd_pow p n : IZR (Z.pos (p ^ Pos.of_nat (2 * n + 1))) = IZR (Z.pos p) ^ (2 * n + 1).
Proof.
  rewrite pow_IZR, Pos2Z.inj_pow. f_equal. f_equal. lia.
Qed.
Lemma sign_R n : Q2R (if Nat.even n then 1 else -1) = (-1) ^ n.
Proof.
  induction n as [|n IH]; [cbn; apply RMicromega.Q2R_1|].
  rewrite Nat.even_succ, <- Nat.negb_even. cbn [pow]. rewrite <- IH. destruct (Nat.even n); unfold Q2R; cbn; lra.
Qed.

Lemma term_R n : Q2R (term n) = tg_alt PI_2_3_7_tg n.
Proof.
  unfold term, tg_alt, PI_2_3_7_tg, Ratan_seq. rewrite Q2R_mult, Q2R_plus, !Q2R_mult, sign_R. f_equal.
  unfold Q2R. cbn [Qnum Qden]. rewrite !odd_R, !odd_pow, !pow_inv.
  assert (INR (2 * n + 1) <> 0) by (apply not_0_INR; lia).
  assert (3 ^ (2 * n + 1) <> 0) by (apply pow_nonzero; lra). assert (7 ^ (2 * n + 1) <> 0) by (apply pow_nonzero; lra).
  field. auto.
Qed.
Lemma partial_R n : Q2R (partial n) = sum_f_R0 (tg_alt PI_2_3_7_tg) n.
Proof.
  induction n as [|n IH]; [apply term_R|]. cbn [partial sum_f_R0].
  rewrite (Qeq_eqR _ _ (Qred_correct _)), Q2R_plus, IH, term_R. reflexivity.
Qed.

(** pi to within 2^-60. *)
Lemma PI_near : IZR 3622009729038561421 * / IZR (2 ^ 60) <= PI <= IZR 3622009729038561422 * / IZR (2 ^ 60).
Proof.
  destruct (PI_2_3_7_ineq 10) as [L U]. rewrite <- !partial_R in L, U.
  assert (B1 : IZR 3622009729038561421 * / IZR (2 ^ 62) <= Q2R (partial (S (2 * 10)))).
  { replace (IZR 3622009729038561421 * / IZR (2 ^ 62)) with (Q2R (3622009729038561421 # 2 ^ 62)) by reflexivity.
    apply Qle_Rle. apply Qle_bool_iff. vm_compute. reflexivity. }
  assert (B2 : Q2R (partial (2 * 10)) <= IZR 3622009729038561422 * / IZR (2 ^ 62)).
  { replace (IZR 3622009729038561422 * / IZR (2 ^ 62)) with (Q2R (3622009729038561422 # 2 ^ 62)) by reflexivity.
    apply Qle_Rle. apply Qle_bool_iff. vm_compute. reflexivity. }
  change (2 ^ 62)%Z with (4 * 2 ^ 60)%Z in B1, B2. rewrite mult_IZR in B1, B2. cbn [Z.pow Z.pow_pos Pos.iter Z.mul Pos.mul] in *. lra.
Qed.
