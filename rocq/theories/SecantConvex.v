(** The secant method on convex functions, started above the root (exact arithmetic). *)

From Coq Require Import ZArith Reals Lra Lia Psatz Bool List.
From Verif Require Import Base Num RNum Solvers SolverSpec SolverFacts.
Open Scope R_scope.

(** Convex from [r] upwards: the chords get steeper. *)
Definition convex_from (r : R) (f : R -> R) : Prop :=
  forall a b c, r <= a -> a < b -> b < c -> (f b - f a) * (c - b) <= (f c - f b) * (b - a).
(** Every chord from [r] upwards has slope 1 or more. *)
Definition rises_from (r : R) (f : R -> R) : Prop :=
  forall a b, r <= a -> a <= b -> b - a <= f b - f a.

Section Convex.
  Variables (f : R -> R) (r : R).
  Hypothesis Cx : convex_from r f.
  Hypothesis St : rises_from r f.
  Hypothesis Rt : f r = 0.

  Lemma next_sym a b : f b - f a <> 0 -> next_x f a b = next_x f b a.
  Proof. intros N. unfold next_x. field. lra. Qed.
  Lemma next_eq a b : f b - f a <> 0 -> next_x f a b = a - f a * (b - a) / (f b - f a).
  Proof. intros N. unfold next_x. field. exact N. Qed.

  Lemma above a : r <= a -> a - r <= f a.
  Proof. intros H. pose proof (St r a (Rle_refl r) H). lra. Qed.

  (** The chord through [a] and [b]. *)
  Lemma chord L a b : r <= a -> a < b -> f b - f a <= L * (b - a) ->
    let x := next_x f a b in
    r <= x <= a /\ x - r <= (1 - / L) * (a - r) /\ x - r <= L * (a - x)
    /\ f a - f x <= L * (a - x) /\ f b - f x <= L * (b - x).
  Proof.
    intros Ha Hb HL x. pose proof (St a b Ha (Rlt_le _ _ Hb)) as D1.
    pose proof (above a Ha) as D2.
    assert (HD : 0 < f b - f a) by lra.
    assert (L1 : 1 <= L) by nra.
    assert (Ex : (a - x) * (f b - f a) = f a * (b - a)).
    { unfold x. rewrite next_eq by lra. field. lra. }
    assert (X1 : x <= a).
    { apply Rnot_lt_le. intros X. assert (0 <= f a * (b - a)) by (apply Rmult_le_pos; lra). nra. }
    assert (X2 : r <= x).
    { destruct (Req_dec a r) as [->|N].
      - rewrite Rt in Ex. assert (r - x = 0) by nra. lra.
      - assert (r < a) as Hr by lra. pose proof (Cx r a b (Rle_refl r) Hr Hb) as C.
        rewrite Rt in C. apply Rnot_lt_le. intros X. nra. }
    assert (X3 : f a <= L * (a - x)).
    { (* f a (b-a) = (a-x) D <= (a-x) L (b-a) *)
      apply Rmult_le_reg_r with (b - a); [lra|]. rewrite <- Ex.
      replace (L * (a - x) * (b - a)) with ((a - x) * (L * (b - a))) by ring.
      apply Rmult_le_compat_l; lra. }
    assert (X4 : f a - f x <= L * (a - x)).
    { destruct (Req_dec x a) as [E|N]; [rewrite E; lra|].
      assert (x < a) as Hx by lra. pose proof (Cx x a b X2 Hx Hb) as C.
      apply Rmult_le_reg_r with (b - a); [lra|].
      apply Rle_trans with (1 := C). replace (L * (a - x) * (b - a)) with (L * (b - a) * (a - x)) by ring.
      apply Rmult_le_compat_r; lra. }
    split; [split; assumption|]. split.
    - assert (a - r <= L * (a - x)) as Q by lra.
      apply Rmult_le_reg_l with L; [lra|].
      replace (L * ((1 - / L) * (a - r))) with (L * (a - r) - (a - r)) by (field; lra). lra.
    - split; [pose proof (St r x (Rle_refl r) X2); pose proof (St x a X2 X1); lra|].
      split; [exact X4|lra].
  Qed.

  (** Numbers the loop keeps apart have values that it can tell apart. *)
  Lemma values_apart tol a b : 0 <= r -> 0 < tol -> r <= a -> a < b ->
    ~ indistinguishable tol a b -> ~ indistinguishable tol (f a) (f b).
  Proof.
    intros R0 T0 Ha Hb N I. apply N. clear N. unfold indistinguishable, slack in *.
    pose proof (St a b Ha (Rlt_le _ _ Hb)) as D1. pose proof (above a Ha) as D2.
    assert (r < b) as Hr by lra. pose proof (above b (Rlt_le _ _ Hr)) as D3.
    rewrite (Rabs_pos_eq (f b - f a)) in I by lra.
    rewrite (Rabs_pos_eq (f a)), (Rabs_pos_eq (f b)) in I by lra.
    rewrite (Rmax_right (f a) (f b)) in I by lra.
    rewrite (Rabs_pos_eq (b - a)) by lra.
    rewrite (Rabs_pos_eq a), (Rabs_pos_eq b) by lra. rewrite (Rmax_right a b) by lra.
    assert (K : f b * (b - a) <= (f b - f a) * (b - r)).
    { destruct (Req_dec a r) as [->|NE]; [rewrite Rt; lra|].
      assert (r < a) as Hra by lra. pose proof (Cx r a b (Rle_refl r) Hra Hb) as C.
      rewrite Rt in C. lra. }
    destruct (Rle_dec (f b - f a) tol) as [Q|Q].
    - apply Rle_trans with tol; [lra|apply Rmax_l].
    - assert (f b - f a <= / 1000000000 * f b) as Q2.
      { revert I. apply Rmax_case; intros I; [contradiction|exact I]. }
      apply Rle_trans with (2 := Rmax_r _ _).
      assert (0 < f b) as Fb by lra.
      assert (b - a <= / 1000000000 * (b - r)).
      { apply Rmult_le_reg_l with (f b); [exact Fb|]. apply Rle_trans with (1 := K).
        replace (f b * (/ 1000000000 * (b - r))) with ((/ 1000000000 * f b) * (b - r)) by ring.
        apply Rmult_le_compat_r; lra. }
      lra.
  Qed.

  Lemma below_limit mi (i : Z) (k : nat) : match mi with Some m => (i + Z.of_nat k + 1 < m)%Z | None => True end ->
    match mi with Some m => (m <=? i + 1)%Z | None => false end = false.
  Proof. destruct mi as [m|]; [|reflexivity]. intros H. apply Z.leb_gt. lia. Qed.

  Lemma stop_bound L tol x1 x2 X : 0 <= r -> 1 <= L -> r <= x2 -> x2 <= x1 -> x1 <= X ->
    x2 - r <= L * (x1 - x2) -> indistinguishable tol x1 x2 ->
    x2 - r <= L * Rmax tol (/ 1000000000 * X).
  Proof.
    intros R0 L1 H1 H2 HX HE D. apply Rle_trans with (1 := HE). apply Rmult_le_compat_l; [lra|].
    unfold indistinguishable, slack in D.
    rewrite Rabs_minus_sym, (Rabs_pos_eq (x1 - x2)) in D by lra.
    apply Rle_trans with (1 := D). apply Rle_max_compat_l. apply Rmult_le_compat_l; [lra|].
    rewrite !Rabs_pos_eq by lra. rewrite Rmax_left; lra.
  Qed.

  Lemma convex_loop L lo hi tol mi fb na X : 0 <= r -> 0 < tol -> 1 <= L -> forall k fuel x1 x2 i,
    r <= x2 <= x1 -> x1 <= X -> f x1 - f x2 <= L * (x1 - x2) -> x2 - r <= L * (x1 - x2) ->
    (1 - / L) ^ k * (x2 - r) <= tol -> (k < fuel)%nat ->
    match mi with Some m => (i + Z.of_nat k + 1 < m)%Z | None => True end ->
    exists x n, sec_loop (total f) fuel lo hi tol mi fb na x1 x2 (Some x2) i = Ok (x, n, false)
      /\ r <= x <= x2 /\ (i <= n <= i + Z.of_nat k + 1)%Z
      /\ x - r <= L * Rmax tol (/ 1000000000 * X).
  Proof.
    intros R0 T0 L1 k. induction k as [|k IH]; intros fuel x1 x2 i [H1 H2] HX HS HE HP HF HM.
    all: pose proof (sec_loop_eq f fuel lo hi tol mi fb na x1 x2 (Some x2) i (Rlt_le _ _ T0)) as Q.
    all: assert (SL : indistinguishable tol x1 x2 -> x2 - r <= L * Rmax tol (/ 1000000000 * X))
      by (apply stop_bound; auto).
    all: destruct Q as [[D Q]|[D Q]];
      [exists x2, i; rewrite Q; repeat split; try lra; try lia; auto|].
    all: destruct fuel as [|fuel]; [lia|].
    all: assert (x2 < x1) as Lt by (destruct (Req_dec x1 x2) as [E|]; [|lra];
      elim D; rewrite E; apply indist_refl; lra).
    all: assert (V : ~ indistinguishable tol (f x2) (f x1))
      by (apply values_apart; auto; rewrite indist_sym; exact D).
    all: destruct Q as [[Q _]|[_ Q]]; [contradiction|].
    all: pose proof (distinct_diff tol _ _ (Rlt_le _ _ T0) V) as NE.
    all: destruct (chord L x2 x1 H1 Lt HS) as ([C1 C2] & C3 & C4 & C5 & C6).
    all: rewrite next_sym in C1, C2, C3, C4, C5, C6 by lra.
    all: rewrite (below_limit mi i _ HM) in Q; rewrite Q; set (x3 := next_x f x1 x2) in *.
    - pose proof (sec_loop_eq f fuel lo hi tol mi fb na x2 x3 (Some x3) (i + 1) (Rlt_le _ _ T0)) as P.
      assert (E : indistinguishable tol x2 x3).
      { unfold indistinguishable. rewrite Rabs_minus_sym, Rabs_pos_eq by lra.
        apply Rle_trans with tol; [cbn in HP; lra|apply slack_tol]. }
      destruct P as [[_ P]|[P _]]; [|contradiction].
      exists x3, (i + 1)%Z. rewrite P. split; [reflexivity|]. split; [lra|]. split; [lia|].
      apply Rle_trans with (1 := C4). apply Rmult_le_compat_l; [lra|].
      apply Rle_trans with tol; [cbn in HP; lra|apply Rmax_l].
    - destruct (IH fuel x2 x3 (i + 1)%Z) as (x & n & E & B & Bn & Bx); try lra; try lia.
      + apply Rle_trans with ((1 - / L) ^ k * ((1 - / L) * (x2 - r))).
        * apply Rmult_le_compat_l; [|exact C3]. apply pow_le.
          assert (/ L <= 1) by (rewrite <- Rinv_1; apply Rinv_le_contravar; lra). lra.
        * cbn [pow] in HP. lra.
      + destruct mi; [lia|exact I].
      + exists x, n. split; [exact E|]. split; [lra|]. split; [lia|exact Bx].
  Qed.

  Theorem secant_convex L N fuel lo hi tol mi fb na :
    0 <= r -> r < lo -> r < hi -> 0 < tol -> ~ indistinguishable tol lo hi ->
    L = (f hi - f lo) / (hi - lo) ->
    (1 - / L) ^ N * (Rmin lo hi - r) <= tol ->
    (N + 2 <= fuel)%nat ->
    match mi with Some m => (Z.of_nat N + 2 < m)%Z | None => True end ->
    exists x n, secant (total f) fuel lo hi tol mi fb na = Ok (x, n, false)
      /\ r <= x <= Rmin lo hi /\ (1 <= n <= Z.of_nat N + 2)%Z
      /\ x - r <= L * Rmax tol (/ 1000000000 * Rmax lo hi).
  Proof.
    intros R0 Hlo Hhi T0 D EL HP HF HM. rewrite secant_eq by (auto; lra).
    assert (NE : lo <> hi) by (intros E; apply D; rewrite E; apply indist_refl; lra).
    assert (KEY : forall a b, (a = lo /\ b = hi \/ a = hi /\ b = lo) -> a < b ->
      Rmin lo hi = a /\ Rmax lo hi = b /\ f b - f a = L * (b - a)).
    { intros a b H Hab. assert (hi - lo <> 0) by lra. subst L.
      destruct H as [[-> ->]|[-> ->]].
      - rewrite Rmin_left, Rmax_right by lra. repeat split. field. lra.
      - rewrite Rmin_right, Rmax_left by lra. repeat split. field. lra. }
    assert (exists a b, (a = lo /\ b = hi \/ a = hi /\ b = lo) /\ a < b /\ r < a) as (a & b & HH & Hab & Ha).
    { destruct (Rlt_dec lo hi); [exists lo, hi|exists hi, lo]; repeat split; auto; lra. }
    destruct (KEY a b HH Hab) as (E1 & E2 & E3). clear KEY.
    pose proof (St a b (Rlt_le _ _ Ha) (Rlt_le _ _ Hab)) as S1.
    assert (L1 : 1 <= L) by nra.
    assert (V : ~ indistinguishable tol (f a) (f b)).
    { apply values_apart; auto; try lra. destruct HH as [[-> ->]|[-> ->]]; [exact D|].
      rewrite indist_sym; exact D. }
    pose proof (distinct_diff tol _ _ (Rlt_le _ _ T0) V) as ND.
    destruct (chord L a b (Rlt_le _ _ Ha) Hab) as ([C1 C2] & C3 & C4 & C5 & C6); [lra|].
    set (x3 := next_x f a b) in *.
    assert (EX : next_x f lo hi = x3).
    { unfold x3. destruct HH as [[-> ->]|[-> ->]]; [reflexivity|apply next_sym; lra]. }
    destruct fuel as [|fuel]; [lia|].
    pose proof (sec_loop_eq f (S fuel) lo hi tol mi fb na lo hi None 0 (Rlt_le _ _ T0)) as Q.
    destruct Q as [[Q _]|[_ Q]]; [contradiction|].
    assert (V' : ~ indistinguishable tol (f hi) (f lo)).
    { destruct HH as [[-> ->]|[-> ->]]; [rewrite indist_sym; exact V|exact V]. }
    destruct Q as [[Q _]|[_ Q]]; [contradiction|].
    assert (ML : match mi with Some m => (m <=? 0 + 1)%Z | None => false end = false).
    { destruct mi as [m|]; [|reflexivity]. apply Z.leb_gt. lia. }
    rewrite ML, EX in Q. rewrite Q. rewrite E1, E2.
    assert (Ehi : hi = a \/ hi = b) by (destruct HH as [[-> ->]|[-> ->]]; auto).
    destruct (convex_loop L lo hi tol mi fb na b R0 T0 L1 N fuel hi x3 (0 + 1)%Z)
      as (x & n & E & B & Bn & Bx); try (destruct Ehi as [->| ->]; lra); try lia.
    - apply Rle_trans with (2 := HP). rewrite E1. apply Rmult_le_compat_l; [|lra]. apply pow_le.
      assert (/ L <= 1) by (rewrite <- Rinv_1; apply Rinv_le_contravar; lra). lra.
    - destruct mi; [lia|exact I].
    - exists x, n. split; [exact E|]. split; [lra|]. split; [lia|exact Bx].
  Qed.
End Convex.

(** The square root of 2 by the secant method. *)
Definition square2 (x : R) : R := x * x - 2.
Lemma square2_facts : convex_from (sqrt 2) square2 /\ rises_from (sqrt 2) square2
  /\ square2 (sqrt 2) = 0 /\ 1 <= sqrt 2 < 2.
Proof.
  assert (S1 : 1 <= sqrt 2) by (rewrite <- sqrt_1 at 1; apply sqrt_le_1; lra).
  assert (S2 : sqrt 2 < 2).
  { replace 2 with (sqrt (2 * 2)) at 2 by (apply sqrt_square; lra). apply sqrt_lt_1; lra. }
  split; [|split; [|split]].
  - intros a b c Ha Hb Hc. unfold square2.
    assert (0 <= (c - b) * (b - a) * (c - a)).
    { apply Rmult_le_pos; [apply Rmult_le_pos|]; lra. }
    apply Rminus_le. match goal with |- ?x <= 0 =>
      replace x with (- ((c - b) * (b - a) * (c - a))) by ring end. lra.
  - intros a b Ha Hb. unfold square2.
    assert (0 <= (b - a) * (b + a - 1)) by (apply Rmult_le_pos; lra). nra.
  - unfold square2. rewrite sqrt_sqrt; lra.
  - lra.
Qed.

(** Too flat: the two values are within the tolerance of each other. *)
Definition flat_square (x : R) : R := / 1000 * (x * x - 1).
Lemma flat_fails fuel fb na : (1 <= fuel)%nat ->
  secant (total flat_square) fuel 3 2 (/ 100) None fb na = Err ValueError.
Proof.
  intros HF. assert (T0 : 0 <= / 100) by lra.
  assert (D : ~ indistinguishable (/ 100) 3 2).
  { unfold indistinguishable, slack. rewrite Rabs_minus_sym, (Rabs_pos_eq (3 - 2)) by lra.
    rewrite !Rabs_pos_eq by lra. rewrite (Rmax_left 3 2) by lra. rewrite Rmax_left by lra. lra. }
  rewrite secant_eq by auto.
  destruct fuel as [|fuel]; [lia|].
  destruct (sec_loop_eq flat_square (S fuel) 3 2 (/ 100) None fb na 3 2 None 0 T0) as [[Q _]|[_ Q]];
    [contradiction|].
  destruct Q as [[_ Q]|[Q _]]; [exact Q|]. elim Q. unfold indistinguishable, flat_square.
  apply Rle_trans with (/ 100); [|apply slack_tol]. apply Rabs_le. lra.
Qed.
