(** Proofs about the tension formulas of S7.py. *)

From Coq Require Import Reals Lra.
From Verif Require Import Base Num RNum PyReal AS4100 S7.
Open Scope R_scope.

Lemma mul_max a b k : 0 <= k -> Rmax a b * k = Rmax (a * k) (b * k).
Proof. intros H. rewrite !(Rmult_comm _ k). symmetry. now apply RmaxRmult. Qed.

Lemma mul_min a b k : 0 <= k -> Rmin a b * k = Rmin (a * k) (b * k).
Proof.
  intros H. unfold Rmin. destruct (Rle_dec a b) as [L|L], (Rle_dec (a*k) (b*k)) as [M|M];
    auto.
  - exfalso. apply M. nra.
  - assert (b * k <= a * k) by nra. lra.
Qed.

Lemma A_reqd_value N_t f_y f_u k_t phi alpha_u :
  0 < f_y -> 0 < f_u -> 0 < k_t -> 0 < phi -> 0 < alpha_u ->
  s7_1_A_reqd N_t f_y f_u k_t phi alpha_u =
  Ok (mk_a_reqd (N_t / f_y) (N_t / alpha_u / k_t / f_u)
        (Rmax (N_t / f_y) (N_t / alpha_u / k_t / f_u))
        (N_t / f_y / phi) (N_t / alpha_u / k_t / f_u / phi)
        (Rmax (N_t / f_y) (N_t / alpha_u / k_t / f_u) / phi)).
Proof.
  intros. unfold s7_1_A_reqd, s7_2_Ag, s7_2_An.
  repeat (rstep; [|lra]). now rewrite pymax_R.
Qed.

Lemma N_t_value A_g A_n f_y f_u k_t phi alpha_u :
  nt_phiN (s7_1_N_t A_g A_n f_y f_u k_t phi alpha_u)
  = Rmin (A_g * f_y) (A_n * f_u * k_t * alpha_u) * phi.
Proof. cbn. now rewrite pymin_R. Qed.

(** For N_t >= 0 the larger required area corresponds to the smaller strength. *)
Lemma capacity_of_required N f g :
  0 <= N -> 0 < f -> 0 < g -> Rmax (N / f) (N / g) * Rmin f g = N.
Proof.
  intros HN Hf Hg. unfold Rmax, Rmin.
  assert (Hi : forall a, 0 < a -> N / a * a = N) by (intros; field; lra).
  destruct (Rle_dec f g) as [L|L].
  - assert (N / g <= N / f).
    { unfold Rdiv. apply Rmult_le_compat_l; auto. now apply Rinv_le_contravar. }
    destruct (Rle_dec (N/f) (N/g)).
    + replace (N/g) with (N/f) by lra. now apply Hi.
    + now apply Hi.
  - assert (N / f <= N / g).
    { unfold Rdiv. apply Rmult_le_compat_l; auto. apply Rinv_le_contravar; lra. }
    destruct (Rle_dec (N/f) (N/g)); [now apply Hi | lra].
Qed.

Lemma design_inverse N_t f_y f_u k_t phi alpha_u :
  0 <= N_t -> 0 < f_y -> 0 < f_u -> 0 < k_t -> 0 < phi -> 0 < alpha_u ->
  exists ar, s7_1_A_reqd N_t f_y f_u k_t phi alpha_u = Ok ar
   /\ nt_phiN (s7_1_N_t (ar_phiA ar) (ar_phiA ar) f_y f_u k_t phi alpha_u) = N_t
   /\ (forall A, N_t <= nt_phiN (s7_1_N_t A A f_y f_u k_t phi alpha_u) -> ar_phiA ar <= A).
Proof.
  intros HN Hy Hu Hk Hp Ha.
  eexists. split. { now apply A_reqd_value. }
  cbn [ar_phiA].
  set (g := f_u * k_t * alpha_u). assert (Hg : 0 < g).
  { unfold g. apply Rmult_lt_0_compat; auto. now apply Rmult_lt_0_compat. }
  replace (N_t / alpha_u / k_t / f_u) with (N_t / g) by (unfold g; field; lra).
  set (A0 := Rmax (N_t / f_y) (N_t / g)).
  assert (HA0 : A0 * Rmin f_y g = N_t) by (apply capacity_of_required; auto).
  assert (Hm : 0 < Rmin f_y g) by (unfold Rmin; destruct (Rle_dec f_y g); auto).
  assert (Hcap : forall A, 0 <= A ->
    nt_phiN (s7_1_N_t A A f_y f_u k_t phi alpha_u) = A * Rmin f_y g * phi).
  { intros A HA. rewrite N_t_value. f_equal.
    replace (A * f_u * k_t * alpha_u) with (A * g) by (unfold g; ring).
    rewrite !(Rmult_comm A). symmetry. now apply mul_min. }
  assert (HA0p : 0 <= A0).
  { unfold A0. eapply Rle_trans; [|apply Rmax_l]. apply Rmult_le_pos; auto.
    left; now apply Rinv_0_lt_compat. }
  split.
  - rewrite Hcap.
    + transitivity (A0 * Rmin f_y g); [field; lra | exact HA0].
    + apply Rmult_le_pos; auto. left; now apply Rinv_0_lt_compat.
  - intros A HA.
    destruct (Rle_lt_dec 0 A) as [P|P].
    + rewrite Hcap in HA by auto.
      apply Rmult_le_reg_r with phi; auto.
      replace (A0 / phi * phi) with A0 by (field; lra).
      apply Rmult_le_reg_r with (Rmin f_y g); auto. nra.
    + exfalso. rewrite N_t_value in HA.
      assert (Rmin (A * f_y) (A * f_u * k_t * alpha_u) < 0).
      { eapply Rle_lt_trans; [apply Rmin_l|]. nra. }
      nra.
Qed.

Lemma N_t_consistent A_g A_n f_y f_u k_t phi alpha_u :
  let r := s7_1_N_t A_g A_n f_y f_u k_t phi alpha_u in
  nt_N r = Rmin (nt_N_ty r) (nt_N_tu r)
  /\ nt_N_ty r = A_g * f_y /\ nt_N_tu r = A_n * f_u * k_t * alpha_u
  /\ nt_phiN_ty r = phi * nt_N_ty r /\ nt_phiN_tu r = phi * nt_N_tu r
  /\ nt_phiN r = phi * nt_N r
  /\ (0 <= phi -> nt_phiN r = Rmin (nt_phiN_ty r) (nt_phiN_tu r))
  /\ nt_N r = AS4100.s7_1_Nt A_g A_n f_y f_u k_t alpha_u.
Proof.
  cbn. rewrite pymin_R.
  repeat split; try reflexivity; try apply Rmult_comm.
  - intros. now apply mul_min.
  - unfold AS4100.s7_1_Nt. rewrite pymin_R. reflexivity.
Qed.
