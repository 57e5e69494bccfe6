(** How the compression capacity depends on the yield stress. *)

From Coq Require Import Reals Lra Psatz List Bool String.
From Verif Require Import Base Num RNum PyReal Symmetry S6 S6Facts S6Torsion S6Length YieldCurve YieldCells.
Import ListNotations.
Open Scope R_scope.

(** * Flexural buckling: the capacity is proportional to λ_n² α_c *)

Lemma alpha_c_at ln ab r : s6_3_3_alpha_c ln ab = Ok r ->
  lam ln ab <> 0 /\ ac_alpha_c r = ac_of (lam ln ab).
Proof.
  intros E. assert (H : lam ln ab <> 0) by (apply alpha_c_defined; eauto).
  rewrite (alpha_c_value ln ab H) in E. injection E as <-. split; auto.
Qed.

Lemma N_c_yield A_n k_f l r f_y f_y' f_ref ab n n' :
  0 <= A_n -> 0 < k_f -> 0 < l -> 0 < r -> 0 < f_y -> f_y <= f_y' -> 0 < f_ref ->
  -1 <= ab <= 1 ->
  s6_3_3_N_c A_n k_f l r f_y f_ref ab = Ok n ->
  s6_3_3_N_c A_n k_f l r f_y' f_ref ab = Ok n' -> nc_N_c n <= nc_N_c n'.
Proof.
  intros HA Hk Hl Hr Hf L Hrf Hb. unfold s6_3_3_N_c.
  rewrite !lambda_n_value by lra. cbn [bind].
  destruct (s6_3_3_alpha_c (l / r * _ * sqrt (f_y / _)) ab) as [a|] eqn:E; [|discriminate].
  destruct (s6_3_3_alpha_c (l / r * _ * sqrt (f_y' / _)) ab) as [a'|] eqn:E'; [|discriminate].
  cbn [bind]. intros H H'. injection H as <-. injection H' as <-. cbn [nc_N_c].
  apply alpha_c_at in E as [Z ->]. apply alpha_c_at in E' as [Z' ->].
  set (c := l / r * sqrt k_f) in *.
  assert (Hc : 0 < c) by (unfold c; pos).
  assert (Q : 0 < f_y / f_ref) by pos. assert (Q' : 0 < f_y' / f_ref) by (apply div_pos; lra).
  assert (LQ : f_y / f_ref <= f_y' / f_ref) by now apply div_le_l.
  assert (M := strength_grows ab (c * sqrt (f_y / f_ref)) (c * sqrt (f_y' / f_ref)) Hb
                 ltac:(pos) ltac:(apply Rmult_le_compat_l; [lra|now apply sqrt_le_1_alt]) Z Z').
  assert (M' : forall x, 0 < x ->
             c * sqrt (x / f_ref) * (c * sqrt (x / f_ref)) = c ^ 2 / f_ref * x).
  { intros x Hx. assert (S := sqrt_sqrt (x / f_ref) ltac:(left; pos)). set (z := sqrt (x / f_ref)) in *.
    replace (c * z * (c * z)) with (c ^ 2 * (z * z)) by ring. rewrite S. field. lra. }
  rewrite !M' in M by lra.
  assert (M1 : f_y * ac_of (lam (c * sqrt (f_y / f_ref)) ab)
               <= f_y' * ac_of (lam (c * sqrt (f_y' / f_ref)) ab)).
  { apply Rmult_le_reg_l with (c ^ 2 / f_ref); [pos|]. rewrite <- !Rmult_assoc. exact M. }
  unfold s6_2_N_s, s6_2_A_e. rewrite !Rmult_assoc.
  apply Rmult_le_compat_l; [lra|]. apply Rmult_le_compat_l; lra.
Qed.

(** * The torsional mode: f_n / f_oc as a function of x = f_y / f_oc *)

Lemma power_growth x y : 0 < x -> x <= y -> y <= 9 / 4 ->
  x * Rpower (658 / 1000) x <= y * Rpower (658 / 1000) y.
Proof.
  intros Hx [L| ->] Hy; [|lra].
  assert (E : forall z, 0 < z -> z * Rpower (658 / 1000) z = exp (ln z + z * ln (658 / 1000))).
  { intros z Hz. rewrite exp_plus, exp_ln by auto. reflexivity. }
  rewrite !E by lra. left. apply exp_increasing.
  (* ln (y / x) >= (y - x) / y >= 4/9 (y - x) and -ln 0.658 < 4/9 *)
  assert (L658 : - ln (658 / 1000) < 4 / 9).
  { rewrite <- ln_Rinv by lra. rewrite <- (ln_exp (4 / 9)). apply ln_increasing; [lra|].
    apply Rlt_le_trans with ((10 / 9) ^ 4); [lra|].
    replace (exp (4 / 9)) with (exp (1 / 9) ^ 4).
    - apply pow_incr. split; [lra|]. pose proof (exp_ineq1_le (1 / 9)). lra.
    - rewrite <- Rpower_pow by apply exp_pos. unfold Rpower. rewrite ln_exp. f_equal. cbn. lra. }
  assert (Lxy : ln x - ln y <= x / y - 1).
  { replace (ln x - ln y) with (ln (x / y))
      by (unfold Rdiv; rewrite ln_mult, ln_Rinv; try lra; apply Rinv_0_lt_compat; lra).
    assert (0 < x / y) by (apply div_pos; lra). pose proof (exp_ineq1_le (ln (x / y))) as Q.
    rewrite exp_ln in Q by auto. lra. }
  assert (D : 4 / 9 * (y - x) <= 1 - x / y).
  { apply Rmult_le_reg_r with y; [lra|].
    replace ((1 - x / y) * y) with (y - x) by (field; lra). nra. }
  nra.
Qed.

Lemma fnv_by_ratio f_y f : 0 < f_y -> 0 < f ->
  fnv f_y (sqrt (f_y / f)) =
  f * (if Rle_dec (f_y / f) (9 / 4) then f_y / f * Rpower (658 / 1000) (f_y / f) else 877 / 1000).
Proof.
  intros Hy Hf. assert (Q : 0 < f_y / f) by pos. unfold fnv.
  assert (S := sqrt_sqrt (f_y / f) ltac:(lra)). assert (Sp := sqrt_pos (f_y / f)).
  rewrite S.
  destruct (Rle_dec (sqrt (f_y / f)) (3 / 2)) as [C|C], (Rle_dec (f_y / f) (9 / 4)) as [C'|C'];
    try (exfalso; nra); field; lra.
Qed.

Lemma ratio_growth x y : 0 < x -> x <= y ->
  let psi z := if Rle_dec z (9 / 4) then z * Rpower (658 / 1000) z else 877 / 1000 in
  999 / 1000 * psi x <= psi y
  /\ ((x <= 9 / 4 -> y <= 9 / 4) -> psi x <= psi y).
Proof.
  intros Hx L psi. unfold psi.
  assert (P : 0 < x * Rpower (658 / 1000) x) by (apply Rmult_lt_0_compat; auto; apply exp_pos).
  destruct (Rle_dec x (9 / 4)) as [C|C], (Rle_dec y (9 / 4)) as [C'|C']; try (exfalso; lra).
  - pose proof (power_growth x y Hx L C'). split; intros; lra.
  - pose proof (power_growth x (9 / 4) Hx C ltac:(lra)) as Q.
    pose proof Rpower_658_switch as S.
    replace (3 / 2 * (3 / 2)) with (9 / 4) in S by field.
    split; [lra|]. intros H. exfalso. apply C'. auto.
  - split; intros; lra.
Qed.

Lemma n_cz_of_pos A f_y f u z : 0 < f_y -> n_cz_of A f_y f u = Ok z -> 0 < f.
Proof.
  intros Hy. unfold n_cz_of. unfold rdiv at 1. destruct (Req_EM_T f 0) as [|Hf]; [discriminate|].
  cbn [bind]. unfold rroot. destruct (Rlt_dec (f_y / f) 0) as [|N]; [discriminate|]. intros _.
  destruct (Rlt_le_dec 0 f) as [|C]; auto. exfalso. apply N.
  assert (0 < f_y / - f) by (apply div_pos; lra).
  replace (f_y / f) with (- (f_y / - f)) by (field; lra). lra.
Qed.

Lemma N_cz_yield A f_y f_y' f u z z' :
  0 < A -> 0 < u -> 0 < f_y -> f_y <= f_y' ->
  n_cz_of A f_y f u = Ok z -> n_cz_of A f_y' f u = Ok z' ->
  0 < cz_N_cz z /\ 999 / 1000 * cz_N_cz z <= cz_N_cz z'
  /\ ((f_y <= 9 / 4 * f -> f_y' <= 9 / 4 * f) -> cz_N_cz z <= cz_N_cz z').
Proof.
  intros HA Hu Hy L E E'. pose proof (n_cz_of_pos _ _ _ _ _ Hy E) as Hf.
  rewrite n_cz_value in E, E' by lra. injection E as <-. injection E' as <-. cbn [cz_N_cz].
  pose proof (fnv_pos f_y (sqrt (f_y / f)) Hy) as P.
  rewrite !fnv_by_ratio in * by lra.
  assert (Q : 0 < f_y / f) by pos. assert (LQ : f_y / f <= f_y' / f) by now apply div_le_l.
  destruct (ratio_growth _ _ Q LQ) as [G1 G2].
  assert (R : forall x, x / f <= 9 / 4 <-> x <= 9 / 4 * f).
  { intros x. split; intros H.
    - apply (Rmult_le_compat_r f) in H; [|lra]. unfold Rdiv in H at 1.
      rewrite Rmult_assoc, Rinv_l in H by lra. lra.
    - apply Rmult_le_reg_r with f; auto. unfold Rdiv at 1.
      rewrite Rmult_assoc, Rinv_l by lra. lra. }
  set (p := if Rle_dec (f_y / f) _ then _ else _) in *.
  set (p' := if Rle_dec (f_y' / f) _ then _ else _) in *.
  assert (K : 0 < u * A) by pos.
  split; [apply Rmult_lt_0_compat; auto|]. split.
  - replace (999 / 1000 * (u * A * (f * p))) with (u * A * (f * (999 / 1000 * p))) by ring.
    apply Rmult_le_compat_l; [lra|]. apply Rmult_le_compat_l; lra.
  - intros H. apply Rmult_le_compat_l; [lra|]. apply Rmult_le_compat_l; [lra|].
    apply G2. rewrite !R. exact H.
Qed.

(** * The member capacity *)

Definition with_f_y (q : sect6) (f : R) : sect6 :=
  mk_sect6 (q_A_n q) (q_k_f q) (q_r_x q) (q_r_y q) (q_x_o q) (q_y_o q) (q_J q) (q_I_w q) f
    (q_E q) (q_G q).

Lemma Nc_yield roots q f_y' l kx ky kz sym f_ref ab u phi cb ct o o' :
  sect_ok q -> q_f_y q <= f_y' ->
  0 < l -> 0 < kx -> 0 < ky -> 0 < f_ref -> -1 <= ab <= 1 -> 0 < u ->
  s6_1_1_Nc roots q l kx ky kz sym f_ref ab u phi cb ct = Ok o ->
  s6_1_1_Nc roots (with_f_y q f_y') l kx ky kz sym f_ref ab u phi cb ct = Ok o' ->
  999 / 1000 * o_N_c o <= o_N_c o'
  /\ ((cb && ct = true -> exists z,
         s6_3_3_N_c_torsion roots q (l * kx) (l * ky) (l * kz) sym u = Ok z
         /\ (q_f_y q <= 9 / 4 * cz_f_oc z -> f_y' <= 9 / 4 * cz_f_oc z))
      -> o_N_c o <= o_N_c o').
Proof.
  intros Hq L Hl Kx Ky Hrf Hab Hu H H'.
  pose proof Hq as (HA & Hk & Hx & Hy & HJ & Hw & Hf & HE & HG).
  assert (MX : forall r k b b', 0 < r -> 0 < k ->
      s6_3_3_N_c (q_A_n q) (q_k_f q) (l * k) r (q_f_y q) f_ref ab = Ok b ->
      s6_3_3_N_c (q_A_n q) (q_k_f q) (l * k) r f_y' f_ref ab = Ok b' ->
      0 <= nc_N_c b /\ nc_N_c b <= nc_N_c b').
  { intros r k b b' Hr Hkk E E'. split.
    - eapply N_c_bound; [| | |exact E]; lra.
    - eapply N_c_yield; [..|exact E|exact E']; try lra. pos. }
  unfold s6_1_1_Nc in H, H'. unfold s6_3_2_l_e in H, H'.
  cbn [with_f_y q_A_n q_k_f q_r_x q_r_y q_f_y] in H'.
  assert (NP : 0 < s6_2_N_s (s6_2_A_e (q_A_n q) (q_k_f q)) (q_f_y q)).
  { unfold s6_2_N_s, s6_2_A_e. pos. }
  assert (NL : s6_2_N_s (s6_2_A_e (q_A_n q) (q_k_f q)) (q_f_y q)
               <= s6_2_N_s (s6_2_A_e (q_A_n q) (q_k_f q)) f_y').
  { unfold s6_2_N_s, s6_2_A_e. apply Rmult_le_compat_l; [|auto]. left. pos. }
  set (Ns := s6_2_N_s _ (q_f_y q)) in *. set (Ns' := s6_2_N_s _ f_y') in *.
  destruct cb.
  - inv_bind H. inv_bind H. inv_bind H'. inv_bind H'.
    destruct (MX _ kx _ _ Hx Kx E E1) as [Px Mx]. destruct (MX _ ky _ _ Hy Ky E0 E2) as [Py My].
    assert (Q : 0 <= pymin (pymin Ns (pymin (nc_N_c a) Ns)) (pymin (nc_N_c a0) Ns)
                <= pymin (pymin Ns' (pymin (nc_N_c a1) Ns')) (pymin (nc_N_c a2) Ns')).
    { rewrite !pymin_R. unfold Rmin. repeat destruct (Rle_dec _ _); lra. }
    set (m := pymin (pymin Ns _) _) in *. set (m' := pymin (pymin Ns' _) _) in *.
    destruct ct.
    + inv_bind H. inv_bind H'. injection H as <-. injection H' as <-. cbn [o_N_c].
      unfold s6_3_3_N_c_torsion in E3, E4 |- *.
      cbn [with_f_y q_A_n q_k_f q_f_y] in E4.
      change (f_oc roots (with_f_y q f_y') (l * kx) (l * ky) (l * kz) sym)
        with (f_oc roots q (l * kx) (l * ky) (l * kz) sym) in E4.
      destruct (f_oc roots q (l * kx) (l * ky) (l * kz) sym) as [f|]; [|discriminate].
      cbn [bind] in E3, E4 |- *.
      assert (HAe : 0 < s6_2_A_e (q_A_n q) (q_k_f q)) by (unfold s6_2_A_e; pos).
      destruct (N_cz_yield _ _ _ _ _ _ _ HAe Hu Hf L E3 E4) as (Pz & Z1 & Z2).
      rewrite !pymin_R. split.
      * unfold Rmin. repeat destruct (Rle_dec _ _); lra.
      * intros G. destruct (G eq_refl) as (z & Ez & Hz).  injection Ez as <-.
        assert (Ef : cz_f_oc a3 = f).
        { pose proof (n_cz_of_pos _ _ _ _ _ Hf E3). rewrite n_cz_value in E3 by lra.
          injection E3 as <-. reflexivity. }
        rewrite Ef in Hz. specialize (Z2 Hz).
        unfold Rmin. repeat destruct (Rle_dec _ _); lra.
    + injection H as <-. injection H' as <-. cbn [o_N_c]. split; intros; lra.
  - injection H as <-. injection H' as <-. cbn [o_N_c]. split; intros; lra.
Qed.
