(** Length and capacity for every section constant α_b from -1 to 1: [s6_1_1_Nc]. *)

From Coq Require Import Reals Lra Psatz List Bool String.
From Verif Require Import Base Num RNum PyReal Symmetry S6 S6Facts S6Torsion S6Unsym S6Length UnsymLength.
Import ListNotations.
Open Scope R_scope.

(** Below λ_n = 13.5 the modified slenderness stays below 14. *)
Lemma lam_stocky ln ab : 0 <= ln <= 27 / 2 -> -1 <= ab <= -9 / 10 -> 0 < lam ln ab <= 14.
Proof.
  intros Hl Hab. pose proof (dd_pos ln) as D. unfold lam.
  assert (E : 2100 * (ln - 27 / 2) / dd ln * ab = 2100 * (27 / 2 - ln) * (- ab) / dd ln) by (field; lra).
  rewrite E. assert (0 <= 2100 * (27 / 2 - ln)) by lra. split.
  - destruct (Req_dec ln (27 / 2)) as [->|N]; [unfold dd; lra|].
    assert (0 < 2100 * (27 / 2 - ln) * - ab / dd ln); [|lra].
    apply div_pos; auto. apply Rmult_lt_0_compat; lra.
  - assert (2100 * (27 / 2 - ln) * - ab / dd ln <= 14 - ln); [|lra].
    apply Rmult_le_reg_r with (dd ln); [lra|].
    replace (2100 * (27 / 2 - ln) * - ab / dd ln * dd ln) with (2100 * (27 / 2 - ln) * - ab) by (field; lra).
    apply Rle_trans with (2100 * (27 / 2 - ln)); [nra|].
    unfold dd.
    assert (0 <= (27 / 2 - ln) * ((ln - 34 / 10) * (ln - 34 / 10))) by (apply Rmult_le_pos; [lra|apply Rle_0_sqr]).
    pose proof (Rle_0_sqr (ln - 35 / 10)) as Q. unfold Rsqr in Q. nra.
Qed.

Lemma ac_of_14 : 499 / 500 <= ac_of 14.
Proof.
  unfold ac_of. assert (S : slen 14 = 196 / 8100) by (unfold slen; field).
  assert (H : eta_of 14 = 163 / 100000) by (unfold eta_of; rewrite Rmax_left; lra).
  rewrite S, H.
  pose proof (acv_perry (196 / 8100) (163 / 100000) ltac:(lra) ltac:(lra)) as P.
  pose proof (acv_pos (196 / 8100) (163 / 100000) ltac:(lra) ltac:(lra)).
  pose proof (acv_le_1 (196 / 8100) (163 / 100000) ltac:(lra) ltac:(lra)).
  set (a := acv _ _) in *. clearbody a.
  destruct (Rle_dec (499 / 500) a) as [|N]; auto. exfalso. nra.
Qed.

(** The more slender member is at most 0.2 % stronger. *)
Lemma alpha_c_slack ln ln' ab r r' :
  0 <= ln -> ln <= ln' -> -1 <= ab <= 1 ->
  s6_3_3_alpha_c ln ab = Ok r -> s6_3_3_alpha_c ln' ab = Ok r' ->
  ac_alpha_c r' <= 500 / 499 * ac_alpha_c r.
Proof.
  intros H0 L Hab E E'.
  assert (Z : lam ln ab <> 0) by (apply alpha_c_defined; eauto).
  assert (Z' : lam ln' ab <> 0) by (apply alpha_c_defined; eauto).
  destruct (alpha_c_facts _ _ Z) as (a & Ea & _ & B & _).
  destruct (alpha_c_facts _ _ Z') as (a' & Ea' & _ & B' & _).
  rewrite E in Ea. injection Ea as <-. rewrite E' in Ea'. injection Ea' as <-.
  destruct (Rle_dec (-9 / 10) ab) as [C|C].
  - pose proof (alpha_c_mono ln ln' ab r r' H0 L ltac:(lra) E E'). lra.
  - destruct (Rle_dec (27 / 2) ln) as [K|K].
    + pose proof (alpha_c_late ln ln' ab r r' K L Hab E E'). lra.
    + destruct (lam_stocky ln ab) as [P Q]; [lra|lra|].
      rewrite alpha_c_value in E by auto. injection E as <-. cbn [ac_alpha_c] in *.
      fold (ac_of (lam ln ab)) in *.
      assert (ac_of 14 <= ac_of (lam ln ab)) by (apply ac_of_anti; lra).
      pose proof ac_of_14. lra.
Qed.

Lemma N_c_slack A_n k_f l l' r f_y f_ref ab n n' :
  0 <= A_n -> 0 <= k_f -> 0 < r -> 0 <= f_y -> 0 < f_ref -> -1 <= ab <= 1 ->
  0 <= l -> l <= l' ->
  s6_3_3_N_c A_n k_f l r f_y f_ref ab = Ok n ->
  s6_3_3_N_c A_n k_f l' r f_y f_ref ab = Ok n' ->
  nc_N_c n' <= 500 / 499 * nc_N_c n
  /\ (27 / 2 <= l / r * sqrt k_f * sqrt (f_y / f_ref) -> nc_N_c n' <= nc_N_c n).
Proof.
  intros HA Hk Hr Hf Hrf Hab Hl L. unfold s6_3_3_N_c.
  rewrite !lambda_n_value by auto. cbn [bind].
  destruct (s6_3_3_alpha_c (l / r * _ * _) ab) as [a|] eqn:E; [|discriminate].
  destruct (s6_3_3_alpha_c (l' / r * _ * _) ab) as [a'|] eqn:E'; [|discriminate].
  cbn [bind]. intros H H'. injection H as <-. injection H' as <-. cbn [nc_N_c].
  pose proof (sqrt_pos k_f). pose proof (sqrt_pos (f_y / f_ref)).
  assert (0 <= l / r) by (apply div_nonneg; auto).
  assert (l / r <= l' / r) by (apply div_le_l; auto).
  assert (LL : l / r * sqrt k_f * sqrt (f_y / f_ref) <= l' / r * sqrt k_f * sqrt (f_y / f_ref)).
  { apply Rmult_le_compat_r; auto. apply Rmult_le_compat_r; auto. }
  assert (P0 : 0 <= l / r * sqrt k_f * sqrt (f_y / f_ref)) by pos.
  assert (N0 : 0 <= s6_2_N_s (s6_2_A_e A_n k_f) f_y).
  { unfold s6_2_N_s, s6_2_A_e. repeat apply Rmult_le_pos; auto. }
  split.
  - pose proof (alpha_c_slack _ _ _ _ _ P0 LL Hab E E') as S. clear - S N0. nra.
  - intros K. pose proof (alpha_c_late _ _ _ _ _ K LL Hab E E') as S. clear - S N0. nra.
Qed.

Lemma Nc_length_wide roots q l l' kx ky kz sym f_ref ab u phi cb ct o o' :
  sect_ok q ->
  (symmetry sym = Ok SymNone ->
   correct_roots roots /\ q_x_o q ^ 2 * q_y_o q ^ 2 <= q_x_o q ^ 2 + q_y_o q ^ 2) ->
  0 < l -> l <= l' -> 0 < kx -> 0 < ky -> 0 < kz ->
  0 < f_ref -> -1 <= ab <= 1 -> 0 < u -> 0 <= phi ->
  s6_1_1_Nc roots q l kx ky kz sym f_ref ab u phi cb ct = Ok o ->
  s6_1_1_Nc roots q l' kx ky kz sym f_ref ab u phi cb ct = Ok o' ->
  (o_N_c o' <= 500 / 499 * o_N_c o /\ o_phiN_c o' <= 500 / 499 * o_phiN_c o)
  /\ (27 / 2 <= l * kx / q_r_x q * sqrt (q_k_f q) * sqrt (q_f_y q / f_ref) ->
      27 / 2 <= l * ky / q_r_y q * sqrt (q_k_f q) * sqrt (q_f_y q / f_ref) ->
      o_N_c o' <= o_N_c o /\ o_phiN_c o' <= o_phiN_c o).
Proof.
  intros Hq Hs Hl L Kx Ky Kz Hrf Hab Hu Hphi H H'.
  pose proof Hq as (HA & Hk & Hx & Hy & HJ & Hw & Hf & HE & HG). split.
  - destruct (Nc_length_by (500 / 499) roots q l l' kx ky kz sym f_ref ab u phi cb ct o o') as [A B]; auto; try lra.
    intros k r b b' _ Hkk Hr P LL E E'.
    refine (proj1 (N_c_slack _ _ _ _ _ _ _ _ _ _ _ _ _ _ _ Hab _ LL E E')); lra.
  - intros Wx Wy.
    destruct (Nc_length_by 1 roots q l l' kx ky kz sym f_ref ab u phi cb ct o o') as [A B]; auto; try lra.
    intros k r b b' D Hkk Hr P LL E E'. rewrite Rmult_1_l.
    refine (proj2 (N_c_slack _ _ _ _ _ _ _ _ _ _ _ _ _ _ _ Hab _ LL E E') _); try lra.
    destruct D as [D|D]; injection D as -> ->; auto.
Qed.
