(** Proofs about the compression formulas of S6.py. *)

From Coq Require Import Reals Lra Psatz List Bool String.
From Verif Require Import Base Num RNum PyReal Symmetry S6.
Import ListNotations.
Open Scope R_scope.

(** * The member slenderness reduction factor α_c *)

Definition dd (x : R) : R := x * x - 153 / 10 * x + 2050.
Definition lam (ln ab : R) : R := ln + 2100 * (ln - 27 / 2) / dd ln * ab.
Definition eta_of (l : R) : R := Rmax (326 / 100000 * (l - 27 / 2)) 0.
Definition slen (l : R) : R := (l / 90) * (l / 90).
(** The rationalised solution. *)
Definition acv (s eta : R) : R :=
  2 / ((s + 1 + eta) + sqrt ((s + 1 + eta) * (s + 1 + eta) - 4 * s)).

Lemma dd_pos x : 0 < dd x.
Proof. unfold dd. nra. Qed.

Lemma eta_nonneg l : 0 <= eta_of l.
Proof. apply Rmax_r. Qed.

Lemma slen_pos l : l <> 0 -> 0 < slen l.
Proof. intros. unfold slen. assert (l / 90 <> 0) by lra. nra. Qed.

Lemma alpha_c_value ln ab : lam ln ab <> 0 ->
  s6_3_3_alpha_c ln ab =
  Ok (mk_ac (2100 * (ln - 27 / 2) / dd ln) (lam ln ab) (eta_of (lam ln ab))
        ((slen (lam ln ab) + 1 + eta_of (lam ln ab)) / (2 * slen (lam ln ab)))
        (acv (slen (lam ln ab)) (eta_of (lam ln ab)))).
Proof.
  intros Hl. unfold s6_3_3_alpha_c. pose proof (dd_pos ln).
  fold (dd ln). rewrite rdiv_ok by lra. cbn [bind]. fold (lam ln ab).
  rewrite pymax_R. fold (eta_of (lam ln ab)).
  set (l := lam ln ab) in *. fold (slen l).
  pose proof (eta_nonneg l) as He. pose proof (slen_pos l Hl) as Hs.
  set (e := eta_of l) in *. set (s := slen l) in *.
  set (P := s + 1 + e).
  assert (HP : 0 < P) by (unfold P; lra).
  rewrite rdiv_ok by lra. cbn [bind].
  set (xi := P / (2 * s)).
  assert (Hxi : 0 < xi) by (unfold xi; pos).
  assert (Hxl : xi * l <> 0) by (apply Rmult_integral_contrapositive; lra).
  rewrite rdiv_ok by auto. cbn [bind].
  assert (Es : l * l = 8100 * s) by (unfold s, slen; field).
  assert (Eq : 90 / (xi * l) * (90 / (xi * l)) = 4 * s / (P * P)).
  { assert (E1 : 90 / (xi * l) * (90 / (xi * l)) = 8100 / (xi * xi * (l * l))).
    { field. repeat split; try lra. }
    rewrite E1, Es. unfold xi. field. repeat split; lra. }
  rewrite Eq.
  assert (Hd : 0 <= P * P - 4 * s).
  { clearbody s e. unfold P. pose proof (Rle_0_sqr (s - 1)). unfold Rsqr in *. nra. }
  assert (Ed : 1 - 4 * s / (P * P) = (P * P - 4 * s) / (P * P)) by (field; lra).
  rewrite Ed.
  assert (Hq : 0 <= (P * P - 4 * s) / (P * P)) by (apply div_nonneg; pos).
  rewrite rroot_ok by auto. cbn [bind]. f_equal. f_equal.
  unfold acv. fold P. set (r := sqrt (P * P - 4 * s)).
  assert (Er : sqrt ((P * P - 4 * s) / (P * P)) = r / P).
  { unfold r. rewrite sqrt_div_alt by pos. rewrite sqrt_square by lra. reflexivity. }
  rewrite Er.
  assert (Hr : 0 <= r) by apply sqrt_pos.
  assert (Err : r * r = P * P - 4 * s) by (apply sqrt_sqrt; auto).
  unfold xi. field_simplify_eq; [|repeat split; lra]. nra.
Qed.

Lemma alpha_c_zero ln ab : lam ln ab = 0 -> s6_3_3_alpha_c ln ab = Err ZeroDivisionError.
Proof.
  intros Hl. unfold s6_3_3_alpha_c. pose proof (dd_pos ln).
  fold (dd ln). rewrite rdiv_ok by lra. cbn [bind]. fold (lam ln ab). rewrite Hl.
  replace (2 * (0 / 90 * (0 / 90))) with 0 by field.
  rewrite rdiv_0. reflexivity.
Qed.

Section acv.
Variables s eta : R.
Hypotheses (Hs : 0 < s) (He : 0 <= eta).
Let P := s + 1 + eta.
Let r := sqrt (P * P - 4 * s).

Lemma disc_nonneg : 0 <= P * P - 4 * s.
Proof.
  clear r. unfold P. pose proof (Rle_0_sqr (s - 1)) as Q. unfold Rsqr in Q. nra.
Qed.
Lemma r_sq : r * r = P * P - 4 * s.
Proof. apply sqrt_sqrt. apply disc_nonneg. Qed.
Lemma r_nonneg : 0 <= r.
Proof. apply sqrt_pos. Qed.

Lemma acv_eq : acv s eta * (P + r) = 2.
Proof. unfold acv. fold P. fold r. field. pose proof r_nonneg. unfold P in *. lra. Qed.

Lemma acv_pos : 0 < acv s eta.
Proof. unfold acv. fold P. fold r. pose proof r_nonneg. apply div_pos; unfold P in *; lra. Qed.

Lemma acv_le_1 : acv s eta <= 1.
Proof.
  pose proof acv_eq as E. pose proof r_sq. pose proof r_nonneg. pose proof acv_pos.
  assert (2 <= P + r) by (unfold P in *; nra). nra.
Qed.

(** The Perry-Robertson equation. *)
Lemma acv_perry : (1 - acv s eta) * (1 - s * acv s eta) = eta * acv s eta.
Proof.
  pose proof acv_eq as E. pose proof r_sq as Er. pose proof r_nonneg. pose proof acv_pos.
  assert (Hpr : 0 < P + r) by (unfold P in *; lra).
  assert (Q : s * acv s eta * acv s eta - P * acv s eta + 1 = 0).
  { apply Rmult_eq_reg_r with ((P + r) * (P + r)); [|nra].
    replace ((s * acv s eta * acv s eta - P * acv s eta + 1) * ((P + r) * (P + r)))
      with (s * (acv s eta * (P + r)) * (acv s eta * (P + r))
            - P * (acv s eta * (P + r)) * (P + r) + (P + r) * (P + r)) by ring.
    rewrite E. nra. }
  unfold P in Q. nra.
Qed.

Lemma acv_smaller : s * acv s eta <= 1.
Proof.
  pose proof acv_eq as E. pose proof r_sq. pose proof r_nonneg. pose proof acv_pos.
  assert (2 * s <= P + r) by (unfold P in *; nra). nra.
Qed.

Lemma acv_eq_1 : acv s eta = 1 <-> eta = 0 /\ s <= 1.
Proof.
  pose proof acv_perry as Q. pose proof acv_smaller as S. pose proof acv_pos.
  split.
  - intros E. rewrite E in *. nra.
  - intros [Z L].
    assert (Z' : eta * acv s eta = 0) by (rewrite Z at 1; ring).
    rewrite Z' in Q. apply Rmult_integral in Q. destruct Q as [Q|Q]; [lra|].
    pose proof acv_le_1. nra.
Qed.
End acv.

Lemma acv_anti s eta s' eta' : 0 < s -> 0 <= eta -> s <= s' -> eta <= eta' ->
  acv s' eta' <= acv s eta.
Proof.
  intros Hs He Ls Le.
  pose proof (acv_perry s eta Hs He) as Q.
  pose proof (acv_perry s' eta' ltac:(lra) ltac:(lra)) as Q'.
  pose proof (acv_pos s eta Hs He) as A. pose proof (acv_pos s' eta' ltac:(lra) ltac:(lra)) as A'.
  pose proof (acv_le_1 s' eta' ltac:(lra) ltac:(lra)) as B'.
  pose proof (acv_smaller s' eta' ltac:(lra) ltac:(lra)) as S'.
  set (a := acv s eta) in *. set (b := acv s' eta') in *. clearbody a b.
  destruct (Rle_lt_dec b a) as [|L]; auto. exfalso.
  assert (P1 : 0 < s * (b - a)) by (apply Rmult_lt_0_compat; lra).
  assert (P2 : 0 <= (s' - s) * b) by (apply Rmult_le_pos; lra).
  assert (H2 : 0 < 1 - s * a) by lra.
  assert (H4 : (1 - b) * (1 - s' * b) <= (1 - b) * (1 - s * a)).
  { apply Rmult_le_compat_l; lra. }
  assert (H5 : (1 - b) * (1 - s * a) < (1 - a) * (1 - s * a)).
  { apply Rmult_lt_compat_r; lra. }
  assert (H6 : eta * a <= eta' * b) by (apply Rmult_le_compat; lra).
  lra.
Qed.

Lemma eta_zero l : eta_of l = 0 <-> l <= 27 / 2.
Proof. unfold eta_of, Rmax. destruct (Rle_dec _ _); split; intros; lra. Qed.

Lemma slen_le_1 l : slen l <= 1 <-> -90 <= l <= 90.
Proof.
  unfold slen. split; intros.
  - split; nra.
  - assert (-1 <= l / 90 <= 1) by lra. nra.
Qed.

(** α_c as a function of the modified slenderness. *)
Definition ac_of (l : R) : R := acv (slen l) (eta_of l).

Lemma ac_of_eq_1 l : l <> 0 -> (ac_of l = 1 <-> -90 <= l <= 27 / 2).
Proof.
  intros Hl. unfold ac_of.
  rewrite acv_eq_1 by (try apply slen_pos; try apply eta_nonneg; auto).
  rewrite eta_zero, slen_le_1. lra.
Qed.

Lemma ac_of_le_1 l : l <> 0 -> ac_of l <= 1.
Proof. intros. apply acv_le_1; [now apply slen_pos|apply eta_nonneg]. Qed.

Lemma ac_of_anti l l' : -90 <= l -> l <> 0 -> l' <> 0 -> l <= l' -> ac_of l' <= ac_of l.
Proof.
  intros H90 H H' L.
  destruct (Rle_lt_dec l (27 / 2)) as [C|C].
  - replace (ac_of l) with 1 by (symmetry; apply ac_of_eq_1; auto). now apply ac_of_le_1.
  - unfold ac_of. apply acv_anti.
    + now apply slen_pos.
    + apply eta_nonneg.
    + unfold slen. assert (0 < l / 90) by lra. assert (l / 90 <= l' / 90) by lra. nra.
    + unfold eta_of. apply Rle_max_compat_r. lra.
Qed.

Lemma alpha_c_facts ln ab : lam ln ab <> 0 ->
  exists r, s6_3_3_alpha_c ln ab = Ok r /\ ac_lambda r = lam ln ab
   /\ 0 < ac_alpha_c r <= 1
   /\ (ac_alpha_c r = 1 <-> -90 <= lam ln ab <= 27 / 2)
   /\ (let s := (lam ln ab / 90) ^ 2 in
       let eta := Rmax (326 / 100000 * (lam ln ab - 27 / 2)) 0 in
       (1 - ac_alpha_c r) * (1 - s * ac_alpha_c r) = eta * ac_alpha_c r
       /\ s * ac_alpha_c r <= 1).
Proof.
  intros Hl. eexists. split; [now apply alpha_c_value|]. cbn [ac_lambda ac_alpha_c].
  pose proof (slen_pos _ Hl) as Hs. pose proof (eta_nonneg (lam ln ab)) as He.
  split; [reflexivity|]. split; [split; [now apply acv_pos | now apply acv_le_1]|].
  split; [now apply ac_of_eq_1|].
  cbv zeta. replace ((lam ln ab / 90) ^ 2) with (slen (lam ln ab)) by (unfold slen; ring).
  fold (eta_of (lam ln ab)). split; [now apply acv_perry | now apply acv_smaller].
Qed.

(** λ is increasing in λ_n for α_b between -0.9 and 1. *)
Lemma lam_mono x y ab : -9 / 10 <= ab <= 1 -> x <= y -> lam x ab <= lam y ab.
Proof.
  intros Hab L. unfold lam.
  pose proof (dd_pos x) as Dx. pose proof (dd_pos y) as Dy.
  set (K := 2050 - (153 / 20) * (153 / 20)).
  set (u := x - 153 / 20). set (v := y - 153 / 20).
  set (Q := K - u * v + 117 / 20 * (u + v)).
  assert (E : y + 2100 * (y - 27 / 2) / dd y * ab - (x + 2100 * (x - 27 / 2) / dd x * ab)
          = (y - x) * (dd x * dd y + 2100 * ab * Q) / (dd x * dd y)).
  { unfold Q, K, u, v. unfold dd in *. field. split; lra. }
  assert (Ex : dd x = u * u + K) by (unfold dd, K, u; field).
  assert (Ey : dd y = v * v + K) by (unfold dd, K, v; field).
  assert (HK : K = 19914775 / 10000) by (unfold K; lra).
  assert (H : 0 <= dd x * dd y + 2100 * ab * Q).
  { assert (H1 : 0 <= dd x * dd y + 2100 * Q).
    { rewrite Ex, Ey. unfold Q. rewrite HK.
      assert (0 <= (u * v) * (u * v)) by apply Rle_0_sqr.
      assert (0 <= (u - v) * (u - v)) by apply Rle_0_sqr.
      assert (0 <= (u + 10) * (u + 10)) by apply Rle_0_sqr.
      assert (0 <= (v + 10) * (v + 10)) by apply Rle_0_sqr. nra. }
    assert (H2 : 0 <= dd x * dd y - 1890 * Q).
    { rewrite Ex, Ey. unfold Q. rewrite HK.
      assert (0 <= (u * v) * (u * v)) by apply Rle_0_sqr.
      assert (0 <= (u + v) * (u + v)) by apply Rle_0_sqr.
      assert (0 <= (u - 6) * (u - 6)) by apply Rle_0_sqr.
      assert (0 <= (v - 6) * (v - 6)) by apply Rle_0_sqr. nra. }
    nra. }
  assert (0 <= (y - x) * (dd x * dd y + 2100 * ab * Q) / (dd x * dd y)).
  { apply div_nonneg; [apply Rmult_le_pos; lra | pos]. }
  lra.
Qed.

Lemma lam_low x ab : 0 <= x -> -9 / 10 <= ab <= 1 -> -90 <= lam x ab.
Proof.
  intros Hx Hab. apply Rle_trans with (lam 0 ab); [|now apply lam_mono].
  unfold lam, dd. lra.
Qed.

Lemma alpha_c_mono ln ln' ab r r' :
  0 <= ln -> ln <= ln' -> -9 / 10 <= ab <= 1 ->
  s6_3_3_alpha_c ln ab = Ok r -> s6_3_3_alpha_c ln' ab = Ok r' ->
  ac_alpha_c r' <= ac_alpha_c r.
Proof.
  intros H0 L Hab E E'.
  destruct (Req_dec (lam ln ab) 0) as [Z|Z]; [rewrite (alpha_c_zero _ _ Z) in E; discriminate|].
  destruct (Req_dec (lam ln' ab) 0) as [Z'|Z'];
    [rewrite (alpha_c_zero _ _ Z') in E'; discriminate|].
  rewrite alpha_c_value in E, E' by auto. injection E as <-. injection E' as <-.
  cbn [ac_alpha_c]. apply ac_of_anti; auto.
  - now apply lam_low.
  - now apply lam_mono.
Qed.

Lemma alpha_c_mono_lambda ln ab ln' ab' r r' :
  s6_3_3_alpha_c ln ab = Ok r -> s6_3_3_alpha_c ln' ab' = Ok r' ->
  0 < ac_lambda r -> ac_lambda r <= ac_lambda r' -> ac_alpha_c r' <= ac_alpha_c r.
Proof.
  intros E E'.
  destruct (Req_dec (lam ln ab) 0) as [Z|Z]; [rewrite (alpha_c_zero _ _ Z) in E; discriminate|].
  destruct (Req_dec (lam ln' ab') 0) as [Z'|Z'];
    [rewrite (alpha_c_zero _ _ Z') in E'; discriminate|].
  rewrite alpha_c_value in E, E' by auto. injection E as <-. injection E' as <-.
  cbn [ac_lambda ac_alpha_c]. intros. apply ac_of_anti; auto; lra.
Qed.

(** The factor is undefined somewhere for the default α_b = 1. *)
Lemma alpha_c_undefined : exists ln, 0 <= ln /\ s6_3_3_alpha_c ln 1 = Err ZeroDivisionError.
Proof.
  assert (C : continuity (fun x => x * dd x + 2100 * (x - 27 / 2))).
  { unfold dd. reg. }
  destruct (IVT (fun x => x * dd x + 2100 * (x - 27 / 2)) 0 8 C) as [z [Hz Ez]];
    try (unfold dd; lra).
  exists z. split; [lra|]. apply alpha_c_zero. unfold lam.
  pose proof (dd_pos z).
  apply Rmult_eq_reg_r with (dd z); [|lra]. rewrite Rmult_0_l, <- Ez. field. lra.
Qed.

Lemma alpha_c_defined ln ab :
  (exists r, s6_3_3_alpha_c ln ab = Ok r) <-> lam ln ab <> 0.
Proof.
  split.
  - intros [r E] Z. rewrite (alpha_c_zero _ _ Z) in E. discriminate.
  - intros H. eexists. now apply alpha_c_value.
Qed.

(** α_b = -1: a longer member is stronger. *)
Lemma alpha_c_not_mono : exists ln ln' r r',
  0 <= ln /\ ln < ln' /\ s6_3_3_alpha_c ln (-1) = Ok r /\ s6_3_3_alpha_c ln' (-1) = Ok r'
  /\ ac_alpha_c r < ac_alpha_c r'.
Proof.
  exists 12, (27 / 2).
  assert (L : lam 12 (-1) > 27 / 2) by (unfold lam, dd; lra).
  assert (L' : lam (27/2) (-1) = 27 / 2) by (unfold lam, dd; lra).
  destruct (alpha_c_facts 12 (-1)) as (r & E & _ & A & I & _); [lra|].
  destruct (alpha_c_facts (27/2) (-1)) as (r' & E' & _ & A' & I' & _); [lra|].
  exists r, r'. split; [lra|]. split; [lra|]. split; [auto|]. split; [auto|].
  assert (ac_alpha_c r' = 1) by (apply I'; lra).
  assert (ac_alpha_c r <> 1) by (rewrite I; lra). lra.
Qed.

(** From λ_n = 13.5 on the factor falls for every section constant. *)
Lemma lam_late x y ab : 27 / 2 <= x -> x <= y -> -1 <= ab <= 1 ->
  0 < lam x ab <= 27 / 2 \/ lam x ab <= lam y ab.
Proof.
  intros Hx L Hab. destruct (Rle_lt_dec (-9 / 10) ab) as [C|C]; [right; apply lam_mono; lra|].
  pose proof (dd_pos x) as Dx. pose proof (dd_pos y) as Dy.
  assert (D : dd x <= dd y) by (unfold dd; nra).
  assert (Ex : lam x ab = 27 / 2 + (x - 27 / 2) * (1 - 2100 * (- ab) / dd x))
    by (unfold lam; field; lra).
  assert (Ey : lam y ab = 27 / 2 + (y - 27 / 2) * (1 - 2100 * (- ab) / dd y))
    by (unfold lam; field; lra).
  assert (I : / dd y <= / dd x) by (apply Rinv_le_contravar; lra).
  assert (F : 1 - 2100 * (- ab) / dd x <= 1 - 2100 * (- ab) / dd y).
  { unfold Rdiv. assert (2100 * - ab * / dd y <= 2100 * - ab * / dd x) by (apply Rmult_le_compat_l; lra). lra. }
  destruct (Rle_lt_dec 0 (1 - 2100 * (- ab) / dd x)) as [P|P].
  - right. rewrite Ex, Ey. apply Rplus_le_compat_l. apply Rmult_le_compat; lra.
  - left. assert (Q : dd x < 2100).
    { apply Rnot_le_lt. intros Q. assert (2100 * - ab / dd x <= 1); [|lra].
      apply Rmult_le_reg_r with (dd x); [lra|]. unfold Rdiv. rewrite Rmult_assoc, Rinv_l by lra. lra. }
    assert (U : x < 20) by (unfold dd in Q; nra).
    assert (B : 2100 * - ab / dd x <= 2).
    { apply Rmult_le_reg_r with (dd x); [lra|]. unfold Rdiv. rewrite Rmult_assoc, Rinv_l by lra.
      unfold dd. nra. }
    rewrite Ex. nra.
Qed.

Lemma alpha_c_late ln ln' ab r r' :
  27 / 2 <= ln -> ln <= ln' -> -1 <= ab <= 1 ->
  s6_3_3_alpha_c ln ab = Ok r -> s6_3_3_alpha_c ln' ab = Ok r' ->
  ac_alpha_c r' <= ac_alpha_c r.
Proof.
  intros H0 L Hab E E'.
  destruct (Req_dec (lam ln ab) 0) as [Z|Z]; [rewrite (alpha_c_zero _ _ Z) in E; discriminate|].
  destruct (Req_dec (lam ln' ab) 0) as [Z'|Z'];
    [rewrite (alpha_c_zero _ _ Z') in E'; discriminate|].
  rewrite alpha_c_value in E, E' by auto. injection E as <-. injection E' as <-.
  cbn [ac_alpha_c]. destruct (lam_late ln ln' ab H0 L Hab) as [C|C].
  - fold (ac_of (lam ln ab)) (ac_of (lam ln' ab)). rewrite (proj2 (ac_of_eq_1 _ Z)) by lra.
    now apply ac_of_le_1.
  - destruct (Rle_lt_dec (-90) (lam ln ab)) as [W|W]; [now apply ac_of_anti|].
    exfalso. destruct (lam_late (27 / 2) ln ab) as [K|K]; try lra.
    + assert (lam (27 / 2) ab = 27 / 2) by (unfold lam, dd; lra).
      clear - W H0 Hab. pose proof (dd_pos ln). unfold lam in W.
      assert (-(ln - 27/2) * 2100 / dd ln <= 2100 * (ln - 27 / 2) / dd ln * ab); [|].
      { unfold Rdiv. assert (0 <= 2100 * (ln - 27 / 2) * / dd ln).
        { apply Rmult_le_pos; [lra|]. left. now apply Rinv_0_lt_compat. } nra. }
      assert (-90 <= ln - (ln - 27/2) * 2100 / dd ln); [|lra].
      assert ((ln - 27 / 2) * 2100 / dd ln <= ln + 90); [|lra].
      apply Rmult_le_reg_r with (dd ln); [lra|]. unfold Rdiv. rewrite Rmult_assoc, Rinv_l by lra.
      unfold dd. nra.
    + assert (lam (27 / 2) ab = 27 / 2) by (unfold lam, dd; lra). lra.
Qed.

(** * Capacity in terms of effective length *)

Lemma lambda_n_value k_f l_e r f_y f_ref :
  0 <= k_f -> 0 < r -> 0 <= f_y -> 0 < f_ref ->
  s6_3_3_lambda_n k_f l_e r f_y f_ref = Ok (l_e / r * sqrt k_f * sqrt (f_y / f_ref)).
Proof.
  intros. unfold s6_3_3_lambda_n.
  assert (0 <= f_y / f_ref) by (apply div_nonneg; auto).
  repeat (rstep; [|lra]). reflexivity.
Qed.

Lemma N_c_mono A_n k_f l l' r f_y f_ref ab n n' :
  0 <= A_n -> 0 <= k_f -> 0 < r -> 0 <= f_y -> 0 < f_ref -> -9 / 10 <= ab <= 1 ->
  0 <= l -> l <= l' ->
  s6_3_3_N_c A_n k_f l r f_y f_ref ab = Ok n ->
  s6_3_3_N_c A_n k_f l' r f_y f_ref ab = Ok n' -> nc_N_c n' <= nc_N_c n.
Proof.
  intros HA Hk Hr Hf Hrf Hab Hl L. unfold s6_3_3_N_c.
  rewrite !lambda_n_value by auto. cbn [bind].
  destruct (s6_3_3_alpha_c (l / r * _ * _) ab) as [a|] eqn:E; [|discriminate].
  destruct (s6_3_3_alpha_c (l' / r * _ * _) ab) as [a'|] eqn:E'; [|discriminate].
  cbn [bind]. intros H H'. injection H as <-. injection H' as <-. cbn [nc_N_c].
  assert (ac_alpha_c a' <= ac_alpha_c a).
  { pose proof (sqrt_pos k_f). pose proof (sqrt_pos (f_y / f_ref)).
    assert (0 <= l / r) by (apply div_nonneg; auto).
    assert (l / r <= l' / r) by (apply div_le_l; auto).
    eapply alpha_c_mono; [| | |exact E|exact E']; auto.
    - pos.
    - apply Rmult_le_compat_r; auto. apply Rmult_le_compat_r; auto. }
  assert (0 <= s6_2_N_s (s6_2_A_e A_n k_f) f_y).
  { unfold s6_2_N_s, s6_2_A_e. repeat apply Rmult_le_pos; auto. }
  nra.
Qed.

Lemma N_c_bound A_n k_f l r f_y f_ref ab n :
  0 <= A_n -> 0 <= k_f -> 0 <= f_y ->
  s6_3_3_N_c A_n k_f l r f_y f_ref ab = Ok n ->
  0 <= nc_N_c n <= A_n * k_f * f_y.
Proof.
  intros HA Hk Hf. unfold s6_3_3_N_c.
  destruct (s6_3_3_lambda_n _ _ _ _ _) as [x|]; [|discriminate]. cbn [bind].
  destruct (s6_3_3_alpha_c x ab) as [a|] eqn:E; [|discriminate]. cbn [bind].
  intros H; injection H as <-. cbn [nc_N_c]. unfold s6_2_N_s, s6_2_A_e.
  assert (Hl : lam x ab <> 0) by (apply alpha_c_defined; eauto).
  destruct (alpha_c_facts x ab Hl) as (a' & E' & _ & B & _).
  rewrite E in E'. injection E' as <-.
  assert (0 <= A_n * k_f * f_y) by (repeat apply Rmult_le_pos; auto). nra.
Qed.
