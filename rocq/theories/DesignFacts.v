(** Facts for C106-C110. *)

From Coq Require Import Reals List Lra.
From Verif Require Import Base Num RNum PyReal S5 S6 S7 SectProps S5Facts S7Facts SectFacts
  FormulaFacts DesignSpec.
Import ListNotations.
Open Scope R_scope.

(** * Pin connections *)

Lemma phiN_scale A k f_y f_u k_t phi alpha_u : 0 <= k ->
  nt_phiN (s7_1_N_t (A * k) (A * k) f_y f_u k_t phi alpha_u)
  = k * nt_phiN (s7_1_N_t A A f_y f_u k_t phi alpha_u).
Proof.
  intros Hk. rewrite !N_t_value. cbn [nt_phiN].
  replace (A * k * f_y) with (A * f_y * k) by ring.
  replace (A * k * f_u * k_t * alpha_u) with (A * f_u * k_t * alpha_u * k) by ring.
  rewrite <- mul_min by auto. ring.
Qed.

Lemma pin_areas N_t f_y f_u k_t phi alpha_u ar :
  0 <= N_t -> 0 < f_y -> 0 < f_u -> 0 < k_t -> 0 < phi -> 0 < alpha_u ->
  s7_1_A_reqd N_t f_y f_u k_t phi alpha_u = Ok ar ->
  let capacity A := nt_phiN (s7_1_N_t A A f_y f_u k_t phi alpha_u) in
  (exists A, s7_5_b_A_beyond (ar_phiA ar) None = Ok A /\ capacity A = N_t)
  /\ (exists A, s7_5_c_A_perp (ar_phiA ar) None = Ok A /\ capacity A = 133 / 100 * N_t)
  /\ (forall s, 0 <= s -> exists A, s7_5_b_A_beyond (ar_phiA ar) (Some s) = Ok A
        /\ capacity A = s * N_t)
  /\ (forall s, 0 <= s -> exists A, s7_5_c_A_perp (ar_phiA ar) (Some s) = Ok A
        /\ capacity A = s * N_t).
Proof.
  intros HN Hy Hu Hk Hp Ha E.
  destruct (design_inverse N_t f_y f_u k_t phi alpha_u HN Hy Hu Hk Hp Ha) as (x & Q & C & _).
  rewrite E in Q. injection Q as <-.
  cbn zeta. unfold s7_5_b_A_beyond, s7_5_c_A_perp.
  repeat split; intros; eexists; (split; [reflexivity|]); rewrite phiN_scale by lra;
    rewrite C; ring.
Qed.

Lemma pin_default a_e :
  s7_5_a_min_thickness a_e None <> s7_5_a_min_thickness a_e (Some (1 / 4))
  /\ s7_5_a_min_thickness a_e None = Err TypeError.
Proof. split; [discriminate|reflexivity]. Qed.

(** The thickness asked for is at most the plate's exactly up to the edge distance t / s. *)
Lemma pin_thickness a_e s t : 0 < s ->
  (exists r, s7_5_a_min_thickness a_e (Some s) = Ok r /\ r <= t) <-> a_e <= t / s.
Proof.
  intros Hs. assert (X : t / s * s = t) by (field; lra). cbn. split.
  - intros (r & E & L). injection E as <-. apply Rmult_le_reg_r with s; lra.
  - intros L. eexists. split; [reflexivity|]. rewrite <- X. apply Rmult_le_compat_r; lra.
Qed.

(** * Segments *)

Lemma segment_length g k :
  good_segment g ->
  s5_6_3_k_t (g_d_1 g) (g_l g) (g_t_f g) (g_t_w g) (g_n_w g) (RCode (g_code g)) = Ok k ->
  s5_6_3_l_e k (g_k_l g) (g_k_r g) (g_l g) = effective_length g.
Proof.
  intros (H1 & H2 & H3 & H4 & H5 & H6 & H7) E.
  rewrite k_t_values in E by auto. injection E as <-.
  unfold s5_6_3_l_e, effective_length, partial_ends. field. lra.
Qed.

Lemma partial_ends_pos c : 0 <= partial_ends c.
Proof. destruct c; cbn; lra. Qed.

Lemma effective_pos g : good_segment g -> 0 < effective_length g.
Proof.
  intros (H1 & H2 & H3 & H4 & H5 & H6 & H7). unfold effective_length.
  apply Rmult_lt_0_compat; [now apply Rmult_lt_0_compat|].
  assert (0 < g_d_1 g * (g_t_f g / (2 * g_t_w g)) ^ 3 / g_n_w g).
  { apply div_pos; auto. apply Rmult_lt_0_compat; auto. apply pow_lt. apply div_pos; lra. }
  pose proof (partial_ends_pos (g_code g)).
  assert (0 <= partial_ends (g_code g) * (g_d_1 g * (g_t_f g / (2 * g_t_w g)) ^ 3 / g_n_w g)).
  { apply Rmult_le_pos; lra. }
  lra.
Qed.

(** The capacity as a function of the effective length alone. *)
Lemma segment_capacity_of g s alpha_m M :
  good_segment g -> good_bending s ->
  segment_capacity g s alpha_m M <->
  exists m a, s5_6_1_M_o (effective_length g) (b_I_y s) (b_J s) (b_I_w s)
         (b_beta_x s) (b_E s) (b_G s) = Ok m
    /\ s5_6_alpha_s (b_M_s s) m = Ok a /\ M = s5_6_1_Mb (b_M_s s) alpha_m a.
Proof.
  intros Hg Hs. split.
  - intros (k & m & a & E1 & E2 & E3 & E4). rewrite (segment_length g k Hg E1) in E2. eauto 6.
  - intros (m & a & E2 & E3 & E4).
    pose proof Hg as (H1 & H2 & H3 & H4 & H5 & H6 & H7).
    pose proof (k_t_values (g_d_1 g) (g_l g) (g_t_f g) (g_t_w g) (g_n_w g) (g_code g)
      H1 H2 H3 H4 H5) as E1.
    eexists _, m, a. split; [exact E1|]. rewrite (segment_length g _ Hg E1). auto.
Qed.

Lemma segment_defined g s alpha_m :
  good_segment g -> good_bending s -> 0 < alpha_m ->
  exists M, segment_capacity g s alpha_m M /\ 0 < M
    /\ forall M', segment_capacity g s alpha_m M' -> M' = M.
Proof.
  intros Hg Hs Ha. pose proof (effective_pos g Hg) as Hl.
  pose proof Hs as (H1 & H2 & H3 & H4 & H5 & H6).
  destruct (M_o_positive (effective_length g) (b_I_y s) (b_J s) (b_I_w s) (b_beta_x s)
    (b_E s) (b_G s)) as (m & Em & Pm); auto.
  destruct (alpha_s_range (b_M_s s) m H6 Pm) as (a & Ea & Pa & _).
  exists (s5_6_1_Mb (b_M_s s) alpha_m a). split; [|split].
  - apply segment_capacity_of; eauto.
  - unfold s5_6_1_Mb. repeat apply Rmult_lt_0_compat; auto.
  - intros M' HM. apply segment_capacity_of in HM; auto.
    destruct HM as (m' & a' & E1 & E2 & E3). rewrite Em in E1. injection E1 as <-.
    rewrite Ea in E2. injection E2 as <-. exact E3.
Qed.

Lemma segment_longer g g' s alpha_m M M' :
  good_segment g -> good_segment g' -> good_bending s -> 0 < alpha_m ->
  segment_capacity g s alpha_m M -> segment_capacity g' s alpha_m M' ->
  (effective_length g < effective_length g' -> M' < M)
  /\ (effective_length g = effective_length g' -> M' = M).
Proof.
  intros Hg Hg' Hs Ha C C'. apply segment_capacity_of in C, C'; auto.
  destruct C as (m & a & E1 & E2 & ->), C' as (m' & a' & E1' & E2' & ->).
  pose proof Hs as (H1 & H2 & H3 & H4 & H5 & H6). split; intros L.
  - pose proof (effective_pos g Hg) as Hl.
    pose proof (M_o_decreasing _ _ _ _ _ _ _ _ _ _ Hl L H1 H2 H3 H4 H5 E1 E1') as D.
    destruct (M_o_positive (effective_length g') (b_I_y s) (b_J s) (b_I_w s) (b_beta_x s)
      (b_E s) (b_G s)) as (x & Q & Px'); auto; [lra|].
    rewrite E1' in Q. injection Q as <-.
    rewrite alpha_s_value in E2 by lra. rewrite alpha_s_value in E2' by lra.
    injection E2 as <-. injection E2' as <-.
    assert (h (b_M_s s / m') < h (b_M_s s / m)).
    { apply h_decr. { apply div_nonneg; lra. } apply div_lt_r; lra. }
    unfold s5_6_1_Mb. apply Rmult_lt_compat_r; auto. apply Rmult_lt_compat_l; auto.
  - rewrite L in E1. rewrite E1 in E1'. injection E1' as <-.
    rewrite E2 in E2'. injection E2' as <-. reflexivity.
Qed.

Lemma segment_longer_iff g g' s alpha_m M M' :
  good_segment g -> good_segment g' -> good_bending s -> 0 < alpha_m ->
  segment_capacity g s alpha_m M -> segment_capacity g' s alpha_m M' ->
  M' < M <-> effective_length g < effective_length g'.
Proof.
  intros Hg Hg' Hs Ha C C'.
  destruct (segment_longer g g' s alpha_m M M' Hg Hg' Hs Ha C C') as (A & B).
  destruct (segment_longer g' g s alpha_m M' M Hg' Hg Hs Ha C' C) as (A' & B').
  split; auto. intros L.
  destruct (Rtotal_order (effective_length g) (effective_length g')) as [X|[X|X]]; auto.
  - apply B in X. lra.
  - apply A' in X. lra.
Qed.

Lemma recode_length g c c' : good_segment g ->
  (effective_length (recode g c) < effective_length (recode g c')
   <-> partial_ends c < partial_ends c').
Proof.
  intros (H1 & H2 & H3 & H4 & H5 & H6 & H7). unfold effective_length, recode.
  cbn [g_d_1 g_l g_t_f g_t_w g_n_w g_k_l g_k_r g_code].
  assert (0 < g_d_1 g * (g_t_f g / (2 * g_t_w g)) ^ 3 / g_n_w g).
  { apply div_pos; auto. apply Rmult_lt_0_compat; auto. apply pow_lt. apply div_pos; lra. }
  set (z := g_d_1 g * (g_t_f g / (2 * g_t_w g)) ^ 3 / g_n_w g) in *. clearbody z.
  assert (0 < g_k_l g * g_k_r g) by (now apply Rmult_lt_0_compat).
  set (k := g_k_l g * g_k_r g) in *. clearbody k. split; intros L.
  - apply Rmult_lt_reg_l in L; auto. apply Rmult_lt_reg_r with z; auto.
    lra.
  - apply Rmult_lt_compat_l; auto. apply Rplus_lt_compat_l. now apply Rmult_lt_compat_r.
Qed.

Lemma segment_restraint g s alpha_m c c' M M' :
  good_segment g -> good_bending s -> 0 < alpha_m ->
  segment_capacity (recode g c) s alpha_m M -> segment_capacity (recode g c') s alpha_m M' ->
  M' < M <-> partial_ends c < partial_ends c'.
Proof.
  intros Hg Hs Ha C C'. rewrite <- (recode_length g c c' Hg).
  apply segment_longer_iff with s alpha_m; auto; destruct g; exact Hg.
Qed.

(** * Welds *)

Lemma weld_other x Q I :
  Q <> 0 ->
  s5_11_4_V_w_Weld (WNum x) Q I = Err TypeError
  /\ exists V, s5_11_4_V_w_Weld (WFloat x) Q I = Ok V.
Proof.
  intros HQ. split; [reflexivity|]. eexists. now apply weld_value.
Qed.
Lemma weld_parts l Q I :
  s5_11_4_V_w_Weld (WFloat (fold_right Rplus 0 l)) Q I = s5_11_4_V_w_Weld (WList l) Q I.
Proof. symmetry. apply weld_total. Qed.

(** * Plates *)

Lemma plate_area b t f_y ley f_ref :
  0 < b -> 0 < t -> 0 < f_y -> 0 < ley -> 0 < f_ref ->
  s6_2_A_e_flatplate b t f_y ley f_ref
  = Ok (Rmin (b * t) (ley * t ^ 2 / sqrt (f_y / f_ref))).
Proof.
  intros Hb Ht Hf Hl Hr.
  destruct (A_e_plate_facts b t f_y ley f_ref Hb Ht Hf Hl Hr) as (A & E & B & I & V).
  rewrite E. f_equal.
  assert (S : 0 < sqrt (f_y / f_ref)) by (apply sqrt_lt_R0; now apply div_pos).
  set (r := sqrt (f_y / f_ref)) in *. clearbody r.
  assert (X : ley * t ^ 2 / r * r = ley * t ^ 2) by (field; lra).
  assert (Y : b / t * r * t = b * r) by (field; lra).
  set (w := ley * t ^ 2 / r) in *. set (v := b / t * r) in *.
  unfold Rmin. destruct (Rle_dec _ _) as [L|L].
  - apply I. apply Rmult_le_reg_r with (t * t); [nra|]. nra.
  - apply V. left. apply Rmult_lt_reg_r with (t * t); [nra|]. nra.
Qed.

Lemma plate_value b t f_y ley f_ref N :
  0 < b -> 0 < t -> 0 < f_y -> 0 < ley -> 0 < f_ref ->
  plate_capacity b t f_y ley f_ref N <->
  N = Rmin (b * t * f_y) (ley * t ^ 2 * sqrt (f_y * f_ref)).
Proof.
  intros Hb Ht Hf Hl Hr. pose proof (plate_area b t f_y ley f_ref Hb Ht Hf Hl Hr) as E.
  assert (Q : forall A, s6_2_k_f_Form_Factor (b * t) A = Ok (A / (b * t))).
  { intros. unfold s6_2_k_f_Form_Factor. apply rdiv_ok. nra. }
  assert (R : s6_2_N_s (s6_2_A_e (b * t)
     (Rmin (b * t) (ley * t ^ 2 / sqrt (f_y / f_ref)) / (b * t))) f_y
     = Rmin (b * t * f_y) (ley * t ^ 2 * sqrt (f_y * f_ref))).
  { unfold s6_2_N_s, s6_2_A_e.
    replace (b * t * (Rmin (b * t) (ley * t ^ 2 / sqrt (f_y / f_ref)) / (b * t)))
      with (Rmin (b * t) (ley * t ^ 2 / sqrt (f_y / f_ref))) by (field; lra).
    rewrite mul_min by lra. f_equal.
    rewrite sqrt_div by lra. rewrite sqrt_mult by lra.
    pose proof (sqrt_lt_R0 f_y Hf) as P1. pose proof (sqrt_lt_R0 f_ref Hr) as P2.
    rewrite <- (sqrt_sqrt f_y) at 2 by lra. field. lra. }
  split.
  - intros (A & k & E1 & E2 & ->). rewrite E in E1. injection E1 as <-.
    rewrite Q in E2. injection E2 as <-. exact R.
  - intros ->. eexists _, _. split; [exact E|]. split; [apply Q|]. now symmetry.
Qed.

Lemma plate_grows b t f_y ley b' t' f_y' ley' f_ref N N' :
  0 < b -> 0 < t -> 0 < f_y -> 0 < ley -> 0 < f_ref ->
  b <= b' -> t <= t' -> f_y <= f_y' -> ley <= ley' ->
  plate_capacity b t f_y ley f_ref N -> plate_capacity b' t' f_y' ley' f_ref N' ->
  N <= N'.
Proof.
  intros Hb Ht Hf Hl Hr Lb Lt Lf Ll C C'.
  apply plate_value in C; auto. apply plate_value in C'; try lra. subst.
  assert (A1 : b * t <= b' * t') by (apply Rmult_le_compat; lra).
  assert (A2 : t ^ 2 <= t' ^ 2) by (apply pow_incr; lra).
  assert (A3 : sqrt (f_y * f_ref) <= sqrt (f_y' * f_ref)).
  { apply sqrt_le_1_alt. apply Rmult_le_compat_r; lra. }
  assert (A4 : 0 <= sqrt (f_y * f_ref)) by apply sqrt_pos.
  assert (A5 : 0 <= t ^ 2) by (apply pow_le; lra).
  eapply Rle_trans; [apply Rle_min_compat_r|apply Rle_min_compat_l].
  - apply Rmult_le_compat; nra.
  - apply Rmult_le_compat; auto. { nra. } apply Rmult_le_compat; lra.
Qed.

Lemma plate_default_unit b t f_y ley :
  s6_2_A_e_flatplate b t (f_y / 1e6) ley plate_f_ref = s6_2_A_e_flatplate b t f_y ley S6_f_ref.
Proof.
  unfold s6_2_A_e_flatplate, s6_2_lambda_e_flatplate, plate_f_ref, S6_f_ref.
  rewrite !(rdiv_ok _ 250), !(rdiv_ok _ 250e6) by lra.
  now replace (f_y / 1e6 / 250) with (f_y / 250e6) by lra.
Qed.

Lemma plate_default_slender b t f_y ley A' :
  0 < b -> 0 < t -> 0 < f_y -> 0 < ley ->
  ley <= b / t * sqrt (f_y / S6_f_ref) ->
  s6_2_A_e_flatplate b t f_y ley S6_f_ref = Ok A' ->
  s6_2_A_e_flatplate b t f_y ley plate_f_ref = Ok (A' / 1000).
Proof.
  intros Hb Ht Hf Hl L E. unfold S6_f_ref, plate_f_ref in *.
  assert (S : sqrt (f_y / 250) = 1000 * sqrt (f_y / 250e6)).
  { replace (f_y / 250) with (1000 * 1000 * (f_y / 250e6)) by lra.
    rewrite sqrt_mult; [|lra|apply div_nonneg; lra]. rewrite sqrt_square by lra. reflexivity. }
  destruct (A_e_plate_facts b t f_y ley 250e6) as (x & Q & _ & _ & V); auto; try lra.
  rewrite E in Q. injection Q as <-. rewrite (V L).
  destruct (A_e_plate_facts b t f_y ley 250) as (x & Q & _ & _ & V'); auto; try lra.
  rewrite Q. f_equal.
  assert (P : 0 < sqrt (f_y / 250e6)) by (apply sqrt_lt_R0; apply div_pos; lra).
  rewrite V'; rewrite S.
  - field. lra.
  - assert (0 < b / t) by (now apply div_pos). nra.
Qed.

(** A 300 x 5 plate of the 8 mm AS3678-250 strength, 280 MPa. *)
Lemma plate_default_case :
  exists A A', s6_2_A_e_flatplate (3/10) 5e-3 280e6 35 S6_f_ref = Ok A'
  /\ s6_2_A_e_flatplate (3/10) 5e-3 280e6 35 plate_f_ref = Ok A
  /\ 0 < A' /\ A = A' / 1000.
Proof.
  destruct (A_e_plate_facts (3/10) 5e-3 280e6 35 S6_f_ref) as (A' & E & B & _);
    try (unfold S6_f_ref; lra).
  exists (A' / 1000), A'. split; auto. split; [|split; [lra|reflexivity]].
  apply plate_default_slender; auto; try lra.
  assert (1 <= sqrt (280e6 / S6_f_ref)).
  { rewrite <- sqrt_1. apply sqrt_le_1_alt. unfold S6_f_ref. lra. }
  lra.
Qed.

(** A 300 deep I section, 6 m between restraints. *)
Definition seg (c : restraint) : segment := mk_segment (28/100) 6 15e-3 8e-3 1 1 1 c.
Definition sec : bending := mk_bending 9e-6 3e-7 2e-7 0 200e9 80e9 250e3.
Lemma seg_good c : good_segment (seg c).
Proof. unfold good_segment, seg. cbn. lra. Qed.
Lemma sec_good : good_bending sec.
Proof. unfold good_bending, sec. cbn. lra. Qed.
Lemma seg_case : exists M1 M2 M3,
  segment_capacity (recode (seg FF) FF) sec 1 M1 /\ segment_capacity (recode (seg FF) FP) sec 1 M2
  /\ segment_capacity (recode (seg FF) PP) sec 1 M3 /\ 0 < M3 < M2 /\ M2 < M1.
Proof.
  assert (D : forall c, exists M, segment_capacity (recode (seg FF) c) sec 1 M /\ 0 < M).
  { intros c. destruct (segment_defined (recode (seg FF) c) sec 1 (seg_good c) sec_good)
      as (M & A & B & _); [lra|eauto]. }
  destruct (D FF) as (M1 & C1 & P1), (D FP) as (M2 & C2 & P2), (D PP) as (M3 & C3 & P3).
  exists M1, M2, M3. repeat (split; auto).
  - apply (segment_restraint (seg FF) sec 1 FP PP); cbn; auto using seg_good, sec_good; lra.
  - apply (segment_restraint (seg FF) sec 1 FF FP); cbn; auto using seg_good, sec_good; lra.
Qed.

Lemma plate_case : exists N N',
  plate_capacity (3/10) 5e-3 280e6 35 S6_f_ref N
  /\ plate_capacity (4/10) 6e-3 320e6 35 S6_f_ref N' /\ 0 < N <= N'.
Proof.
  assert (D : forall b t f, 0 < b -> 0 < t -> 0 < f ->
    plate_capacity b t f 35 S6_f_ref (Rmin (b * t * f) (35 * t ^ 2 * sqrt (f * S6_f_ref)))).
  { intros. apply plate_value; auto; unfold S6_f_ref; lra. }
  eexists _, _. split; [apply D; lra|]. split; [apply D; lra|]. split.
  - apply Rmin_glb_lt; [lra|]. apply Rmult_lt_0_compat; [lra|]. apply sqrt_lt_R0.
    unfold S6_f_ref. lra.
  - eapply (plate_grows (3/10) 5e-3 280e6 35 (4/10) 6e-3 320e6 35 S6_f_ref); try apply D;
      unfold S6_f_ref; lra.
Qed.
