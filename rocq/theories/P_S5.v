(** C52-C59, C78: the shear and bending formulas of S5_Shear.py and S5.py
    (exact arithmetic). *)

From Coq Require Import Reals Lra List Permutation String.
From Verif Require Import Base Num RNum PyReal S5 S5Facts.
Import ListNotations.
Open Scope R_scope.

(** C52: the shear buckling coefficient is 1 up to the limiting slenderness L, strictly
    between 0 and 1 beyond it (and within 2 (s - L) / L of 1: no jump at the limit). *)
Theorem C52_alpha_v_range :
  forall d_p t_w f_y lim f_ref,
  0 < d_p -> 0 < t_w -> 0 < f_y -> 0 < lim -> 0 < f_ref ->
  let L := lim / sqrt (f_y / f_ref) in
  exists v, s5_11_5_alpha_v d_p t_w f_y lim f_ref = Ok v
   /\ (d_p / t_w <= L -> v = 1)
   /\ (L < d_p / t_w -> 0 < v < 1 /\ v = (L / (d_p / t_w)) ^ 2
        /\ 1 - v <= 2 * (d_p / t_w - L) / L).
Proof. exact alpha_v_range. Qed.
Print Assumptions C52_alpha_v_range.

Theorem C52_alpha_v_monotone :
  forall d_p t_w f_y d_p' t_w' f_y' lim f_ref v v',
  0 < d_p -> 0 < t_w' -> 0 < f_y -> 0 < lim -> 0 < f_ref ->
  d_p <= d_p' -> t_w' <= t_w -> f_y <= f_y' ->
  s5_11_5_alpha_v d_p t_w f_y lim f_ref = Ok v ->
  s5_11_5_alpha_v d_p' t_w' f_y' lim f_ref = Ok v' -> v' <= v.
Proof. exact alpha_v_mono. Qed.
Print Assumptions C52_alpha_v_monotone.

(** A slender web: 1 m deep, 5 mm thick, f_y = f_ref: L = 82 < 200 = s. *)
Example C52_case : 0 < 1 /\ 0 < 5e-3 /\ 0 < 250e6 /\ 0 < 82 /\
  82 / sqrt (250e6 / 250e6) < 1 / 5e-3.
Proof. replace (250e6 / 250e6) with 1 by field. rewrite sqrt_1. lra. Qed.

(** C53. *)
Theorem C53_alpha_vma_range :
  forall f_vm f_va, 0 < f_vm -> 0 < f_va ->
  exists v, s5_11_3_alpha_vma f_vm f_va = Ok v
   /\ 0 < v <= 1 /\ (v = 1 <-> f_vm / f_va <= 11 / 10)
   /\ (11 / 10 < f_vm / f_va -> v = 2 / (9 / 10 + f_vm / f_va)).
Proof. exact alpha_vma_range. Qed.
Print Assumptions C53_alpha_vma_range.

Theorem C53_alpha_vma_monotone :
  forall f_vm f_va f_vm' f_va' v v',
  0 < f_vm -> 0 < f_va' -> f_vm <= f_vm' -> f_va' <= f_va ->
  s5_11_3_alpha_vma f_vm f_va = Ok v -> s5_11_3_alpha_vma f_vm' f_va' = Ok v' -> v' <= v.
Proof. exact alpha_vma_mono. Qed.
Print Assumptions C53_alpha_vma_monotone.

Theorem C53_alpha_vma_scale_free :
  forall f_vm f_va k, 0 < k -> 0 < f_vm -> 0 < f_va ->
  s5_11_3_alpha_vma (k * f_vm) (k * f_va) = s5_11_3_alpha_vma f_vm f_va.
Proof. exact alpha_vma_scale. Qed.
Print Assumptions C53_alpha_vma_scale_free.

Example C53_case : 0 < 150e6 /\ 0 < 100e6 /\ 150e6 <= 160e6 /\ 11 / 10 < 150e6 / 100e6.
Proof. lra. Qed.

(** C54: only the total counts, not the split or the order. *)
Theorem C54_weld_total :
  forall l Q I,
  s5_11_4_V_w_Weld (WList l) Q I = s5_11_4_V_w_Weld (WFloat (fold_right Rplus 0 l)) Q I.
Proof. exact weld_total. Qed.
Print Assumptions C54_weld_total.

Theorem C54_weld_order :
  forall l l' Q I, Permutation l l' ->
  s5_11_4_V_w_Weld (WList l) Q I = s5_11_4_V_w_Weld (WList l') Q I.
Proof. exact weld_order. Qed.
Print Assumptions C54_weld_order.

Theorem C54_weld_value :
  forall x Q I, Q <> 0 -> s5_11_4_V_w_Weld (WFloat x) Q I = Ok (x * I / Q).
Proof. exact weld_value. Qed.
Print Assumptions C54_weld_value.

Example C54_case : Permutation [1; 2; 3] [3; 1; 2].
Proof. apply Permutation_sym. exact (Permutation_cons_app [1; 2] [] 3 (Permutation_refl _)). Qed.

(** C55: positive for every monosymmetry constant, strictly decreasing with the length
    (also for negative constants), the usual formula for symmetric sections. *)
Theorem C55_M_o_positive :
  forall l_e I_y J I_w beta_x E G,
  0 < l_e -> 0 < I_y -> 0 < J -> 0 <= I_w -> 0 < E -> 0 < G ->
  exists m, s5_6_1_M_o l_e I_y J I_w beta_x E G = Ok m /\ 0 < m.
Proof. exact M_o_positive. Qed.
Print Assumptions C55_M_o_positive.

Theorem C55_M_o_decreases_with_length :
  forall l l' I_y J I_w beta_x E G m m',
  0 < l -> l < l' -> 0 < I_y -> 0 < J -> 0 <= I_w -> 0 < E -> 0 < G ->
  s5_6_1_M_o l I_y J I_w beta_x E G = Ok m ->
  s5_6_1_M_o l' I_y J I_w beta_x E G = Ok m' -> m' < m.
Proof. exact M_o_decreasing. Qed.
Print Assumptions C55_M_o_decreases_with_length.

Theorem C55_M_o_doubly_symmetric :
  forall l_e I_y J I_w E G,
  0 < l_e -> 0 < I_y -> 0 < J -> 0 <= I_w -> 0 < E -> 0 < G ->
  s5_6_1_M_o l_e I_y J I_w 0 E G =
  Ok (sqrt (PI * PI * E * I_y / (l_e * l_e) * (G * J + PI * PI * E * I_w / (l_e * l_e)))).
Proof. exact M_o_symmetric. Qed.
Print Assumptions C55_M_o_doubly_symmetric.

Example C55_case : 0 < 4 /\ 4 < 5 /\ 0 < 3e-6 /\ 0 < 1e-7 /\ 0 <= 5e-8 /\ 0 < 200e9 /\ 0 < 80e9.
Proof. lra. Qed.

(** C56. *)
Theorem C56_alpha_m_capped :
  forall M_max M_2 M_3 M_4 mx v, s5_6_1_alpha_m M_max M_2 M_3 M_4 mx = Ok v -> v <= mx.
Proof. exact alpha_m_capped. Qed.
Print Assumptions C56_alpha_m_capped.

Theorem C56_alpha_m_defined :
  forall M_max M_2 M_3 M_4 mx,
  (exists v, s5_6_1_alpha_m M_max M_2 M_3 M_4 mx = Ok v)
  <-> ~ (M_2 = 0 /\ M_3 = 0 /\ M_4 = 0).
Proof. exact alpha_m_defined. Qed.
Print Assumptions C56_alpha_m_defined.

Theorem C56_alpha_m_scale_free :
  forall M_max M_2 M_3 M_4 mx k, k <> 0 ->
  s5_6_1_alpha_m (k * M_max) (k * M_2) (k * M_3) (k * M_4) mx
  = s5_6_1_alpha_m M_max M_2 M_3 M_4 mx.
Proof. exact alpha_m_scale. Qed.
Print Assumptions C56_alpha_m_scale_free.

Theorem C56_alpha_m_sign_free :
  forall M a b c M' a' b' c' mx,
  Rabs M' = Rabs M -> Rabs a' = Rabs a -> Rabs b' = Rabs b -> Rabs c' = Rabs c ->
  s5_6_1_alpha_m M' a' b' c' mx = s5_6_1_alpha_m M a b c mx.
Proof. exact alpha_m_sign. Qed.
Print Assumptions C56_alpha_m_sign_free.

Theorem C56_alpha_m_uniform_moment :
  forall M mx, M <> 0 -> s5_6_1_alpha_m M M M M mx = Ok (Rmin (17 / 10 / sqrt 3) mx).
Proof. exact alpha_m_uniform. Qed.
Print Assumptions C56_alpha_m_uniform_moment.

Example C56_case : -2 <> 0 /\ Rabs (-5) = Rabs 5 /\ ~ (3 = 0 /\ 0 = 0 /\ -3 = 0).
Proof. split; [lra|]. split; [apply Rabs_Ropp|lra]. Qed.

(** C57. *)
Theorem C57_alpha_s_range :
  forall M_s M_o, 0 < M_s -> 0 < M_o ->
  exists v, s5_6_alpha_s M_s M_o = Ok v /\ 0 < v < 6 / 10 * sqrt 3.
Proof. exact alpha_s_range. Qed.
Print Assumptions C57_alpha_s_range.

Theorem C57_alpha_s_monotone :
  forall M_s M_o M_s' M_o' v v',
  0 < M_s -> 0 < M_o' -> M_s <= M_s' -> M_o' <= M_o -> M_s < M_s' \/ M_o' < M_o ->
  s5_6_alpha_s M_s M_o = Ok v -> s5_6_alpha_s M_s' M_o' = Ok v' -> v' < v.
Proof. exact alpha_s_mono. Qed.
Print Assumptions C57_alpha_s_monotone.

Example C57_case : 0 < 100e3 /\ 0 < 50e3 /\ 100e3 <= 120e3 /\ 50e3 <= 60e3.
Proof. lra. Qed.

(** C58 is false: with the default α_m = 1 and the α_s of a stocky member the member
    capacity exceeds the section capacity (AS4100 requires the cap M_b <= M_s). *)
Theorem C58_bending_capacity_capped_refuted :
  exists M_s M_o a_s,
  0 < M_s /\ 0 < M_o /\ s5_6_alpha_s M_s M_o = Ok a_s /\ M_s < s5_6_1_Mb M_s 1 a_s.
Proof. exact Mb_exceeds. Qed.
Print Assumptions C58_bending_capacity_capped_refuted.

(** What holds: the exact region of moment ratios where the cap is respected. *)
Theorem C58_bending_capacity_capped_partial :
  forall M_s M_o alpha_m a_s,
  0 < M_s -> 0 < M_o -> 0 < alpha_m -> s5_6_alpha_s M_s M_o = Ok a_s ->
  (s5_6_1_Mb M_s alpha_m a_s <= M_s <->
   3 <= (5 / (3 * alpha_m)) ^ 2 + 10 / (3 * alpha_m) * (M_s / M_o)).
Proof. exact Mb_bound_iff. Qed.
Print Assumptions C58_bending_capacity_capped_partial.

(** For α_m = 1 and M_s = M_o the condition holds, so the region is not empty. *)
Example C58_case : 3 <= (5 / (3 * 1)) ^ 2 + 10 / (3 * 1) * (1 / 1).
Proof. lra. Qed.

(** C59. *)
Theorem C59_twist_restraint :
  forall d_1 l t_f t_w n_w,
  0 < d_1 -> 0 < l -> 0 < t_f -> 0 < t_w -> 0 < n_w ->
  (forall c, In c [FF; FL; LL; FU] -> s5_6_3_k_t d_1 l t_f t_w n_w (RCode c) = Ok 1)
  /\ exists p pp, 1 < p /\ 1 < pp /\ pp - 1 = 2 * (p - 1)
     /\ (forall c, In c [FP; PL; PU] -> s5_6_3_k_t d_1 l t_f t_w n_w (RCode c) = Ok p)
     /\ s5_6_3_k_t d_1 l t_f t_w n_w (RCode PP) = Ok pp.
Proof. exact k_t_facts. Qed.
Print Assumptions C59_twist_restraint.

Theorem C59_twist_restraint_value :
  forall d_1 l t_f t_w n_w c,
  0 < d_1 -> 0 < l -> 0 < t_f -> 0 < t_w -> 0 < n_w ->
  s5_6_3_k_t d_1 l t_f t_w n_w (RCode c) =
  Ok (1 + match c with FF | FL | LL | FU => 0 | FP | PL | PU => 1 | PP => 2 end
          * (d_1 / l * (t_f / (2 * t_w)) ^ 3 / n_w)).
Proof. exact k_t_values. Qed.
Print Assumptions C59_twist_restraint_value.

Example C59_case : 0 < 3e-1 /\ 0 < 4 /\ 0 < 1e-2 /\ 0 < 6e-3 /\ 0 < 1.
Proof. lra. Qed.

(** C78 is false: no string is accepted. *)
Theorem C78_string_restraint_codes_refuted :
  forall d_1 l t_f t_w n_w s,
  s5_6_3_k_t d_1 l t_f t_w n_w (RStr s) = Err AssertionError.
Proof. exact k_t_strings. Qed.
Print Assumptions C78_string_restraint_codes_refuted.

(** What holds: every enum member is accepted, whatever the (positive) dimensions.  Missing:
    strings. *)
Theorem C78_enum_codes_partial :
  forall d_1 l t_f t_w n_w c,
  0 < d_1 -> 0 < l -> 0 < t_f -> 0 < t_w -> 0 < n_w ->
  exists k, s5_6_3_k_t d_1 l t_f t_w n_w (RCode c) = Ok k /\ 1 <= k.
Proof. exact k_t_accepts. Qed.
Print Assumptions C78_enum_codes_partial.
