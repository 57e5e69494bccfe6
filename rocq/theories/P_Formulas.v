(** C86-C93: equations solved by the formulas of S5.py and S6.py, equivalent formulations,
    the effect of the yield stress, and changes of units (exact arithmetic). *)

From Coq Require Import Reals Lra List Bool String.
From Verif Require Import Base Num RNum PyReal Symmetry S5 S6 S5Facts S6Torsion S6Unsym S6Length
  S6Cases FormulaFacts UnsymLength YieldFacts UnitFacts S6Value FormulaCases.
Import ListNotations.
Open Scope R_scope.

(** C86: M_o is the positive solution of the buckling equation
    M² = P (G J + W + β_x M). *)
Theorem C86_reference_moment_solves_buckling_equation :
  forall l_e I_y J I_w beta_x E G m,
  0 < l_e -> 0 < I_y -> 0 < J -> 0 <= I_w -> 0 < E -> 0 < G ->
  s5_6_1_M_o l_e I_y J I_w beta_x E G = Ok m ->
  let P := PI ^ 2 * E * I_y / l_e ^ 2 in
  let W := PI ^ 2 * E * I_w / l_e ^ 2 in
  m ^ 2 = P * (G * J + W + beta_x * m)
  /\ forall x, 0 < x -> x ^ 2 = P * (G * J + W + beta_x * x) -> x = m.
Proof. exact M_o_equation. Qed.
Print Assumptions C86_reference_moment_solves_buckling_equation.

(** A result exists for every monosymmetry constant (C55_M_o_positive). *)
Example C86_case : exists m, s5_6_1_M_o 4 3e-6 1e-7 5e-8 (-1e-1) 200e9 80e9 = Ok m.
Proof.
  destruct (M_o_positive 4 3e-6 1e-7 5e-8 (-1e-1) 200e9 80e9) as (m & E & _); eauto; lra.
Qed.

(** C87: α_s is the positive solution of α² + 1.2 (M_s / M_o) α = 1.08; hence α_s M_s is
    less than 0.9 M_o. *)
Theorem C87_slenderness_factor_equation :
  forall M_s M_o a,
  0 < M_s -> 0 < M_o -> s5_6_alpha_s M_s M_o = Ok a ->
  a ^ 2 + 12 / 10 * (M_s / M_o) * a = 108 / 100
  /\ (forall x, 0 < x -> x ^ 2 + 12 / 10 * (M_s / M_o) * x = 108 / 100 -> x = a)
  /\ a * M_s < 9 / 10 * M_o.
Proof. exact alpha_s_equation. Qed.
Print Assumptions C87_slenderness_factor_equation.

Example C87_case : exists a, s5_6_alpha_s 100e3 50e3 = Ok a.
Proof. destruct (alpha_s_range 100e3 50e3) as (a & E & _); eauto; lra. Qed.

(** C88: the member moment capacity M_b = α_m α_s M_s grows with the yield stress and the
    section modulus, and falls with the effective length. *)
Theorem C88_bending_capacity_grows_with_strength :
  forall f_y f_y' Z_e Z_e' M_o alpha_m a a',
  0 < f_y -> 0 < Z_e -> f_y <= f_y' -> Z_e <= Z_e' -> 0 < M_o -> 0 <= alpha_m ->
  s5_6_alpha_s (s5_2_M_s f_y Z_e) M_o = Ok a ->
  s5_6_alpha_s (s5_2_M_s f_y' Z_e') M_o = Ok a' ->
  s5_6_1_Mb (s5_2_M_s f_y Z_e) alpha_m a <= s5_6_1_Mb (s5_2_M_s f_y' Z_e') alpha_m a'.
Proof. exact Mb_grows. Qed.
Print Assumptions C88_bending_capacity_grows_with_strength.

Theorem C88_bending_capacity_falls_with_length :
  forall l l' I_y J I_w beta_x E G M_s alpha_m m m' a a',
  0 < l -> l <= l' -> 0 < I_y -> 0 < J -> 0 <= I_w -> 0 < E -> 0 < G ->
  0 < M_s -> 0 <= alpha_m ->
  s5_6_1_M_o l I_y J I_w beta_x E G = Ok m ->
  s5_6_1_M_o l' I_y J I_w beta_x E G = Ok m' ->
  s5_6_alpha_s M_s m = Ok a -> s5_6_alpha_s M_s m' = Ok a' ->
  s5_6_1_Mb M_s alpha_m a' <= s5_6_1_Mb M_s alpha_m a.
Proof. exact Mb_shrinks_with_length. Qed.
Print Assumptions C88_bending_capacity_falls_with_length.

Example C88_case : 0 < 250e6 /\ 0 < 4e-4 /\ 250e6 <= 300e6 /\ 0 < 50e3 /\ 0 <= 1.
Proof. lra. Qed.

(** C89: two ways to the same shear capacity: an interface is a weld of strength
    s f_y t per unit length; a circular hollow section is a web of area k A_e. *)
Theorem C89_interface_is_a_weld :
  forall t f_y Q I s,
  s5_11_4_V_w_Interface t f_y Q I s = s5_11_4_V_w_Weld (WFloat (s * f_y * t)) Q I.
Proof. exact interface_is_weld. Qed.
Print Assumptions C89_interface_is_a_weld.

Theorem C89_chs_is_a_web :
  forall A_e f_y s k,
  s5_11_4_V_w_CHS A_e f_y s k = s5_11_4_V_w_Generic (k * A_e) f_y s.
Proof. exact chs_is_generic. Qed.
Print Assumptions C89_chs_is_a_web.

(** C90: the Euler load of a section with I = A r² is A times the Euler stress. *)
Theorem C90_euler_load_is_area_times_stress :
  forall E A r l f, f_euler E l r = Ok f -> N_euler E (A * r ^ 2) l = Ok (A * f).
Proof. exact euler_load. Qed.
Print Assumptions C90_euler_load_is_area_times_stress.

Theorem C90_euler_defined_together :
  forall E r l, r <> 0 ->
  (exists f, f_euler E l r = Ok f) <-> (exists N, N_euler E (r ^ 2) l = Ok N).
Proof. exact euler_load_iff. Qed.
Print Assumptions C90_euler_defined_together.

Example C90_case : exists f, f_euler 200e9 3 2e-2 = Ok f.
Proof. eexists. apply f_euler_value; lra. Qed.

(** C91 is false: for the point symmetric section [cruciform] raising the yield stress from
    450 to 452 MPa lowers the capacity. *)
Theorem C91_stronger_steel_refuted :
  forall roots, exists o o',
  s6_1_1_Nc roots cruciform (1 / 10) 1 1 1 (Some [AxStr "point"]) 250e6 0 (85 / 100) (9 / 10) true true = Ok o
  /\ s6_1_1_Nc roots (with_f_y cruciform 452e6) (1 / 10) 1 1 1 (Some [AxStr "point"]) 250e6 0
       (85 / 100) (9 / 10) true true = Ok o'
  /\ q_f_y cruciform = 450e6 /\ o_N_c o' < o_N_c o.
Proof. exact stronger_steel_refuted. Qed.
Print Assumptions C91_stronger_steel_refuted.

(** What holds, for every section constant α_b from -1 to 1: at most 0.1 % is
    lost, and nothing unless the torsional mode is checked and f_y passes 2.25 f_oc.
    [with_f_y q f]: the section with another yield stress. *)
Theorem C91_stronger_steel_partial :
  forall roots q f_y' l kx ky kz sym f_ref alpha_b unc phi cb ct o o',
  sect_ok q -> q_f_y q <= f_y' -> 0 < l -> 0 < kx -> 0 < ky -> 0 < f_ref ->
  -1 <= alpha_b <= 1 -> 0 < unc ->
  s6_1_1_Nc roots q l kx ky kz sym f_ref alpha_b unc phi cb ct = Ok o ->
  s6_1_1_Nc roots (with_f_y q f_y') l kx ky kz sym f_ref alpha_b unc phi cb ct = Ok o' ->
  999 / 1000 * o_N_c o <= o_N_c o'
  /\ ((cb && ct = true -> exists z,
         s6_3_3_N_c_torsion roots q (l * kx) (l * ky) (l * kz) sym unc = Ok z
         /\ (q_f_y q <= 9 / 4 * cz_f_oc z -> f_y' <= 9 / 4 * cz_f_oc z))
      -> o_N_c o <= o_N_c o').
Proof. exact Nc_yield. Qed.
Print Assumptions C91_stronger_steel_partial.

(** The channel of C63 is such a member, also with a negative section constant. *)
Example C91_case : sect_ok channel /\ q_f_y channel <= 300e6
  /\ (forall roots, exists o,
       s6_1_1_Nc roots channel 3 1 1 1 (Some [AxStr "x"]) 250e6 0 (85 / 100) (9 / 10) true true = Ok o)
  /\ forall roots f, 0 < f -> exists o,
       s6_1_1_Nc roots (with_f_y channel f) 3 1 1 1 (Some [AxStr "x"]) 250e6 (-1) (85 / 100) (9 / 10)
         true true = Ok o.
Proof.
  split; [exact channel_ok|]. split; [cbn; lra|]. split; [exact channel_defined|].
  intros roots f. apply channel_tempered; lra.
Qed.

(** C92 is false for sections without a symmetry: the unequal angle [angle], given in metres
    and pascals, has a capacity; the same angle in millimetres and megapascals has none. *)
Theorem C92_unit_independence_refuted :
  forall roots, correct_roots roots ->
  (exists o, s6_1_1_Nc roots angle PI 1 1 1 (Some []) 250e6 0 (85 / 100) (9 / 10) true true = Ok o)
  /\ forall o, s6_1_1_Nc roots (rescale 1000 (1 / 1000000) angle) (1000 * PI) 1 1 1 (Some [])
                 (1 / 1000000 * 250e6) 0 (85 / 100) (9 / 10) true true <> Ok o.
Proof. exact angle_units. Qed.
Print Assumptions C92_unit_independence_refuted.

(** What holds: for sections with a symmetry (or without a torsional check) every entry of
    the result, and every failure, is that of the original units.  [rescale k s q]: lengths
    multiplied by k, stresses by s; [rescale_out c]: every capacity multiplied by c. *)
Theorem C92_unit_independence_partial :
  forall k s, 0 < k -> 0 < s ->
  forall roots q l kx ky kz sym f_ref alpha_b unc phi cb ct,
  (cb = true -> ct = true -> symmetry sym <> Ok SymNone) ->
  s6_1_1_Nc roots (rescale k s q) (k * l) kx ky kz sym (s * f_ref) alpha_b unc phi cb ct
  = rmap (rescale_out (s * k ^ 2))
      (s6_1_1_Nc roots q l kx ky kz sym f_ref alpha_b unc phi cb ct).
Proof. exact Nc_scale. Qed.
Print Assumptions C92_unit_independence_partial.

Example C92_case : 0 < 1000 /\ 0 < 1 / 1000000 /\ symmetry (Some [AxStr "x"]) <> Ok SymNone.
Proof. split; [lra|]. split; [lra|discriminate]. Qed.

(** C93: bending and shear. *)
Theorem C93_reference_moment_units :
  forall k s, 0 < k -> 0 < s ->
  forall l I_y J I_w beta_x E G,
  s5_6_1_M_o (k * l) (k ^ 4 * I_y) (k ^ 4 * J) (k ^ 6 * I_w) (k * beta_x) (s * E) (s * G)
  = rmap (Rmult (s * k ^ 3)) (s5_6_1_M_o l I_y J I_w beta_x E G).
Proof. exact M_o_scale. Qed.
Print Assumptions C93_reference_moment_units.

Theorem C93_factors_have_no_unit :
  forall k s, 0 < k -> 0 < s ->
  (forall M_s M_o, s5_6_alpha_s (s * k ^ 3 * M_s) (s * k ^ 3 * M_o) = s5_6_alpha_s M_s M_o)
  /\ (forall d t f_y lim f_ref,
        s5_11_5_alpha_v (k * d) (k * t) (s * f_y) lim (s * f_ref)
        = s5_11_5_alpha_v d t f_y lim f_ref)
  /\ (forall d l t_f t_w n code,
        s5_6_3_k_t (k * d) (k * l) (k * t_f) (k * t_w) n code = s5_6_3_k_t d l t_f t_w n code).
Proof. exact factors_same. Qed.
Print Assumptions C93_factors_have_no_unit.
