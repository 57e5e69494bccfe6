(** C106-C110: pin connections, reference stress, effective lengths, welds and plates
    (exact arithmetic). *)

From Coq Require Import Reals Lra List.
From Verif Require Import Base Num RNum PyReal S5 S6 S7 SectProps S7Facts DesignSpec DesignFacts.
Import ListNotations.
Open Scope R_scope.

(** C106 is false: without its factor the thickness check of a pin connection fails; the
    documented default of 0.25 is not there. *)
Theorem C106_pin_defaults_refuted :
  forall a_e, s7_5_a_min_thickness a_e None <> s7_5_a_min_thickness a_e (Some (1 / 4))
  /\ s7_5_a_min_thickness a_e None = Err TypeError.
Proof. exact pin_default. Qed.
Print Assumptions C106_pin_defaults_refuted.

(** What holds: for a member sized for the load N_t, the default area beyond the hole carries
    exactly N_t and the default area across the hole 1.33 N_t; explicit factors scale the
    capacity; the thickness check accepts exactly the edge distances up to t / s.  Missing:
    the default of the thickness check. *)
Theorem C106_pin_areas_partial :
  forall N_t f_y f_u k_t phi alpha_u ar,
  0 <= N_t -> 0 < f_y -> 0 < f_u -> 0 < k_t -> 0 < phi -> 0 < alpha_u ->
  s7_1_A_reqd N_t f_y f_u k_t phi alpha_u = Ok ar ->
  let capacity A := nt_phiN (s7_1_N_t A A f_y f_u k_t phi alpha_u) in
  (exists A, s7_5_b_A_beyond (ar_phiA ar) None = Ok A /\ capacity A = N_t)
  /\ (exists A, s7_5_c_A_perp (ar_phiA ar) None = Ok A /\ capacity A = 133 / 100 * N_t)
  /\ (forall s, 0 <= s -> exists A, s7_5_b_A_beyond (ar_phiA ar) (Some s) = Ok A
        /\ capacity A = s * N_t)
  /\ (forall s, 0 <= s -> exists A, s7_5_c_A_perp (ar_phiA ar) (Some s) = Ok A
        /\ capacity A = s * N_t).
Proof. exact pin_areas. Qed.
Print Assumptions C106_pin_areas_partial.

Theorem C106_pin_thickness_partial :
  forall a_e s t, 0 < s ->
  (exists r, s7_5_a_min_thickness a_e (Some s) = Ok r /\ r <= t) <-> a_e <= t / s.
Proof. exact pin_thickness. Qed.
Print Assumptions C106_pin_thickness_partial.

Example C106_case : exists ar, s7_1_A_reqd 1e6 250e6 410e6 1 (9/10) (85/100) = Ok ar.
Proof. eexists. apply A_reqd_value; lra. Qed.

(** C107 is false: the plate functions default to a reference stress of 250, the compression
    functions to 250e6.  With a strength in Pa, as the materials give it, a slender plate
    loses 99.9 % of its effective area. *)
Theorem C107_default_reference_stress_refuted :
  forall b t f_y lambda_ey A,
  0 < b -> 0 < t -> 0 < f_y -> 0 < lambda_ey ->
  lambda_ey <= b / t * sqrt (f_y / S6_f_ref) ->
  s6_2_A_e_flatplate b t f_y lambda_ey S6_f_ref = Ok A ->
  s6_2_A_e_flatplate b t f_y lambda_ey plate_f_ref = Ok (A / 1000).
Proof. exact plate_default_slender. Qed.
Print Assumptions C107_default_reference_stress_refuted.

Example C107_case :
  exists A A', s6_2_A_e_flatplate (3/10) 5e-3 280e6 35 S6_f_ref = Ok A'
  /\ s6_2_A_e_flatplate (3/10) 5e-3 280e6 35 plate_f_ref = Ok A
  /\ 0 < A' /\ A = A' / 1000.
Proof. exact plate_default_case. Qed.

(** What holds: with the strength converted to MPa both defaults agree.  Missing: a strength
    in Pa. *)
Theorem C107_default_reference_stress_partial :
  forall b t f_y lambda_ey,
  s6_2_A_e_flatplate b t (f_y / 1e6) lambda_ey plate_f_ref
  = s6_2_A_e_flatplate b t f_y lambda_ey S6_f_ref.
Proof. exact plate_default_unit. Qed.
Print Assumptions C107_default_reference_stress_partial.

(** C108: the moment capacity of a segment, worked out through k_t, l_e, M_o, α_s and M_b.
    It exists and is positive ... *)
Theorem C108_segment_capacity_exists :
  forall g s alpha_m, good_segment g -> good_bending s -> 0 < alpha_m ->
  exists M, segment_capacity g s alpha_m M /\ 0 < M
    /\ forall M', segment_capacity g s alpha_m M' -> M' = M.
Proof. exact segment_defined. Qed.
Print Assumptions C108_segment_capacity_exists.

(** ... it depends on the segment only through the effective length
    k_l k_r (l + n d_1 (t_f / 2 t_w)³ / n_w), n the number of partially restrained ends, and
    falls strictly with it ... *)
Theorem C108_falls_with_effective_length :
  forall g g' s alpha_m M M',
  good_segment g -> good_segment g' -> good_bending s -> 0 < alpha_m ->
  segment_capacity g s alpha_m M -> segment_capacity g' s alpha_m M' ->
  M' < M <-> effective_length g < effective_length g'.
Proof. exact segment_longer_iff. Qed.
Print Assumptions C108_falls_with_effective_length.

(** ... so one restraint code beats another exactly if it has fewer partial ends. *)
Theorem C108_fewer_partial_ends :
  forall g s alpha_m c c' M M',
  good_segment g -> good_bending s -> 0 < alpha_m ->
  segment_capacity (recode g c) s alpha_m M -> segment_capacity (recode g c') s alpha_m M' ->
  M' < M <-> partial_ends c < partial_ends c'.
Proof. exact segment_restraint. Qed.
Print Assumptions C108_fewer_partial_ends.

Example C108_case : exists M1 M2 M3,
  segment_capacity (recode (seg FF) FF) sec 1 M1 /\ segment_capacity (recode (seg FF) FP) sec 1 M2
  /\ segment_capacity (recode (seg FF) PP) sec 1 M3 /\ 0 < M3 < M2 /\ M2 < M1.
Proof. exact seg_case. Qed.

(** C109 is false: a weld strength that is a number but not a Python float (a numpy float, an
    int) is refused. *)
Theorem C109_single_weld_refuted :
  forall x Q I, Q <> 0 ->
  s5_11_4_V_w_Weld (WNum x) Q I = Err TypeError
  /\ exists V, s5_11_4_V_w_Weld (WFloat x) Q I = Ok V.
Proof. exact weld_other. Qed.
Print Assumptions C109_single_weld_refuted.

(** What holds: a Python float counts as any list of parts that add up to it.  Missing: other
    numbers. *)
Theorem C109_single_weld_partial :
  forall parts Q I,
  s5_11_4_V_w_Weld (WFloat (fold_right Rplus 0 parts)) Q I = s5_11_4_V_w_Weld (WList parts) Q I.
Proof. exact weld_parts. Qed.
Print Assumptions C109_single_weld_partial.

(** C110: the section capacity of a plate in compression, worked out through the effective
    area and the form factor, is the smaller of yield and local buckling ... *)
Theorem C110_plate_capacity :
  forall b t f_y lambda_ey f_ref N,
  0 < b -> 0 < t -> 0 < f_y -> 0 < lambda_ey -> 0 < f_ref ->
  plate_capacity b t f_y lambda_ey f_ref N <->
  N = Rmin (b * t * f_y) (lambda_ey * t ^ 2 * sqrt (f_y * f_ref)).
Proof. exact plate_value. Qed.
Print Assumptions C110_plate_capacity.

(** ... so a wider, thicker, stronger or better supported plate never has less. *)
Theorem C110_plate_capacity_grows :
  forall b t f_y lambda_ey b' t' f_y' lambda_ey' f_ref N N',
  0 < b -> 0 < t -> 0 < f_y -> 0 < lambda_ey -> 0 < f_ref ->
  b <= b' -> t <= t' -> f_y <= f_y' -> lambda_ey <= lambda_ey' ->
  plate_capacity b t f_y lambda_ey f_ref N ->
  plate_capacity b' t' f_y' lambda_ey' f_ref N' -> N <= N'.
Proof. exact plate_grows. Qed.
Print Assumptions C110_plate_capacity_grows.

Example C110_case : exists N N',
  plate_capacity (3/10) 5e-3 280e6 35 S6_f_ref N
  /\ plate_capacity (4/10) 6e-3 320e6 35 S6_f_ref N' /\ 0 < N <= N'.
Proof. exact plate_case. Qed.
