(** C118-C124: the formulas of S7, S5, S5_Shear and S6 computed on IEEE doubles against exact arithmetic.
    The vocabulary is FloatSpec.v, FloatValSpec.v, FloatUtilSpec.v ([moderate]) and FloatFormulaSpec.v
    ([accurate], [tame], [good_pow], [member_factor]). *)

From Coq Require Import ZArith Reals List.
From Verif Require Import Base Num PyNum FloatSpec FloatValSpec FloatUtilSpec FloatFormulaSpec S5 NumFormulas
  FloatFormulas FloatNear FloatPow FloatFormulaFinal.
Import ListNotations.
Open Scope R_scope.

(** Powers of the assumed quality exist. *)
Example powers : good_pow soft_pow.
Proof. exact soft_good. Qed.

(** C118: tension.  Every entry of the result of s7_1_N_t is within 2^-50 of the exact value. *)
Theorem C118_floats_tension_capacity :
  forall A_g A_n f_y f_u k_t phi au,
  moderate A_g -> moderate A_n -> moderate f_y -> moderate f_u -> moderate k_t -> moderate phi -> moderate au ->
  Forall2 (accurate 50) (ns7_1_N_t A_g A_n f_y f_u k_t phi au)
    (let ty := val A_g * val f_y in let tu := val A_n * val f_u * val k_t * val au in
     [ty; tu; Rmin ty tu; ty * val phi; tu * val phi; Rmin ty tu * val phi]).
Proof. exact tension_capacity_acc. Qed.
Print Assumptions C118_floats_tension_capacity.

(** So is every entry of the result of s7_1_A_reqd, which does not fail. *)
Theorem C118_floats_tension_area :
  forall N f_y f_u k_t phi au,
  moderate N -> moderate f_y -> moderate f_u -> moderate k_t -> moderate phi -> moderate au ->
  exists l, ns7_1_A_reqd N f_y f_u k_t phi au = Ok l /\ Forall2 (accurate 50) l
    (let ag := val N / val f_y in let an := val N / val au / val k_t / val f_u in
     [ag; an; Rmax ag an; ag / val phi; an / val phi; Rmax ag an / val phi]).
Proof. exact tension_area_acc. Qed.
Print Assumptions C118_floats_tension_area.

(** 100 000 N on 300 grade steel, areas in mm2. *)
Example C118_case : moderate (fl 100000 1) /\ moderate (fl 500 1) /\ moderate (fl 450 1) /\ moderate (fl 280 1) /\
  moderate (fl 440 1) /\ moderate (fl 1 1) /\ moderate (fl 9 10) /\ moderate (fl 85 100).
Proof. lits. Qed.

(** C122, in full: the member sized by s7_1_A_reqd carries the load by s7_1_N_t.  False on doubles; what holds is
    that its capacity is within 2^-49 of the load. *)
Theorem C122_floats_design_area_partial :
  forall N fy fu kt phi au,
  moderate N -> moderate fy -> moderate fu -> moderate kt -> moderate phi -> moderate au ->
  exists ag an a pag pan pa, ns7_1_A_reqd N fy fu kt phi au = Ok [ag; an; a; pag; pan; pa] /\
  exists ty tu n pty ptu pn, ns7_1_N_t pa pa fy fu kt phi au = [ty; tu; n; pty; ptu; pn] /\ accurate 49 pn (val N).
Proof. exact design_round_trip. Qed.
Print Assumptions C122_floats_design_area_partial.

Theorem C122_floats_design_area_refuted :
  ~ forall N fy fu kt phi au,
  moderate N -> moderate fy -> moderate fu -> moderate kt -> moderate phi -> moderate au ->
  exists ag an a pag pan pa, ns7_1_A_reqd N fy fu kt phi au = Ok [ag; an; a; pag; pan; pa] /\
  exists ty tu n pty ptu pn, ns7_1_N_t pa pa fy fu kt phi au = [ty; tu; n; pty; ptu; pn] /\ val N <= val pn.
Proof. exact round_trip_refuted. Qed.
Print Assumptions C122_floats_design_area_refuted.


(** The inputs of the counterexample meet the hypotheses of C122. *)
Example C122_case : moderate (fl 11000 1) /\ moderate (fl 250 1) /\ moderate (fl 410 1) /\ moderate (fl 1 1) /\ moderate (fl 9 10) /\ moderate (fl 85 100).
Proof. lits. Qed.

(** C119: shear. *)
Theorem C119_floats_shear_products :
  forall A f s c, moderate A -> moderate f -> moderate s -> moderate c ->
  accurate 51 (ns5_11_4_V_w_Generic A f s) (val s * val f * val A) /\
  accurate 51 (ns5_11_4_V_w_CHS A f s c) (val c * val s * val f * val A).
Proof. exact shear_products_acc. Qed.
Print Assumptions C119_floats_shear_products.

Theorem C119_floats_interface :
  forall t f Q I s, moderate t -> moderate f -> moderate Q -> moderate I -> moderate s ->
  exists r, ns5_11_4_V_w_Interface t f Q I s = Ok r /\ accurate 50 r (val f * val s * val t * val I / val Q).
Proof. exact interface_acc. Qed.
Print Assumptions C119_floats_interface.

(** The error of a weld group grows with the number of welds only. *)
Theorem C119_floats_welds :
  forall l Q I, l <> [] -> (length l <= 400)%nat -> Forall moderate l -> moderate Q -> moderate I ->
  exists r, ns5_11_4_V_w_Weld l Q I = Ok r /\ finite_double r /\
    let exact := fold_right Rplus 0 (map val l) * val I / val Q in
    Rabs (val r - exact) <= INR (length l + 2) * powerRZ 2 (-52) * exact.
Proof. exact weld_close. Qed.
Print Assumptions C119_floats_welds.

(** Both factors, on either side of the web slenderness limit and of the cap. *)
Theorem C119_floats_web_factor :
  forall pw, good_pow pw -> forall d t f lim ref, moderate d -> moderate t -> moderate f -> moderate lim -> moderate ref ->
  exists r, ns5_11_5_alpha_v pw d t f lim ref = Ok r /\
    accurate 47 r (Rmin 1 ((val lim / sqrt (val f / val ref) / (val d / val t)) ^ 2)).
Proof. exact alpha_v_close. Qed.
Print Assumptions C119_floats_web_factor.

Theorem C119_floats_stress_factor :
  forall vm va, moderate vm -> moderate va ->
  exists r, ns5_11_3_alpha_vma vm va = Ok r /\ accurate 50 r (Rmin (2 / (9 / 10 + val vm / val va)) 1).
Proof. exact alpha_vma_close. Qed.
Print Assumptions C119_floats_stress_factor.

(** A 300 x 8 web of 300 grade steel and a pair of welds. *)
Example C119_case : (moderate (fl 2400 1) /\ moderate (fl 300 1) /\ moderate (fl 8 1) /\ moderate (fl 320 1) /\ moderate (fl 6 10) /\ moderate (fl 36 100)
  /\ moderate (fl 82 1) /\ moderate (fl 250 1)) /\ Forall moderate [fl 978 1000; fl 978 1000].
Proof. lits. Qed.

(** C120: bending. *)
Theorem C120_floats_bending_products :
  forall a b c d, moderate a -> moderate b -> moderate c -> moderate d ->
  accurate 51 (ns5_2_M_s a b) (val a * val b) /\
  accurate 51 (ns5_6_1_Mb a b c) (val b * val c * val a) /\
  accurate 51 (ns5_6_3_l_e a b c d) (val a * val b * val c * val d).
Proof. exact bending_products_acc. Qed.
Print Assumptions C120_floats_bending_products.

(** The moments may have either sign and all but one of the quarter-point moments may vanish. *)
Theorem C120_floats_moment_factor :
  forall pw, good_pow pw -> forall M M2 M3 M4 mx, tame M -> val M <> 0 -> tame M2 -> tame M3 -> tame M4 -> moderate mx ->
  val M2 <> 0 \/ val M3 <> 0 \/ val M4 <> 0 ->
  exists r, ns5_6_1_alpha_m pw M M2 M3 M4 mx = Ok r /\
    accurate 49 r (Rmin (17 / 10 * Rabs (val M) / sqrt (val M2 ^ 2 + val M3 ^ 2 + val M4 ^ 2)) (val mx)).
Proof. exact alpha_m_close. Qed.
Print Assumptions C120_floats_moment_factor.

Theorem C120_floats_twist_factor :
  forall pw, good_pow pw -> forall d l tf tw nw c, moderate d -> moderate l -> moderate tf -> moderate tw -> moderate nw ->
  exists r, ns5_6_3_k_t pw d l tf tw nw c = Ok r /\ accurate 48 r (1 + match c with
    | FF | FL | LL | FU => 0
    | FP | PL | PU => val d / val l * (val tf / (2 * val tw)) ^ 3 / val nw
    | PP => 2 * (val d / val l * (val tf / (2 * val tw)) ^ 3 / val nw) end).
Proof. exact k_t_close. Qed.
Print Assumptions C120_floats_twist_factor.

Theorem C120_floats_reference_moment :
  forall pw, good_pow pw -> forall l Iy J Iw bx E G,
  moderate l -> moderate Iy -> moderate J -> tame Iw -> 0 <= val Iw -> tame bx -> 0 <= val bx -> moderate E -> moderate G ->
  exists r, ns5_6_1_M_o pw l Iy J Iw bx E G = Ok r /\
    let a := PI ^ 2 * val E * val Iy / val l ^ 2 in
    accurate 48 r (sqrt a * (sqrt (val G * val J + PI ^ 2 * val E * val Iw / val l ^ 2 + (val bx / 2) ^ 2 * a) + val bx / 2 * sqrt a)).
Proof. exact M_o_close. Qed.
Print Assumptions C120_floats_reference_moment.

(** A 3 m length of a 310UB, in kN and m, and a beam with a vanishing quarter-point moment. *)
Example C120_case : moderate (fl 3 1) /\ moderate (fl 765 100000000) /\ moderate (fl 157 1000000000) /\ moderate (fl 200 1) /\ moderate (fl 80 1)
  /\ moderate (fl 186 1) /\ moderate (fl 250 1) /\ tame (fl (-100) 1) /\ tame (fl 0 1) /\ tame (fl 50 1) /\ val (fl (-100) 1) <> 0 /\ val (fl 50 1) <> 0.
Proof. exact beam_numbers. Qed.

(** C123, in full: the slenderness factor of a beam is positive.  False on doubles: the difference in
    the formula cancels for very slender beams.  What holds is an absolute bound for all ratios, and a
    relative one, with positivity, for ratios up to 1024. *)
Theorem C123_floats_slenderness_partial :
  forall pw, good_pow pw -> forall Ms Mo, moderate Ms -> moderate Mo ->
  exists a, ns5_6_alpha_s pw Ms Mo = Ok a /\ finite_double a /\
    let q := val Ms / val Mo in let exact := 6 / 10 * (sqrt (q ^ 2 + 3) - q) in
    Rabs (val a - exact) <= powerRZ 2 (-49) * (1 + q) /\ (q <= 1024 -> accurate 28 a exact /\ 0 < val a).
Proof. exact alpha_s_acc. Qed.
Print Assumptions C123_floats_slenderness_partial.

Theorem C123_floats_slenderness_refuted :
  ~ forall pw, good_pow pw -> forall Ms Mo, moderate Ms -> moderate Mo ->
  exists a, ns5_6_alpha_s pw Ms Mo = Ok a /\ 0 < val a.
Proof. exact alpha_s_refuted. Qed.
Print Assumptions C123_floats_slenderness_refuted.


(** M_s = 186 and M_o = 80: an ordinary beam, well inside the ratio 1024. *)
Example C123_case : moderate (fl 186 1) /\ moderate (fl 80 1) /\ val (fl 186 1) / val (fl 80 1) <= 1024.
Proof. exact ordinary_beam. Qed.

(** C121: compression. *)
Theorem C121_floats_compression_products :
  forall a b, moderate a -> moderate b ->
  accurate 52 (ns6_2_A_e a b) (val a * val b) /\ accurate 52 (ns6_2_N_s a b) (val a * val b) /\
  accurate 52 (ns6_3_2_l_e a b) (val a * val b).
Proof. exact compression_products_acc. Qed.
Print Assumptions C121_floats_compression_products.

Theorem C121_floats_euler :
  forall E I l r, moderate E -> moderate I -> moderate l -> moderate r ->
  (exists n, nN_euler E I l = Ok n /\ accurate 50 n (PI ^ 2 * val E * val I / val l ^ 2)) /\
  (exists f, nf_euler E l r = Ok f /\ accurate 50 f (PI ^ 2 * val E / (val l / val r) ^ 2)).
Proof. exact euler_acc. Qed.
Print Assumptions C121_floats_euler.

Theorem C121_floats_polar_radius :
  forall pw, good_pow pw -> forall rx ry xo yo, moderate rx -> moderate ry -> tame xo -> tame yo ->
  exists r, nr_ol pw rx ry xo yo = Ok r /\ accurate 50 r (sqrt (val rx ^ 2 + val ry ^ 2 + val xo ^ 2 + val yo ^ 2)).
Proof. exact r_ol_acc. Qed.
Print Assumptions C121_floats_polar_radius.

Theorem C121_floats_torsion :
  forall pw, good_pow pw -> forall A l rx ry xo yo J Iw E G,
  moderate A -> moderate l -> moderate rx -> moderate ry -> tame xo -> tame yo ->
  moderate J -> tame Iw -> 0 <= val Iw -> moderate E -> moderate G ->
  exists f, nf_euler_torsion pw A l rx ry xo yo J Iw E G = Ok f /\
    accurate 48 f (val G * val J / (val A * (val rx ^ 2 + val ry ^ 2 + val xo ^ 2 + val yo ^ 2)) *
      (1 + PI ^ 2 * val E * val Iw / (val G * val J * val l ^ 2))).
Proof. exact f_euler_torsion_close. Qed.
Print Assumptions C121_floats_torsion.

Theorem C121_floats_modified_slenderness :
  forall pw, good_pow pw -> forall kf l r fy ref, moderate kf -> moderate l -> moderate r -> moderate fy -> moderate ref ->
  exists x, ns6_3_3_lambda_n pw kf l r fy ref = Ok x /\ accurate 49 x (val l / val r * sqrt (val kf) * sqrt (val fy / val ref)).
Proof. exact lambda_n_acc. Qed.
Print Assumptions C121_floats_modified_slenderness.

(** A 4 m column with r = 60 mm: a slenderness of about 73. *)
Example C121_case : (moderate (fl 5000 1) /\ moderate (fl 1 1) /\ moderate (fl 4000 1) /\ moderate (fl 60 1) /\ moderate (fl 300 1) /\ moderate (fl 250 1))
  /\ finite_double (fl 5 10) /\ -1 <= val (fl 5 10) <= 1
  /\ 135 / 10 <= val (fl 4000 1) / val (fl 60 1) * sqrt (val (fl 1 1)) * sqrt (val (fl 300 1) / val (fl 250 1)) <= 1000.
Proof. exact column_numbers. Qed.

(** C124, in full: the member factor is computed to within 2^-36 for every slenderness.  False: the
    formula cancels for very stocky members.  It holds for slendernesses up to 1000 as long as the
    slenderness [l] of the formula is at least 1. *)
Theorem C124_floats_member_factor_partial :
  forall pw, good_pow pw -> forall x ab, moderate x -> usual_slenderness (val x) (val ab) -> finite_double ab -> -1 <= val ab <= 1 ->
  exists aa lam eta xi ac, ns6_3_3_alpha_c pw x ab = Ok [aa; lam; eta; xi; ac] /\ finite_double ac /\
    Rabs (val ac - member_factor (val x) (val ab)) <= powerRZ 2 (-36).
Proof. exact alpha_c_acc. Qed.
Print Assumptions C124_floats_member_factor_partial.

Theorem C124_floats_member_factor_refuted :
  ~ forall pw, good_pow pw -> forall x ab, moderate x -> finite_double ab -> -1 <= val ab <= 1 ->
  exists aa lam eta xi ac, ns6_3_3_alpha_c pw x ab = Ok [aa; lam; eta; xi; ac] /\ finite_double ac /\
    Rabs (val ac - member_factor (val x) (val ab)) <= powerRZ 2 (-36).
Proof. exact alpha_c_refuted. Qed.
Print Assumptions C124_floats_member_factor_refuted.

(** From the section and the length to the member capacity, relative to the section capacity. *)
Theorem C124_floats_member_capacity_partial :
  forall pw, good_pow pw -> forall A_n k_f l_e r f_y f_ref ab,
  moderate A_n -> moderate k_f -> moderate l_e -> moderate r -> moderate f_y -> moderate f_ref ->
  finite_double ab -> -1 <= val ab <= 1 ->
  let ln := val l_e / val r * sqrt (val k_f) * sqrt (val f_y / val f_ref) in
  usual_slenderness ln (val ab) ->
  exists n, ns6_3_3_N_c pw A_n k_f l_e r f_y f_ref ab = Ok n /\ finite_double n /\
    let N_s := val A_n * val k_f * val f_y in
    Rabs (val n - N_s * member_factor ln (val ab)) <= powerRZ 2 (-36) * N_s.
Proof. exact N_c_acc. Qed.
Print Assumptions C124_floats_member_capacity_partial.

(** Every slenderness from 13.5 to 1000 is covered, every one from 7 unless the section constant is above 0.8,
    and every one from 1 if the section constant is not positive. *)
Theorem C124_covered :
  forall ln b, -1 <= b <= 1 -> ln <= 1000 -> 135 / 10 <= ln \/ 7 <= ln /\ b <= 8 / 10 \/ 1 <= ln /\ b <= 0 ->
  usual_slenderness ln b.
Proof. exact usual_covered. Qed.
Print Assumptions C124_covered.

(** The column of C121_case, its slenderness given directly, and a stocky member. *)
Example C124_case : (moderate (fl 73 1) /\ usual_slenderness (val (fl 73 1)) (val (fl 5 10))) /\
  (moderate (fl 9 1) /\ usual_slenderness (val (fl 9 1)) (val (fl 5 10))) /\ finite_double (fl 5 10) /\ -1 <= val (fl 5 10) <= 1.
Proof. exact column_slenderness. Qed.
