(** C128-C130: the plate and CHS formulas on IEEE doubles, the bounds that hold there without any tolerance,
    and the exact order of results.  The vocabulary is FloatSpec.v, FloatValSpec.v, FloatUtilSpec.v
    ([moderate]), FloatFormulaSpec.v ([accurate], [good_pow]) and FloatOrderSpec.v. *)

From Coq Require Import ZArith Reals List String Floats.SpecFloat.
From Verif Require Import Base Num PyNum FloatSpec FloatValSpec FloatUtilSpec FloatFormulaSpec FloatOrderSpec Symmetry
  NumFormulas NumFormulasFacts NumS6 NumSect NumSectFacts SectProps FloatPow FloatSect FloatMono FloatCaps FloatOrderCases.
Import ListNotations.
Open Scope R_scope.

(** C128: the plate and CHS formulas within a few units of the last place. *)
Theorem C128_floats_plate_slenderness :
  forall pw, good_pow pw -> forall b t fy ref, moderate b -> moderate t -> moderate fy -> moderate ref ->
  exists r, ns6_2_lambda_e_flatplate pw b t fy ref = Ok r /\ accurate 50 r (val b / val t * sqrt (val fy / val ref)).
Proof. exact plate_slenderness_acc. Qed.
Print Assumptions C128_floats_plate_slenderness.

Theorem C128_floats_chs_slenderness :
  forall d t fy ref, moderate d -> moderate t -> moderate fy -> moderate ref ->
  exists r, ns6_2_lambda_e_CHS d t fy ref = Ok r /\ accurate 51 r (val d / val t * (val fy / val ref)).
Proof. exact chs_slenderness_acc. Qed.
Print Assumptions C128_floats_chs_slenderness.

Theorem C128_floats_plate_width :
  forall b le ley, moderate b -> moderate le -> moderate ley ->
  exists r, ns6_2_b_e_flatplate b le ley = Ok r /\ accurate 51 r (Rmin (val b * (val ley / val le)) (val b)).
Proof. exact plate_width_acc. Qed.
Print Assumptions C128_floats_plate_width.

Theorem C128_floats_chs_diameter :
  forall pw, good_pow pw -> forall d le ley, moderate d -> moderate le -> moderate ley ->
  exists r, ns6_2_d_e_CHS pw d le ley = Ok r /\
    accurate 49 r (Rmin (Rmin (val d * sqrt (val ley / val le)) (val d * (3 * val ley / val le) ^ 2)) (val d)).
Proof. exact chs_diameter_acc. Qed.
Print Assumptions C128_floats_chs_diameter.

Theorem C128_floats_plate_area :
  forall pw, good_pow pw -> forall b t fy ley ref, moderate b -> moderate t -> moderate fy -> moderate ley -> moderate ref ->
  exists r, ns6_2_A_e_flatplate pw b t fy ley ref = Ok r /\
    accurate 49 r (Rmin (val b * (val ley / (val b / val t * sqrt (val fy / val ref)))) (val b) * val t).
Proof. exact plate_area_acc. Qed.
Print Assumptions C128_floats_plate_area.

Theorem C128_floats_form_factor :
  forall An Ae, moderate An -> moderate Ae -> exists r, ns6_2_k_f_Form_Factor An Ae = Ok r /\ accurate 52 r (val Ae / val An).
Proof. exact form_factor_acc. Qed.
Print Assumptions C128_floats_form_factor.

(** A plate of 200 mm (500 mm) by 10 mm of grade 300, and a computed effective area. *)
Example C128_case : moderate (fl 2 10) /\ moderate (fl 1 100) /\ moderate (fl 300 1) /\ moderate (fl 40 1) /\ moderate (fl 250 1) /\
  exists r, ns6_2_A_e_flatplate soft_pow (fl 5 10) (fl 1 100) (fl 300 1) (fl 40 1) (fl 250 1) = Ok r.
Proof. exact plate_case. Qed.

Example C128_powers : good_pow soft_pow.
Proof. exact soft_good. Qed.

(** The program run on doubles here is, over the reals, the one the properties of the plate functions are
    proved of. *)
Theorem C128_same_plate_area :
  forall b t fy ley ref, ns6_2_A_e_flatplate Rpw b t fy ley ref = s6_2_A_e_flatplate b t fy ley ref.
Proof. exact plate_area_R. Qed.
Print Assumptions C128_same_plate_area.

Theorem C128_same_chs_diameter :
  forall d le ley, ns6_2_d_e_CHS Rpw d le ley = s6_2_d_e_CHS d le ley.
Proof. exact chs_diameter_R. Qed.
Print Assumptions C128_same_chs_diameter.

(** C129: caps hold on doubles without any tolerance, whatever the powers and the roots do. *)
Theorem C129_floats_compression_least :
  forall pw roots q l kx ky kz sym ref ab un phi cb ct s ps x px y py z pz c pc,
  ns6_1_1_Nc pw roots q l kx ky kz sym ref ab un phi cb ct = Ok [s; ps; x; px; y; py; z; pz; c; pc] ->
  (forall v, In (Some v) [s; x; y; z] -> some_double v) -> positive phi ->
  least_of c [s; x; y; z] /\ least_of pc [ps; px; py; pz] /\
  (exists n, s = Some n /\ forall v, In (Some v) [x; y; z; c] -> le v n) /\
  (exists n, ps = Some n /\ forall v, In (Some v) [px; py; pz; pc] -> le v n).
Proof. exact compression_least. Qed.
Print Assumptions C129_floats_compression_least.

(** A column of 3 m that fails by twisting. *)
Example C129_case : exists s ps x px y py z pz c pc,
  ns6_1_1_Nc soft_pow (fun _ _ _ _ => []) slim (fl 3 1) (fl 1 1) (fl 1 1) (fl 1 1) (Some [AxStr "x"; AxStr "y"])
    (fl 250000000 1) (fl 5 10) (fl 85 100) (fl 9 10) true true = Ok [s; ps; x; px; y; py; z; pz; c; pc] /\
  (forall v, In (Some v) [s; x; y; z] -> some_double v) /\ positive (fl 9 10) /\ c = z /\ z <> x /\ x <> y /\ y <> s.
Proof. exact slim_case. Qed.

Theorem C129_floats_tension_least :
  forall Ag An fy fu kt phi au ty tu n pty ptu pn,
  ns7_1_N_t Ag An fy fu kt phi au = [ty; tu; n; pty; ptu; pn] -> some_double ty -> some_double tu -> positive phi ->
  least_of (Some n) [Some ty; Some tu] /\ least_of (Some pn) [Some pty; Some ptu].
Proof. exact tension_caps. Qed.
Print Assumptions C129_floats_tension_least.

Theorem C129_floats_diameter_cap :
  forall pw d le_ ley r, ns6_2_d_e_CHS pw d le_ ley = Ok r -> some_double d -> some_double r -> le r d.
Proof. exact chs_cap. Qed.
Print Assumptions C129_floats_diameter_cap.

Example C129_diameter_case : exists r, ns6_2_d_e_CHS soft_pow (fl 1 10) (fl 100 1) (fl 82 1) = Ok r /\ some_double (fl 1 10) /\
  some_double r /\ r <> fl 1 10.
Proof. exact diameter_case. Qed.

Theorem C129_floats_width_cap :
  forall b le_ ley r, ns6_2_b_e_flatplate b le_ ley = Ok r -> some_double b -> some_double r -> le r b.
Proof. exact plate_cap. Qed.
Print Assumptions C129_floats_width_cap.

Theorem C129_floats_moment_cap :
  forall pw M M2 M3 M4 mx a, ns5_6_1_alpha_m pw M M2 M3 M4 mx = Ok a -> some_double mx -> some_double a -> le a mx.
Proof. exact moment_cap. Qed.
Print Assumptions C129_floats_moment_cap.

(** C130: formulas without powers keep the order of their arguments exactly on doubles, infinities included. *)
Theorem C130_floats_tension_grows :
  forall Ag Ag' An An' fy fy' fu fu' kt kt' phi phi' au au',
  grows Ag Ag' -> grows An An' -> pgrows fy fy' -> pgrows fu fu' -> pgrows kt kt' -> pgrows phi phi' -> pgrows au au' ->
  Forall2 grows (ns7_1_N_t Ag An fy fu kt phi au) (ns7_1_N_t Ag' An' fy' fu' kt' phi' au').
Proof. exact tension_grows. Qed.
Print Assumptions C130_floats_tension_grows.

Theorem C130_floats_area_grows :
  forall N N' fy fy' fu fu' kt kt' phi phi' au au',
  grows N N' -> pgrows fy' fy -> pgrows fu' fu -> pgrows kt' kt -> pgrows phi' phi -> pgrows au' au ->
  exists a a', ns7_1_A_reqd N fy fu kt phi au = Ok a /\ ns7_1_A_reqd N' fy' fu' kt' phi' au' = Ok a' /\ Forall2 grows a a'.
Proof. exact area_grows. Qed.
Print Assumptions C130_floats_area_grows.

Theorem C130_floats_shear_grows :
  forall A A' fy fy' s s' c c', pgrows A A' -> pgrows fy fy' -> pgrows s s' -> pgrows c c' ->
  grows (ns5_11_4_V_w_Generic A fy s) (ns5_11_4_V_w_Generic A' fy' s') /\
  grows (ns5_11_4_V_w_CHS A fy s c) (ns5_11_4_V_w_CHS A' fy' s' c').
Proof. exact shear_grows. Qed.
Print Assumptions C130_floats_shear_grows.

Theorem C130_floats_interface_grows :
  forall t t' fy fy' Q Q' I I' s s', grows fy fy' -> pgrows t t' -> pgrows I I' -> pgrows s s' -> pgrows Q' Q ->
  exists v v', ns5_11_4_V_w_Interface t fy Q I s = Ok v /\ ns5_11_4_V_w_Interface t' fy' Q' I' s' = Ok v' /\ grows v v'.
Proof. exact interface_grows. Qed.
Print Assumptions C130_floats_interface_grows.

Theorem C130_floats_welds_grow :
  forall v v' Q Q' I I', Forall2 grows v v' -> pgrows I I' -> pgrows Q' Q ->
  exists w w', ns5_11_4_V_w_Weld v Q I = Ok w /\ ns5_11_4_V_w_Weld v' Q' I' = Ok w' /\ grows w w'.
Proof. exact weld_grows. Qed.
Print Assumptions C130_floats_welds_grow.

Theorem C130_floats_stress_factor :
  forall vm vm' va va', grows vm vm' -> pgrows va' va ->
  exists a a', ns5_11_3_alpha_vma vm va = Ok a /\ ns5_11_3_alpha_vma vm' va' = Ok a' /\ grows a' a /\ le a (fl 1 1).
Proof. exact stress_factor_grows. Qed.
Print Assumptions C130_floats_stress_factor.

Theorem C130_floats_bending_grows :
  forall fy fy' z z' kt kt' kl kl' kr kr' l l' am am' als als', grows fy fy' -> pgrows z z' -> pgrows kt kt' -> pgrows kl kl' ->
  pgrows kr kr' -> pgrows l l' -> grows am am' -> pgrows als als' ->
  grows (ns5_2_M_s fy z) (ns5_2_M_s fy' z') /\ grows (ns5_6_3_l_e kt kl kr l) (ns5_6_3_l_e kt' kl' kr' l') /\
  grows (ns5_6_1_Mb z am als) (ns5_6_1_Mb z' am' als').
Proof. exact bending_grows. Qed.
Print Assumptions C130_floats_bending_grows.

Theorem C130_floats_squash_grows :
  forall A A' kf kf' fy fy', grows A A' -> pgrows kf kf' -> pgrows fy fy' ->
  grows (ns6_2_A_e A kf) (ns6_2_A_e A' kf') /\ grows (ns6_2_N_s A fy) (ns6_2_N_s A' fy') /\
  grows (ns6_2_N_s (ns6_2_A_e A kf) fy) (ns6_2_N_s (ns6_2_A_e A' kf') fy').
Proof. exact compression_grows. Qed.
Print Assumptions C130_floats_squash_grows.

Theorem C130_floats_euler_load :
  forall E E' I I' l l' n n', pgrows E E' -> pgrows I I' -> grows l' l ->
  nN_euler E I l = Ok n -> nN_euler E' I' l' = Ok n' -> nisnan n = false -> nisnan n' = false -> le n n'.
Proof. exact euler_grows. Qed.
Print Assumptions C130_floats_euler_load.

Theorem C130_floats_euler_stress :
  forall E E' r r' l l' n n', pgrows E E' -> pgrows r r' -> grows l' l ->
  nf_euler E l r = Ok n -> nf_euler E' l' r' = Ok n' -> nisnan n = false -> nisnan n' = false -> le n n'.
Proof. exact euler_stress_grows. Qed.
Print Assumptions C130_floats_euler_stress.

Theorem C130_floats_chs_slenderness :
  forall d d' t t' f f' ref ref', grows d d' -> pgrows t' t -> grows f f' -> pgrows ref' ref ->
  exists r r', ns6_2_lambda_e_CHS d t f ref = Ok r /\ ns6_2_lambda_e_CHS d' t' f' ref' = Ok r' /\
    (nisnan r = false -> nisnan r' = false -> le r r').
Proof. exact chs_slenderness_grows. Qed.
Print Assumptions C130_floats_chs_slenderness.

Theorem C130_floats_width_grows :
  forall b b' l l' y y', pgrows b b' -> pgrows l' l -> grows y y' ->
  exists r r', ns6_2_b_e_flatplate b l y = Ok r /\ ns6_2_b_e_flatplate b' l' y' = Ok r' /\ grows r r' /\ le r b.
Proof. exact plate_width_grows. Qed.
Print Assumptions C130_floats_width_grows.

Theorem C130_floats_form_factor :
  forall n n' e e', pgrows n' n -> grows e e' ->
  exists r r', ns6_2_k_f_Form_Factor n e = Ok r /\ ns6_2_k_f_Form_Factor n' e' = Ok r' /\ grows r r'.
Proof. exact form_factor_grows. Qed.
Print Assumptions C130_floats_form_factor.

(** Numbers that grow: from 0 to infinity, from 0.1 to 0.3, a constant. *)
Example C130_case : grows (fl 0 1) (PFlt (S754_infinity false)) /\ grows (fl 1 10) (fl 3 10) /\ pgrows (fl 250 1) (fl 350 1) /\
  pgrows (fl 9 10) (fl 9 10).
Proof. exact grow_case. Qed.

Example C130_euler_case : exists n n', nN_euler (fl 200 1) (fl 4 10) (fl 5 1) = Ok n /\ nN_euler (fl 200 1) (fl 5 10) (fl 4 1) = Ok n' /\
  nisnan n = false /\ nisnan n' = false /\ n <> n'.
Proof. exact euler_case. Qed.
