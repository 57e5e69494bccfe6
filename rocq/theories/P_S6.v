(** C60-C68, C79, C80: compression capacity, S6.py (exact arithmetic). *)

From Coq Require Import Reals Lra List Bool String.
From Verif Require Import Base Num RNum PyReal Symmetry S6 S6Facts S6Torsion S6Unsym S6Length S6Cases
  UnsymLength S6Slack S6Value FormulaCases.
Import ListNotations.
Open Scope R_scope.

(** C60: with λ = λ_n + α_a α_b the modified slenderness, η = max(0.00326 (λ - 13.5), 0):
    α_c is in (0, 1], is 1 exactly for -90 <= λ <= 13.5, and is the smaller root of the
    Perry-Robertson equation (1 - α)(1 - (λ/90)² α) = η α. *)
Theorem C60_alpha_c_range :
  forall lambda_n alpha_b,
  let lambda := lambda_n + 2100 * (lambda_n - 27 / 2)
      / (lambda_n * lambda_n - 153 / 10 * lambda_n + 2050) * alpha_b in
  lambda <> 0 ->
  exists r, s6_3_3_alpha_c lambda_n alpha_b = Ok r /\ ac_lambda r = lambda
   /\ 0 < ac_alpha_c r <= 1
   /\ (ac_alpha_c r = 1 <-> -90 <= lambda <= 27 / 2)
   /\ (let s := (lambda / 90) ^ 2 in
       let eta := Rmax (326 / 100000 * (lambda - 27 / 2)) 0 in
       (1 - ac_alpha_c r) * (1 - s * ac_alpha_c r) = eta * ac_alpha_c r
       /\ s * ac_alpha_c r <= 1).
Proof. exact alpha_c_facts. Qed.
Print Assumptions C60_alpha_c_range.

Example C60_case : 90 + 2100 * (90 - 27 / 2) / (90 * 90 - 153 / 10 * 90 + 2050) * 0 <> 0.
Proof. lra. Qed.

(** C61 is false: for the default α_b = 1 some slenderness raises ZeroDivisionError, and so
    does λ_n = 0 (a member of length 0) for α_b = 0. *)
Theorem C61_alpha_c_total_refuted :
  (exists lambda_n, 0 <= lambda_n /\ s6_3_3_alpha_c lambda_n 1 = Err ZeroDivisionError)
  /\ s6_3_3_alpha_c 0 0 = Err ZeroDivisionError.
Proof.
  split; [exact alpha_c_undefined|].
  exact (alpha_c_zero 0 0 ltac:(unfold lam, dd; lra)).
Qed.
Print Assumptions C61_alpha_c_total_refuted.

(** What holds: the factor is defined exactly when λ is not 0. *)
Theorem C61_alpha_c_total_partial :
  forall lambda_n alpha_b,
  (exists r, s6_3_3_alpha_c lambda_n alpha_b = Ok r) <->
  lambda_n + 2100 * (lambda_n - 27 / 2)
    / (lambda_n * lambda_n - 153 / 10 * lambda_n + 2050) * alpha_b <> 0.
Proof. exact alpha_c_defined. Qed.
Print Assumptions C61_alpha_c_total_partial.

(** C62: more slender, never stronger. *)
Theorem C62_alpha_c_monotone :
  forall lambda_n lambda_n' alpha_b r r',
  0 <= lambda_n -> lambda_n <= lambda_n' -> -9 / 10 <= alpha_b <= 1 ->
  s6_3_3_alpha_c lambda_n alpha_b = Ok r -> s6_3_3_alpha_c lambda_n' alpha_b = Ok r' ->
  ac_alpha_c r' <= ac_alpha_c r.
Proof. exact alpha_c_mono. Qed.
Print Assumptions C62_alpha_c_monotone.

Theorem C62_alpha_c_monotone_in_lambda :
  forall lambda_n alpha_b lambda_n' alpha_b' r r',
  s6_3_3_alpha_c lambda_n alpha_b = Ok r -> s6_3_3_alpha_c lambda_n' alpha_b' = Ok r' ->
  0 < ac_lambda r -> ac_lambda r <= ac_lambda r' -> ac_alpha_c r' <= ac_alpha_c r.
Proof. exact alpha_c_mono_lambda. Qed.
Print Assumptions C62_alpha_c_monotone_in_lambda.

(** The flexural capacity in terms of the slenderness and α_c. *)
Theorem C62_N_c_formula :
  forall A_n k_f l r f_y f_ref alpha_b n,
  0 < k_f -> 0 < r -> 0 < f_y -> 0 < f_ref ->
  s6_3_3_N_c A_n k_f l r f_y f_ref alpha_b = Ok n ->
  nc_lambda_n n = l / r * sqrt k_f * sqrt (f_y / f_ref)
  /\ s6_3_3_alpha_c (nc_lambda_n n) alpha_b = Ok (nc_alpha n)
  /\ nc_N_c n = A_n * k_f * f_y * ac_alpha_c (nc_alpha n).
Proof. exact N_c_value. Qed.
Print Assumptions C62_N_c_formula.

Theorem C62_N_c_decreases_with_length :
  forall A_n k_f l l' r f_y f_ref alpha_b n n',
  0 <= A_n -> 0 <= k_f -> 0 < r -> 0 <= f_y -> 0 < f_ref -> -9 / 10 <= alpha_b <= 1 ->
  0 <= l -> l <= l' ->
  s6_3_3_N_c A_n k_f l r f_y f_ref alpha_b = Ok n ->
  s6_3_3_N_c A_n k_f l' r f_y f_ref alpha_b = Ok n' -> nc_N_c n' <= nc_N_c n.
Proof. exact N_c_mono. Qed.
Print Assumptions C62_N_c_decreases_with_length.

Example C62_case : exists r r',
  s6_3_3_alpha_c 60 (1 / 2) = Ok r /\ s6_3_3_alpha_c 120 (1 / 2) = Ok r'.
Proof.
  destruct (C60_alpha_c_range 60 (1 / 2) ltac:(lra)) as (r & E & _).
  destruct (C60_alpha_c_range 120 (1 / 2) ltac:(lra)) as (r' & E' & _). eauto.
Qed.

(** C79 is false: for α_b = -1, a constant of AS4100 table 6.3.3, the more slender
    member can be the stronger one.  (C62 is the part that holds.) *)
Theorem C79_monotone_for_all_section_constants_refuted :
  exists lambda_n lambda_n' r r',
  0 <= lambda_n /\ lambda_n < lambda_n'
  /\ s6_3_3_alpha_c lambda_n (-1) = Ok r /\ s6_3_3_alpha_c lambda_n' (-1) = Ok r'
  /\ ac_alpha_c r < ac_alpha_c r'.
Proof. exact alpha_c_not_mono. Qed.
Print Assumptions C79_monotone_for_all_section_constants_refuted.

(** What holds: from λ_n = 13.5 on it is so for every section constant, and by C62 from 0 on
    for constants of at least -0.9.  Missing: λ_n below 13.5 with α_b = -1. *)
Theorem C79_monotone_from_stocky_limit_partial :
  forall lambda_n lambda_n' alpha_b r r',
  27 / 2 <= lambda_n -> lambda_n <= lambda_n' -> -1 <= alpha_b <= 1 ->
  s6_3_3_alpha_c lambda_n alpha_b = Ok r -> s6_3_3_alpha_c lambda_n' alpha_b = Ok r' ->
  ac_alpha_c r' <= ac_alpha_c r.
Proof. exact alpha_c_late. Qed.
Print Assumptions C79_monotone_from_stocky_limit_partial.

(** From λ_n = 0 on, for every section constant: the more slender member is never stronger by
    more than 0.21 %. *)
Theorem C79_never_much_stronger_partial :
  forall lambda_n lambda_n' alpha_b r r',
  0 <= lambda_n -> lambda_n <= lambda_n' -> -1 <= alpha_b <= 1 ->
  s6_3_3_alpha_c lambda_n alpha_b = Ok r -> s6_3_3_alpha_c lambda_n' alpha_b = Ok r' ->
  ac_alpha_c r' <= 500 / 499 * ac_alpha_c r.
Proof. exact alpha_c_slack. Qed.
Print Assumptions C79_never_much_stronger_partial.

Example C79_case : exists r r',
  s6_3_3_alpha_c 14 (-1) = Ok r /\ s6_3_3_alpha_c 100 (-1) = Ok r'.
Proof.
  destruct (C60_alpha_c_range 14 (-1) ltac:(lra)) as (r & E & _).
  destruct (C60_alpha_c_range 100 (-1) ltac:(lra)) as (r' & E' & _). eauto.
Qed.

(** C63: [present o] lists the reported buckling capacities. *)
Theorem C63_capacity_is_minimum_of_modes :
  forall roots q l k_ex k_ey k_ez sym f_ref alpha_b unc phi cb ct o,
  0 <= phi ->
  s6_1_1_Nc roots q l k_ex k_ey k_ez sym f_ref alpha_b unc phi cb ct = Ok o ->
  o_N_s o = q_A_n q * q_k_f q * q_f_y q
  /\ o_N_c o = fold_right Rmin (o_N_s o) (present o)
  /\ o_N_c o <= o_N_s o
  /\ o_phiN_s o = phi * o_N_s o
  /\ o_phiN_c o = phi * o_N_c o
  /\ o_phiN_cx o = option_map (Rmult phi) (o_N_cx o)
  /\ o_phiN_cy o = option_map (Rmult phi) (o_N_cy o)
  /\ o_phiN_cz o = option_map (Rmult phi) (o_N_cz o)
  /\ (forall x, In x (present o) -> o_N_c o <= x <= o_N_s o).
Proof. exact Nc_facts. Qed.
Print Assumptions C63_capacity_is_minimum_of_modes.

(** The reported modes are those of the individual clauses at effective lengths l k_e. *)
Theorem C63_modes :
  forall roots q l k_ex k_ey k_ez sym f_ref alpha_b unc phi cb ct o,
  s6_1_1_Nc roots q l k_ex k_ey k_ez sym f_ref alpha_b unc phi cb ct = Ok o ->
  (o_N_cx o = None <-> cb = false) /\ (o_N_cy o = None <-> cb = false)
  /\ (o_N_cz o = None <-> cb = false \/ ct = false)
  /\ (forall v, o_N_cx o = Some v -> exists b,
        s6_3_3_N_c (q_A_n q) (q_k_f q) (l * k_ex) (q_r_x q) (q_f_y q) f_ref alpha_b = Ok b
        /\ v = Rmin (nc_N_c b) (o_N_s o))
  /\ (forall v, o_N_cy o = Some v -> exists b,
        s6_3_3_N_c (q_A_n q) (q_k_f q) (l * k_ey) (q_r_y q) (q_f_y q) f_ref alpha_b = Ok b
        /\ v = Rmin (nc_N_c b) (o_N_s o))
  /\ (forall v, o_N_cz o = Some v -> exists b,
        s6_3_3_N_c_torsion roots q (l * k_ex) (l * k_ey) (l * k_ez) sym unc = Ok b
        /\ v = Rmin (cz_N_cz b) (o_N_s o)).
Proof. exact Nc_modes. Qed.
Print Assumptions C63_modes.

(** A result is returned for every symmetric section, unless a modified slenderness is 0. *)
Theorem C63_defined :
  forall roots q l kx ky kz sym c f_ref ab u phi cb ct,
  sect_ok q -> symmetry sym = Ok c -> c <> SymNone ->
  0 < l -> 0 < kx -> 0 < ky -> 0 < kz -> 0 < f_ref -> 0 < u ->
  (forall k r, (k, r) = (kx, q_r_x q) \/ (k, r) = (ky, q_r_y q) ->
     let ln := l * k / r * sqrt (q_k_f q) * sqrt (q_f_y q / f_ref) in
     ln + 2100 * (ln - 27 / 2) / (ln * ln - 153 / 10 * ln + 2050) * ab <> 0) ->
  exists o, s6_1_1_Nc roots q l kx ky kz sym f_ref ab u phi cb ct = Ok o.
Proof. exact Nc_defined. Qed.
Print Assumptions C63_defined.

Example C63_case : forall roots, exists o,
  s6_1_1_Nc roots channel 3 1 1 1 (Some [AxStr "x"]) 250e6 0 (85 / 100) (9 / 10) true true = Ok o.
Proof. exact channel_defined. Qed.

(** C64: flags. *)
Theorem C64_no_buckling_check :
  forall roots q l kx ky kz sym f_ref ab u phi ct,
  exists o, s6_1_1_Nc roots q l kx ky kz sym f_ref ab u phi false ct = Ok o
  /\ o_N_c o = q_A_n q * q_k_f q * q_f_y q /\ o_N_s o = o_N_c o
  /\ o_phiN_c o = phi * o_N_c o
  /\ o_N_cx o = None /\ o_N_cy o = None /\ o_N_cz o = None.
Proof. exact Nc_no_buckling. Qed.
Print Assumptions C64_no_buckling_check.

(** Switching on checks never raises the capacity ([Bool.le]: false <= true). *)
Theorem C64_more_checks :
  forall roots q l kx ky kz sym f_ref ab u phi cb ct cb' ct' o o',
  Bool.le cb cb' -> Bool.le ct ct' ->
  s6_1_1_Nc roots q l kx ky kz sym f_ref ab u phi cb ct = Ok o ->
  s6_1_1_Nc roots q l kx ky kz sym f_ref ab u phi cb' ct' = Ok o' ->
  o_N_c o' <= o_N_c o.
Proof. exact Nc_more_checks. Qed.
Print Assumptions C64_more_checks.

(** C65: f_oxz is the root of β f² - (f_ox + f_oz) f + f_ox f_oz = 0 below both pure modes. *)
Theorem C65_f_oxz :
  forall A l_ex l_ez r_x r_y x_o y_o J I_w E G,
  0 < A -> 0 < l_ex -> 0 < l_ez -> 0 < r_x -> 0 < J -> 0 <= I_w -> 0 < E -> 0 < G ->
  let f_x := PI * PI * E / (l_ex / r_x * (l_ex / r_x)) in
  let ro2 := r_x ^ 2 + r_y ^ 2 + x_o ^ 2 + y_o ^ 2 in
  let f_z := G * J / (A * ro2) * (1 + PI * PI * E * I_w / (G * J * (l_ez * l_ez))) in
  let beta := 1 - x_o ^ 2 / ro2 in
  exists r, f_oxz A l_ex l_ez r_x r_y x_o y_o J I_w E G = Ok r
   /\ fx_f_ox r = f_x /\ fx_f_oz r = f_z /\ fx_beta r = beta /\ 0 < beta <= 1
   /\ 0 < fx_f_oxz r /\ fx_f_oxz r <= Rmin f_x f_z
   /\ beta * fx_f_oxz r ^ 2 - (f_x + f_z) * fx_f_oxz r + f_x * f_z = 0
   /\ (x_o = 0 -> fx_f_oxz r = Rmin f_x f_z).
Proof. exact f_oxz_facts. Qed.
Print Assumptions C65_f_oxz.

(** The stress of a doubly symmetric section. *)
Theorem C65_double_symmetric :
  forall A l_ex l_ez r_x r_y x_o y_o J I_w E G,
  0 < A -> 0 < l_ex -> 0 < l_ez -> 0 < r_x -> 0 < J -> 0 <= I_w -> 0 < E -> 0 < G ->
  let f_x := PI * PI * E / (l_ex / r_x * (l_ex / r_x)) in
  let ro2 := r_x ^ 2 + r_y ^ 2 + x_o ^ 2 + y_o ^ 2 in
  let f_z := G * J / (A * ro2) * (1 + PI * PI * E * I_w / (G * J * (l_ez * l_ez))) in
  exists f, f_oc_double_symmetric A l_ex l_ez r_x r_y x_o y_o J I_w E G = Ok f
   /\ 0 < f <= Rmin f_x f_z /\ (x_o = 0 -> f = Rmin f_x f_z).
Proof. exact f_oc_double_facts. Qed.
Print Assumptions C65_double_symmetric.

Example C65_case : sect_ok channel /\ 0 < 3.
Proof. split; [exact channel_ok|lra]. Qed.

(** C66: the torsional capacity as a function of the elastic buckling stress f = f_oc. *)
Theorem C66_N_cz_formula :
  forall roots q lx ly lz sym unc z,
  0 < q_f_y q -> s6_3_3_N_c_torsion roots q lx ly lz sym unc = Ok z ->
  let f_y := q_f_y q in let f := cz_f_oc z in
  0 < f /\ cz_lambda_c z = sqrt (f_y / f)
  /\ (f_y <= 9 / 4 * f -> cz_f_n z = f_y * Rpower (658 / 1000) (f_y / f))
  /\ (9 / 4 * f < f_y -> cz_f_n z = 877 / 1000 * f)
  /\ cz_N_cz z = unc * (q_A_n q * q_k_f q) * cz_f_n z.
Proof. exact torsion_value. Qed.
Print Assumptions C66_N_cz_formula.

Theorem C66_N_cz_range :
  forall roots q lx ly lz sym unc z,
  0 < q_A_n q -> 0 < q_k_f q -> 0 < q_f_y q -> 0 < unc ->
  s6_3_3_N_c_torsion roots q lx ly lz sym unc = Ok z ->
  0 < cz_N_cz z <= unc * (q_A_n q * q_k_f q) * q_f_y q.
Proof. exact torsion_range. Qed.
Print Assumptions C66_N_cz_range.

Theorem C66_N_cz_monotone :
  forall roots q lx ly lz sym roots' q' lx' ly' lz' sym' unc z z',
  0 < q_A_n q -> 0 < q_k_f q -> 0 < q_f_y q -> 0 < unc ->
  q_A_n q' = q_A_n q -> q_k_f q' = q_k_f q -> q_f_y q' = q_f_y q ->
  s6_3_3_N_c_torsion roots q lx ly lz sym unc = Ok z ->
  s6_3_3_N_c_torsion roots' q' lx' ly' lz' sym' unc = Ok z' ->
  cz_f_oc z <= cz_f_oc z' -> cz_N_cz z <= cz_N_cz z'.
Proof. exact torsion_mono. Qed.
Print Assumptions C66_N_cz_monotone.

(** At λ_c = 1.5 (f_y = 2.25 f) the first branch applies; just beyond, the second gives
    less, by under 0.1 %. *)
Theorem C66_switch :
  forall roots q lx ly lz sym roots' q' lx' ly' lz' sym' unc z z',
  0 < q_A_n q -> 0 < q_k_f q -> 0 < q_f_y q -> 0 < unc ->
  q_A_n q' = q_A_n q -> q_k_f q' = q_k_f q ->
  s6_3_3_N_c_torsion roots q lx ly lz sym unc = Ok z ->
  s6_3_3_N_c_torsion roots' q' lx' ly' lz' sym' unc = Ok z' ->
  cz_f_oc z' = cz_f_oc z -> q_f_y q = 9 / 4 * cz_f_oc z -> 9 / 4 * cz_f_oc z < q_f_y q' ->
  999 / 1000 * cz_N_cz z < cz_N_cz z' < cz_N_cz z.
Proof. exact torsion_switch. Qed.
Print Assumptions C66_switch.

(** The elastic stress is the one of the section's symmetry class.  [coupled β f_b f_z f]:
    f is the root of β f² - (f_b + f_z) f + f_b f_z = 0 below both pure modes. *)
Theorem C66_stress_by_symmetry :
  forall roots q lx ly lz sym unc z,
  sect_ok q -> 0 < lx -> 0 < ly -> 0 < lz ->
  s6_3_3_N_c_torsion roots q lx ly lz sym unc = Ok z ->
  let ro2 := q_r_x q ^ 2 + q_r_y q ^ 2 + q_x_o q ^ 2 + q_y_o q ^ 2 in
  let f_x := fe (q_E q) lx (q_r_x q) in
  let f_y := fe (q_E q) ly (q_r_y q) in
  let f_z := ft (q_A_n q) lz ro2 (q_J q) (q_I_w q) (q_E q) (q_G q) in
  let f := cz_f_oc z in
  match symmetry sym with
  | Ok SymPoint => f = f_z
  | Ok SymDouble => coupled (1 - q_x_o q ^ 2 / ro2) f_x f_z f
  | Ok SymSingle =>
      if axis_is "x" (hd (AxAngle 0) (match sym with Some l => l | None => [] end))
      then coupled (1 - q_x_o q ^ 2 / ro2) f_x f_z f
      else coupled (1 - q_y_o q ^ 2 / ro2) f_y f_z f
  | Ok SymNone => correct_roots roots ->
      let p := code_cubic f_x f_y f_z ro2 (q_x_o q ^ 2) (q_y_o q ^ 2) in
      0 < f /\ p f = 0 /\ forall g, 0 <= g -> p g = 0 -> f <= g
  | Err _ => False
  end.
Proof. exact torsion_stress. Qed.
Print Assumptions C66_stress_by_symmetry.

(** The channel of C63; the cruciform of C91 has f_y = 2.25 f_oc. *)
Example C66_case : forall roots,
  (exists z, s6_3_3_N_c_torsion roots channel 3 3 3 (Some [AxStr "x"]) (85 / 100) = Ok z)
  /\ exists z, s6_3_3_N_c_torsion roots cruciform 1 1 1 (Some [AxStr "point"]) (85 / 100) = Ok z
      /\ q_f_y cruciform = 9 / 4 * cz_f_oc z.
Proof. exact torsion_cases. Qed.

(** C67: symmetry about y is symmetry about x with the roles of the axes exchanged
    ([swap_sect] exchanges r_x with r_y and x_o with y_o). *)
Theorem C67_exchange_axes :
  forall roots q l k_ex k_ey k_ez f_ref alpha_b unc phi cb ct o,
  s6_1_1_Nc roots q l k_ex k_ey k_ez (Some [AxStr "y"]) f_ref alpha_b unc phi cb ct = Ok o ->
  exists o', s6_1_1_Nc roots (swap_sect q) l k_ey k_ex k_ez (Some [AxStr "x"])
               f_ref alpha_b unc phi cb ct = Ok o'
  /\ o_N_s o' = o_N_s o /\ o_N_c o' = o_N_c o /\ o_phiN_c o' = o_phiN_c o
  /\ o_N_cx o' = o_N_cy o /\ o_N_cy o' = o_N_cx o /\ o_N_cz o' = o_N_cz o.
Proof. exact Nc_swap. Qed.
Print Assumptions C67_exchange_axes.

(** C68 is false: with f_ox = f_oy = f_oz = 1 and r_o² = 2, x_o = 1, y_o = 0 every correct
    root finder makes the code return 1/2, which is not a root of AS4600's cubic. *)
Theorem C68_unsymmetric_as4600_refuted :
  forall roots : roots_oracle,
  (forall a b c d, d <> 0 -> all_roots a b c d (roots a b c d)) ->
  f_oc_unsymmetric roots 1 (3 / 5 * PI) (4 / 5 * PI) 1 (3 / 5) (4 / 5) 1 0 2 0 1 1 = Ok (1 / 2)
  /\ fe 1 (3 / 5 * PI) (3 / 5) = 1 /\ fe 1 (4 / 5 * PI) (4 / 5) = 1
  /\ ft 1 1 ((3 / 5) ^ 2 + (4 / 5) ^ 2 + 1 ^ 2 + 0 ^ 2) 2 0 1 1 = 1
  /\ as4600_cubic 1 1 1 2 1 0 (1 / 2) <> 0.
Proof.
  exact (fun roots H => conj (uns_value roots H) (conj uns_fx (conj uns_fy (conj uns_fz uns_as4600_half)))).
Qed.
Print Assumptions C68_unsymmetric_as4600_refuted.

Example C68_oracle : exists roots : roots_oracle,
  forall a b c d, d <> 0 -> all_roots a b c d (roots a b c d).
Proof. exact correct_roots_exist. Qed.

(** Missing from the partial results below: that the result is the root of AS4600's cubic,
    (r_o² - x_o² - y_o²) f³ - ...; the code's leading coefficient is r_o² - x_o² y_o².
    With an offset the result is never a root of AS4600's cubic. *)
Theorem C68_offset_never_as4600 :
  forall A l_ex l_ey l_ez r_x r_y x_o y_o J I_w E G,
  0 < A -> 0 < l_ex -> 0 < l_ey -> 0 < l_ez -> 0 < r_x -> 0 < r_y -> 0 < J -> 0 <= I_w ->
  0 < E -> 0 < G ->
  forall roots : roots_oracle, (forall a b c d, d <> 0 -> all_roots a b c d (roots a b c d)) ->
  forall f, x_o ^ 2 + y_o ^ 2 <> x_o ^ 2 * y_o ^ 2 ->
  f_oc_unsymmetric roots A l_ex l_ey l_ez r_x r_y x_o y_o J I_w E G = Ok f ->
  let ro2 := r_x ^ 2 + r_y ^ 2 + x_o ^ 2 + y_o ^ 2 in
  as4600_cubic (fe E l_ex r_x) (fe E l_ey r_y) (ft A l_ez ro2 J I_w E G) ro2
    (x_o ^ 2) (y_o ^ 2) f <> 0.
Proof.
  exact (fun A lx ly lz rx ry xo yo J Iw E G HA Hx Hy Hz Hrx Hry HJ Hw HE HG roots H f =>
    unsym_never_as4600 A lx ly lz rx ry xo yo J Iw E G HA Hx Hy Hz Hrx Hry HJ Hw HE HG roots
      (H _ _ _ _ (Rlt_not_eq _ _
        (coef_d_neg A lx ly lz rx ry xo yo J Iw E G HA Hx Hy Hz Hrx Hry HJ Hw HE HG))) f).
Qed.
Print Assumptions C68_offset_never_as4600.

(** What holds for the code's own cubic: the smallest non-negative real root; and for
    offsets with x_o² y_o² <= x_o² + y_o² (e.g. one of them at most 1 m) the result does not
    exceed any pure mode nor any non-negative root of AS4600's cubic. *)
Theorem C68_unsymmetric_partial :
  forall A l_ex l_ey l_ez r_x r_y x_o y_o J I_w E G,
  0 < A -> 0 < l_ex -> 0 < l_ey -> 0 < l_ez -> 0 < r_x -> 0 < r_y -> 0 < J -> 0 <= I_w ->
  0 < E -> 0 < G ->
  forall roots : roots_oracle, (forall a b c d, d <> 0 -> all_roots a b c d (roots a b c d)) ->
  forall f, f_oc_unsymmetric roots A l_ex l_ey l_ez r_x r_y x_o y_o J I_w E G = Ok f ->
  let ro2 := r_x ^ 2 + r_y ^ 2 + x_o ^ 2 + y_o ^ 2 in
  let f_x := fe E l_ex r_x in let f_y := fe E l_ey r_y in
  let f_z := ft A l_ez ro2 J I_w E G in
  let code := code_cubic f_x f_y f_z ro2 (x_o ^ 2) (y_o ^ 2) in
  let as4600 := as4600_cubic f_x f_y f_z ro2 (x_o ^ 2) (y_o ^ 2) in
  (0 < f /\ code f = 0 /\ forall g, 0 <= g -> code g = 0 -> f <= g)
  /\ (x_o ^ 2 * y_o ^ 2 <= x_o ^ 2 + y_o ^ 2 ->
      f <= f_x /\ f <= f_y /\ f <= f_z /\ forall g, 0 <= g -> as4600 g = 0 -> f <= g).
Proof.
  exact (fun A lx ly lz rx ry xo yo J Iw E G HA Hx Hy Hz Hrx Hry HJ Hw HE HG roots H f Hf =>
    let HR := H _ _ _ _ (Rlt_not_eq _ _
        (coef_d_neg A lx ly lz rx ry xo yo J Iw E G HA Hx Hy Hz Hrx Hry HJ Hw HE HG)) in
    conj (unsym_ok A lx ly lz rx ry xo yo J Iw E G HA Hx Hy Hz Hrx Hry HJ Hw HE HG roots HR f Hf)
      (fun L => unsym_conservative A lx ly lz rx ry xo yo J Iw E G HA Hx Hy Hz Hrx Hry HJ Hw HE HG
                  roots HR f L Hf)).
Qed.
Print Assumptions C68_unsymmetric_partial.

(** Without offset the result is the smallest of the three stresses. *)
Theorem C68_no_offset_partial :
  forall A l_ex l_ey l_ez r_x r_y J I_w E G,
  0 < A -> 0 < l_ex -> 0 < l_ey -> 0 < l_ez -> 0 < r_x -> 0 < r_y -> 0 < J -> 0 <= I_w ->
  0 < E -> 0 < G ->
  forall roots : roots_oracle, (forall a b c d, d <> 0 -> all_roots a b c d (roots a b c d)) ->
  f_oc_unsymmetric roots A l_ex l_ey l_ez r_x r_y 0 0 J I_w E G =
  Ok (Rmin (fe E l_ex r_x) (Rmin (fe E l_ey r_y)
        (ft A l_ez (r_x ^ 2 + r_y ^ 2 + 0 ^ 2 + 0 ^ 2) J I_w E G))).
Proof.
  exact (fun A lx ly lz rx ry J Iw E G HA Hx Hy Hz Hrx Hry HJ Hw HE HG roots H =>
    unsym_no_offset A lx ly lz rx ry 0 0 J Iw E G HA Hx Hy Hz Hrx Hry HJ Hw HE HG roots
      (H _ _ _ _ (Rlt_not_eq _ _
        (coef_d_neg A lx ly lz rx ry 0 0 J Iw E G HA Hx Hy Hz Hrx Hry HJ Hw HE HG)))
      eq_refl eq_refl).
Qed.
Print Assumptions C68_no_offset_partial.

(** C80 is false: the section [wide] has no symmetry and offsets x_o = y_o = 4; the member of
    twice the length is the stronger one. *)
Theorem C80_capacity_decreases_with_length_refuted :
  forall roots, correct_roots roots ->
  exists o o',
  s6_1_1_Nc roots wide (2 * PI) 1 1 1 (Some []) 4 0 (85 / 100) (9 / 10) true true = Ok o
  /\ s6_1_1_Nc roots wide (4 * PI) 1 1 1 (Some []) 4 0 (85 / 100) (9 / 10) true true = Ok o'
  /\ o_N_c o < o_N_c o'.
Proof. exact longer_stronger. Qed.
Print Assumptions C80_capacity_decreases_with_length_refuted.

(** What holds: a longer member is never stronger, whatever is checked, for every section
    with a symmetry, and without one for offsets with x_o² y_o² <= x_o² + y_o² (in metres:
    any section with an offset of at most 1 m). *)
Theorem C80_capacity_decreases_with_length_partial :
  forall roots q l l' k_ex k_ey k_ez sym f_ref alpha_b unc phi cb ct o o',
  sect_ok q ->
  (symmetry sym = Ok SymNone ->
   correct_roots roots /\ q_x_o q ^ 2 * q_y_o q ^ 2 <= q_x_o q ^ 2 + q_y_o q ^ 2) ->
  0 < l -> l <= l' -> 0 < k_ex -> 0 < k_ey -> 0 < k_ez ->
  0 < f_ref -> -9 / 10 <= alpha_b <= 1 -> 0 < unc -> 0 <= phi ->
  s6_1_1_Nc roots q l k_ex k_ey k_ez sym f_ref alpha_b unc phi cb ct = Ok o ->
  s6_1_1_Nc roots q l' k_ex k_ey k_ez sym f_ref alpha_b unc phi cb ct = Ok o' ->
  o_N_c o' <= o_N_c o /\ o_phiN_c o' <= o_phiN_c o.
Proof. exact Nc_length_all. Qed.
Print Assumptions C80_capacity_decreases_with_length_partial.

(** For every section constant: a longer member is never stronger by more than 0.21 %, and
    never at all if the shorter one has λ_n >= 13.5 about both axes. *)
Theorem C80_all_section_constants_partial :
  forall roots q l l' k_ex k_ey k_ez sym f_ref alpha_b unc phi cb ct o o',
  sect_ok q ->
  (symmetry sym = Ok SymNone ->
   correct_roots roots /\ q_x_o q ^ 2 * q_y_o q ^ 2 <= q_x_o q ^ 2 + q_y_o q ^ 2) ->
  0 < l -> l <= l' -> 0 < k_ex -> 0 < k_ey -> 0 < k_ez ->
  0 < f_ref -> -1 <= alpha_b <= 1 -> 0 < unc -> 0 <= phi ->
  s6_1_1_Nc roots q l k_ex k_ey k_ez sym f_ref alpha_b unc phi cb ct = Ok o ->
  s6_1_1_Nc roots q l' k_ex k_ey k_ez sym f_ref alpha_b unc phi cb ct = Ok o' ->
  (o_N_c o' <= 500 / 499 * o_N_c o /\ o_phiN_c o' <= 500 / 499 * o_phiN_c o)
  /\ (27 / 2 <= l * k_ex / q_r_x q * sqrt (q_k_f q) * sqrt (q_f_y q / f_ref) ->
      27 / 2 <= l * k_ey / q_r_y q * sqrt (q_k_f q) * sqrt (q_f_y q / f_ref) ->
      o_N_c o' <= o_N_c o /\ o_phiN_c o' <= o_phiN_c o).
Proof. exact Nc_length_wide. Qed.
Print Assumptions C80_all_section_constants_partial.

(** The channel of C63 with α_b = -1, 3 m and 6 m long. *)
Example C80_case_hollow : forall roots,
  sect_ok channel /\ symmetry (Some [AxStr "x"]) = Ok SymSingle
  /\ 27 / 2 <= 3 * 1 / q_r_x channel * sqrt (q_k_f channel) * sqrt (q_f_y channel / 250e6)
  /\ 27 / 2 <= 3 * 1 / q_r_y channel * sqrt (q_k_f channel) * sqrt (q_f_y channel / 250e6)
  /\ (exists o, s6_1_1_Nc roots channel 3 1 1 1 (Some [AxStr "x"]) 250e6 (-1) (85 / 100) (9 / 10)
        true true = Ok o)
  /\ (exists o, s6_1_1_Nc roots channel 6 1 1 1 (Some [AxStr "x"]) 250e6 (-1) (85 / 100) (9 / 10)
        true true = Ok o).
Proof.
  intros roots. split; [exact channel_ok|]. split; [reflexivity|].
  assert (S : sqrt (250e6 / 250e6) = 1) by (replace (250e6 / 250e6) with 1 by field; exact sqrt_1).
  cbn [channel q_r_x q_r_y q_k_f q_f_y]. rewrite S, sqrt_1. split; [lra|]. split; [lra|].
  split; [exact (channel_tempered roots 3 (-1) 250e6 ltac:(lra) ltac:(lra) ltac:(lra))|
          exact (channel_tempered roots 6 (-1) 250e6 ltac:(lra) ltac:(lra) ltac:(lra))].
Qed.

(** An unequal angle in metres meets the hypotheses (a result exists: C92). *)
Example C80_case : sect_ok angle /\ symmetry (Some []) = Ok SymNone
  /\ q_x_o angle ^ 2 * q_y_o angle ^ 2 <= q_x_o angle ^ 2 + q_y_o angle ^ 2.
Proof. split; [exact angle_ok|]. split; [reflexivity|]. cbn [angle q_x_o q_y_o]. lra. Qed.
