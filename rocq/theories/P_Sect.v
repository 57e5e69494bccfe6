(** C71-C74: symmetry classes and effective widths (exact arithmetic). *)

From Coq Require Import Reals Lra List String.
From Verif Require Import Base Num RNum PyReal Symmetry SectProps S6 S6Torsion SectFacts S6Cases.
Import ListNotations.
Open Scope R_scope.

(** C71: exactly one class per axes list. *)
Theorem C71_symmetry_class :
  forall axes, exists c, symmetry (Some axes) = Ok c
  /\ (c = SymDouble <-> axes = [AxStr "x"; AxStr "y"] \/ axes = [AxStr "y"; AxStr "x"])
  /\ (c = SymPoint <-> exists a, axes = [a] /\ point_name a)
  /\ (c = SymSingle <-> exists a, axes = [a] /\ ~ point_name a)
  /\ (c = SymNone <-> List.length axes <> 1%nat
        /\ axes <> [AxStr "x"; AxStr "y"] /\ axes <> [AxStr "y"; AxStr "x"]).
Proof. exact symmetry_spec. Qed.
Print Assumptions C71_symmetry_class.

Theorem C71_symcount : forall axes, symcount (Some axes) = Ok (List.length axes).
Proof. exact symcount_spec. Qed.
Print Assumptions C71_symcount.

(** Nothing is counted and nothing classified for an object made without axes. *)
Theorem C71_without_axes : forall s,
  (s = None <-> symcount s = Err TypeError)
  /\ (s = None <-> symmetry s = Err TypeError)
  /\ (s <> None <-> exists n c, symcount s = Ok n /\ symmetry s = Ok c).
Proof. exact sym_without_axes. Qed.
Print Assumptions C71_without_axes.

Example C71_without_axes_nonvacuous :
  symcount None = Err TypeError /\ symmetry None = Err TypeError
  /\ symcount (Some []) = Ok 0%nat /\ symmetry (Some []) = Ok SymNone.
Proof. repeat split. Qed.

(** C72 is false: without [sym] (axes = None) no capacity with torsion is ever returned. *)
Theorem C72_default_symmetry_refuted :
  forall roots q l kx ky kz f_ref ab u phi o,
  s6_1_1_Nc roots q l kx ky kz None f_ref ab u phi true true <> Ok o.
Proof.
  exact (fun roots q l kx ky kz f_ref ab u phi =>
    Nc_default_sym_fails roots q l kx ky kz f_ref ab u phi).
Qed.
Print Assumptions C72_default_symmetry_refuted.

(** What holds: without the torsion check the symmetry argument does not matter. *)
Theorem C72_default_symmetry_partial :
  forall roots q l kx ky kz sym f_ref ab u phi cb,
  s6_1_1_Nc roots q l kx ky kz None f_ref ab u phi cb false =
  s6_1_1_Nc roots q l kx ky kz sym f_ref ab u phi cb false.
Proof. exact Nc_default_sym_no_torsion. Qed.
Print Assumptions C72_default_symmetry_partial.

(** C73: effective widths and areas. *)
Theorem C73_effective_plate_width :
  forall b lambda_e lambda_ey, 0 < b -> 0 < lambda_e -> 0 < lambda_ey ->
  exists be, s6_2_b_e_flatplate b lambda_e lambda_ey = Ok be
  /\ 0 < be <= b /\ (be = b <-> lambda_e <= lambda_ey)
  /\ (lambda_ey <= lambda_e -> be = b * lambda_ey / lambda_e).
Proof. exact b_e_facts. Qed.
Print Assumptions C73_effective_plate_width.

Theorem C73_effective_diameter :
  forall d lambda_e lambda_ey, 0 < d -> 0 < lambda_e -> 0 < lambda_ey ->
  exists de, s6_2_d_e_CHS d lambda_e lambda_ey = Ok de
  /\ 0 < de <= d /\ (de = d <-> lambda_e <= lambda_ey)
  /\ de = Rmin d (Rmin (d * sqrt (lambda_ey / lambda_e)) (d * (3 * lambda_ey / lambda_e) ^ 2)).
Proof. exact d_e_facts. Qed.
Print Assumptions C73_effective_diameter.

Theorem C73_effective_plate_area :
  forall b t f_y lambda_ey f_ref,
  0 < b -> 0 < t -> 0 < f_y -> 0 < lambda_ey -> 0 < f_ref ->
  exists A, s6_2_A_e_flatplate b t f_y lambda_ey f_ref = Ok A
  /\ 0 < A <= b * t
  /\ (A = b * t <-> b / t * sqrt (f_y / f_ref) <= lambda_ey)
  /\ (lambda_ey <= b / t * sqrt (f_y / f_ref) ->
      A = lambda_ey * t ^ 2 / sqrt (f_y / f_ref)).
Proof. exact A_e_plate_facts. Qed.
Print Assumptions C73_effective_plate_area.

Theorem C73_form_factor :
  forall b t f_y lambda_ey f_ref A,
  0 < b -> 0 < t -> 0 < f_y -> 0 < lambda_ey -> 0 < f_ref ->
  s6_2_A_e_flatplate b t f_y lambda_ey f_ref = Ok A ->
  exists k, s6_2_k_f_Form_Factor (b * t) A = Ok k /\ 0 < k <= 1.
Proof. exact k_f_plate. Qed.
Print Assumptions C73_form_factor.

(** A 300 x 5 plate of 250 MPa, λ_ey = 35: b/t = 60 > 35, so not fully effective. *)
Example C73_case : exists A, s6_2_A_e_flatplate (3/10) 5e-3 250e6 35 250e6 = Ok A /\ A < 3/10 * 5e-3.
Proof.
  destruct (C73_effective_plate_area (3/10) 5e-3 250e6 35 250e6) as (A & E & B & I & _); try lra.
  exists A. split; auto. destruct (proj2 B) as [|Q]; auto. exfalso. apply I in Q.
  replace (250e6 / 250e6) with 1 in Q by lra. rewrite sqrt_1 in Q. lra.
Qed.

(** C74 is false: no CHS has an effective area; for sensible input the call is a TypeError. *)
Theorem C74_CHS_effective_area_refuted :
  (forall d t f_y lambda_ey f_ref A, s6_2_A_e_CHS d t f_y lambda_ey f_ref <> Ok A)
  /\ (forall d t f_y lambda_ey f_ref,
      0 < d -> 0 < t -> 0 < f_y -> 0 < lambda_ey -> 0 < f_ref ->
      s6_2_A_e_CHS d t f_y lambda_ey f_ref = Err TypeError).
Proof. exact (conj A_e_CHS_fails A_e_CHS_typeerror). Qed.
Print Assumptions C74_CHS_effective_area_refuted.

(** What holds: the slenderness and the effective diameter the area would be computed from are
    there, and the diameter is the whole one exactly up to the slenderness limit.  Missing:
    the area. *)
Theorem C74_CHS_effective_diameter_partial :
  forall d t f_y lambda_ey f_ref,
  0 < d -> 0 < t -> 0 < f_y -> 0 < lambda_ey -> 0 < f_ref ->
  exists le de, s6_2_lambda_e_CHS d t f_y f_ref = Ok le /\ s6_2_d_e_CHS d le lambda_ey = Ok de
  /\ 0 < de <= d /\ (de = d <-> d / t * (f_y / f_ref) <= lambda_ey).
Proof. exact CHS_diameter. Qed.
Print Assumptions C74_CHS_effective_diameter_partial.
