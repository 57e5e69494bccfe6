(** Model of the plate and CHS functions of
    beamdesign/codecheck/as4100/as4100_sect_props.py (lines 227-334) over the reals. *)

From Coq Require Import Reals.
From Verif Require Import Base Num RNum PyReal.
Open Scope R_scope.

(** The default of [f_ref] (lines 227, 241, 286, 305: 250.0, i.e. MPa). *)
Definition plate_f_ref : R := 250.

(** Lines 227-238 and 241-252. *)
Definition s6_2_lambda_e_flatplate (b t f_y f_ref : R) : res R :=
  let! s := rdiv b t in
  let! q := rdiv f_y f_ref in
  let! r := rroot q in
  Ok (s * r).
Definition s6_2_lambda_e_CHS (d_o t f_y f_ref : R) : res R :=
  let! s := rdiv d_o t in
  let! q := rdiv f_y f_ref in
  Ok (s * q).

(** Lines 255-266. *)
Definition s6_2_b_e_flatplate (b lambda_e lambda_ey : R) : res R :=
  let! q := rdiv lambda_ey lambda_e in
  Ok (pymin (b * q) b).

(** Lines 269-283. *)
Definition s6_2_d_e_CHS (d_o lambda_e lambda_ey : R) : res R :=
  let! q := rdiv lambda_ey lambda_e in
  let! r := rroot q in
  let d_e1 := d_o * r in
  let! q3 := rdiv (3 * lambda_ey) lambda_e in
  let d_e2 := d_o * (q3 * q3) in
  Ok (pymin (pymin d_e1 d_e2) d_o).

(** Lines 286-302. *)
Definition s6_2_A_e_flatplate (b t f_y lambda_ey f_ref : R) : res R :=
  let! le := s6_2_lambda_e_flatplate b t f_y f_ref in
  let! be := s6_2_b_e_flatplate b le lambda_ey in
  Ok (be * t).

(** Lines 305-323: [HollowCircle(...)] (sections/hollowcircle.py) leaves the abstract
    properties [is_composite] and [area_net] of [Section] undefined, so the class cannot
    be instantiated: TypeError (its [__init__] would also call [Section.__init__] with
    positional arguments, another TypeError). *)
Definition hollow_circle_area (radius_o radius_i : R) : res R := Err TypeError.
Definition s6_2_A_e_CHS (d_o t f_y lambda_ey f_ref : R) : res R :=
  let! le := s6_2_lambda_e_CHS d_o t f_y f_ref in
  let! de := s6_2_d_e_CHS d_o le lambda_ey in
  hollow_circle_area (de / 2) (de / 2 - t).

(** Lines 326-334. *)
Definition s6_2_k_f_Form_Factor (A_n A_e : R) : res R := rdiv A_e A_n.
