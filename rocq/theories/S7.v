(** Model of beamdesign/codecheck/as4100/S7.py over the reals. *)

From Coq Require Import Reals.
From Verif Require Import Base Num RNum PyReal.
Open Scope R_scope.

(** S7.py lines 27-37, 40-50, 53-70, 73-88. *)
Definition s7_2_N_t_yield (A_g f_y : R) : R := A_g * f_y.
Definition s7_2_Ag (N_t f_y : R) : res R := rdiv N_t f_y.
Definition s7_2_N_t_ultimate (A_n f_u k_t uncertainty : R) : R :=
  A_n * f_u * k_t * uncertainty.
Definition s7_2_An (N_t f_u k_t uncertainty : R) : res R :=
  let! a := rdiv N_t uncertainty in
  let! b := rdiv a k_t in
  rdiv b f_u.

(** S7.py lines 91-106, 109-125, 128-140 (pin connections).  [None] is an argument left
    out.  Line 91 writes [safety_factor: 0.25], an annotation instead of a default, so
    leaving the factor out is a TypeError. *)
Definition s7_5_a_min_thickness (a_e : R) (safety_factor : option R) : res R :=
  match safety_factor with
  | Some s => Ok (a_e * s)
  | None => Err TypeError
  end.
Definition s7_5_b_A_beyond (A_reqd : R) (safety_factor : option R) : res R :=
  Ok (A_reqd * match safety_factor with Some s => s | None => 1 end).
Definition s7_5_c_A_perp (A_reqd : R) (safety_factor : option R) : res R :=
  Ok (A_reqd * match safety_factor with Some s => s | None => 133 / 100 end).

(** S7.py lines 143-191: the six entries of the result dictionary. *)
Record a_reqd : Type := mk_a_reqd {
  ar_A_g : R; ar_A_n : R; ar_A : R; ar_phiA_g : R; ar_phiA_n : R; ar_phiA : R }.
Definition s7_1_A_reqd (N_t f_y f_u k_t phi alpha_u : R) : res a_reqd :=
  let! ag := s7_2_Ag N_t f_y in
  let! an := s7_2_An N_t f_u k_t alpha_u in
  let a := pymax ag an in                                           (* 185 *)
  let! pag := rdiv ag phi in
  let! pan := rdiv an phi in
  let! pa := rdiv a phi in
  Ok (mk_a_reqd ag an a pag pan pa).

(** S7.py lines 194-255: the six entries of the result dictionary. *)
Record n_t : Type := mk_n_t {
  nt_N_ty : R; nt_N_tu : R; nt_N : R; nt_phiN_ty : R; nt_phiN_tu : R; nt_phiN : R }.
Definition s7_1_N_t (A_g A_n f_y f_u k_t phi alpha_u : R) : n_t :=
  let ty := s7_2_N_t_yield A_g f_y in
  let tu := s7_2_N_t_ultimate A_n f_u k_t alpha_u in
  let n := pymin ty tu in                                           (* 249 *)
  mk_n_t ty tu n (ty * phi) (tu * phi) (n * phi).
