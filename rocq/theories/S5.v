(** Model of beamdesign/codecheck/as4100/S5.py and S5_Shear.py over the reals. *)

From Coq Require Import ZArith Reals List Bool.
From Verif Require Import Base Num RNum PyReal.
Import ListNotations.
Open Scope R_scope.

(** S5.py lines 39-47. *)
Inductive restraint : Type := FF | FP | FL | FU | PP | PL | PU | LL.

(** S5.py lines 55-65. *)
Definition s5_2_M_s (f_y Z_e : R) : R := f_y * Z_e.

(** S5.py lines 77-110. *)
Definition s5_6_1_M_o (l_e I_y J I_w beta_x E G : R) : res R :=
  let! a := rdiv (PI * PI * E * I_y) (l_e * l_e) in                 (* 105 *)
  let b := G * J in                                                 (* 106 *)
  let! c := rdiv (PI * PI * E * I_w) (l_e * l_e) in                 (* 107 *)
  let d := beta_x / 2 in                                            (* 108 *)
  let! ra := rroot a in                                             (* 110 *)
  let! rb := rroot (b + c + d * d * a) in
  Ok (ra * (rb + d * ra)).

(** S5.py lines 113-136 ([min] keeps its first argument on ties). *)
Definition s5_6_1_alpha_m (M_max M_2 M_3 M_4 alpha_m_max : R) : res R :=
  let! r := rroot (M_2 * M_2 + M_3 * M_3 + M_4 * M_4) in
  let! a := rdiv (17 / 10 * Rabs M_max) r in
  Ok (pymin a alpha_m_max).

(** S5.py lines 139-152. *)
Definition s5_6_alpha_s (M_s M_o : R) : res R :=
  let! q := rdiv M_s M_o in
  let! r := rroot (q * q + 3) in
  Ok (6 / 10 * (r - q)).

(** The [restraint_code] argument of [s5_6_3_k_t]: an enum member, or a string (the
    documentation's type), which [assert restraint_code in Restraints] (line 180)
    rejects: before Python 3.8 [in] on an Enum class returns False for a non-member with
    a DeprecationWarning (AssertionError), from 3.8 on it raises TypeError. The 2019
    behaviour is used. *)
Inductive restraint_arg : Type := RCode (r : restraint) | RStr (s : String.string).

(** S5.py lines 155-197. *)
Definition s5_6_3_k_t (d_1 l t_f t_w n_w : R) (code : restraint_arg) : res R :=
  match code with
  | RStr _ => Err AssertionError
  | RCode (FF | FL | LL | FU) => Ok 1                               (* 182-183 *)
  | RCode (FP | PL | PU) =>                                         (* 184-185 *)
      let! dl := rdiv d_1 l in
      let! ratio := rdiv t_f (2 * t_w) in
      let! q := rdiv (dl * (ratio * ratio * ratio)) n_w in
      Ok (1 + q)
  | RCode PP =>                                                     (* 186-187 *)
      let! dl := rdiv d_1 l in
      let! ratio := rdiv t_f (2 * t_w) in
      let! q := rdiv (2 * dl * (ratio * ratio * ratio)) n_w in
      Ok (1 + q)
  end.

(** S5.py lines 200-211 and 214-224. *)
Definition s5_6_3_l_e (k_t k_l k_r l_act : R) : R := k_t * k_l * k_r * l_act.
Definition s5_6_1_Mb (M_s alpha_m alpha_s : R) : R := alpha_m * alpha_s * M_s.

(** S5_Shear.py lines 29-57 and 60-85. *)
Definition s5_11_4_V_w_Generic (A_w f_y shear_to_axial : R) : R :=
  shear_to_axial * f_y * A_w.
Definition s5_11_4_V_w_CHS (A_e f_y shear_to_axial CHS_shear_area : R) : R :=
  CHS_shear_area * (shear_to_axial * f_y) * A_e.

(** S5_Shear.py lines 88-125.  Defaults: 82 and 250e6. *)
Definition s5_11_5_alpha_v (d_p t_w f_y slenderness_limit f_y_ref : R) : res R :=
  let! q := rdiv f_y f_y_ref in
  let! r := rroot q in
  let! limiting := rdiv slenderness_limit r in                      (* 118 *)
  let! sl := rdiv d_p t_w in                                        (* 120 *)
  if Rltb limiting sl then
    let! s := rdiv limiting sl in Ok (s * s)                        (* 121 *)
  else Ok 1.                                                        (* 123 *)

(** S5_Shear.py lines 128-147. *)
Definition s5_11_3_alpha_vma (f_vm f_va : R) : res R :=
  let! q := rdiv f_vm f_va in
  let! v := rdiv 2 (9 / 10 + q) in
  Ok (pymin v 1).

(** S5_Shear.py lines 150-185: [v_w] is a float, a list of floats, or another number (an
    int or a numpy number).  The test [type(v_w) == float] (line 180) does not hold for
    the latter, and [sum] of a number is a TypeError. *)
Inductive weld_arg : Type := WFloat (x : R) | WList (l : list R) | WNum (x : R).
Definition py_sum (l : list R) : R := fold_left Rplus l 0.
Definition s5_11_4_V_w_Weld (v_w : weld_arg) (Q I : R) : res R :=
  let! l := match v_w with
            | WFloat x => Ok [x] | WList l => Ok l | WNum _ => Err TypeError
            end in
  rdiv (py_sum l * I) Q.

(** S5_Shear.py lines 188-217. *)
Definition s5_11_4_V_w_Interface (t_interface f_y_interface Q I shear_to_axial : R)
  : res R :=
  rdiv (f_y_interface * shear_to_axial * t_interface * I) Q.
