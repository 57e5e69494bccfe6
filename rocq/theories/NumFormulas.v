(** The formulas of beamdesign/codecheck/as4100/S7.py, S5.py, S5_Shear.py and the flexural part of
    S6.py as the Python text has them, operation by operation, over an arbitrary [Num].  On the reals
    they are the models S7.v, S5.v and S6.v (NumFormulasFacts.v); here they can also be run on doubles.

    [x ** y] is Python's [float.__pow__], i.e. the C library's [pow]: the oracle [pw].  Only the
    exponents 2, 3 (ints) and 0.5 occur. *)

From Coq Require Import ZArith List Bool.
From Verif Require Import Base Num S5.
Import ListNotations.
Open Scope Z_scope.

Section Formulas.
Context {T : Type} {NT : Num T}.

(** S7.py lines 27-88. *)
Definition ns7_2_N_t_yield (A_g f_y : T) : T := nmul A_g f_y.
Definition ns7_2_Ag (N_t f_y : T) : res T := pydiv N_t f_y.
Definition ns7_2_N_t_ultimate (A_n f_u k_t uncertainty : T) : T :=
  nmul (nmul (nmul A_n f_u) k_t) uncertainty.
Definition ns7_2_An (N_t f_u k_t uncertainty : T) : res T :=
  let! a := pydiv N_t uncertainty in
  let! b := pydiv a k_t in
  pydiv b f_u.

(** S7.py lines 143-191 and 194-255: the entries A_g, A_n, A, φA_g, φA_n, φA and N_ty, N_tu, N, φN_ty,
    φN_tu, φN of the result dictionaries, in this order. *)
Definition ns7_1_A_reqd (N_t f_y f_u k_t phi alpha_u : T) : res (list T) :=
  let! ag := ns7_2_Ag N_t f_y in
  let! an := ns7_2_An N_t f_u k_t alpha_u in
  let a := pymax ag an in                                           (* 185 *)
  let! pag := pydiv ag phi in
  let! pan := pydiv an phi in
  let! pa := pydiv a phi in
  Ok [ag; an; a; pag; pan; pa].
Definition ns7_1_N_t (A_g A_n f_y f_u k_t phi alpha_u : T) : list T :=
  let ty := ns7_2_N_t_yield A_g f_y in
  let tu := ns7_2_N_t_ultimate A_n f_u k_t alpha_u in
  let n := pymin ty tu in                                           (* 249 *)
  [ty; tu; n; nmul ty phi; nmul tu phi; nmul n phi].

(** S5_Shear.py lines 29-85, 128-147, 150-217. *)
Definition ns5_11_4_V_w_Generic (A_w f_y shear_to_axial : T) : T :=
  nmul (nmul shear_to_axial f_y) A_w.
Definition ns5_11_4_V_w_CHS (A_e f_y shear_to_axial CHS_shear_area : T) : T :=
  nmul (nmul CHS_shear_area (nmul shear_to_axial f_y)) A_e.
Definition ns5_11_3_alpha_vma (f_vm f_va : T) : res T :=
  let! q := pydiv f_vm f_va in
  let! v := pydiv (nint 2) (nadd (nflt 9 10) q) in
  Ok (pymin v (nflt 1 1)).
(** The list of welds; [sum] starts from the int 0. *)
Definition ns5_11_4_V_w_Weld (v_w : list T) (Q I : T) : res T :=
  pydiv (nmul (fold_left nadd v_w (nint 0)) I) Q.
Definition ns5_11_4_V_w_Interface (t_interface f_y_interface Q I shear_to_axial : T) : res T :=
  pydiv (nmul (nmul (nmul f_y_interface shear_to_axial) t_interface) I) Q.

(** S5.py lines 55-65, 200-224. *)
Definition ns5_2_M_s (f_y Z_e : T) : T := nmul f_y Z_e.
Definition ns5_6_3_l_e (k_t k_l k_r l_act : T) : T := nmul (nmul (nmul k_t k_l) k_r) l_act.
Definition ns5_6_1_Mb (M_s alpha_m alpha_s : T) : T := nmul (nmul alpha_m alpha_s) M_s.

(** S6.py lines 39-80 and 90-112: [s6_2_A_e], [s6_2_N_s], [s6_3_2_l_e], [N_euler], [f_euler]. *)
Definition ns6_2_A_e (A_n k_f : T) : T := nmul A_n k_f.
Definition ns6_2_N_s (A_e f_y : T) : T := nmul A_e f_y.
Definition ns6_3_2_l_e (l k_e : T) : T := nmul l k_e.
Definition nN_euler (E I l_e : T) : res T :=
  pydiv (nmul (nmul (nmul npi npi) E) I) (nmul l_e l_e).
Definition nf_euler (E l_e r : T) : res T :=
  let! a := pydiv l_e r in
  let! b := pydiv l_e r in
  pydiv (nmul (nmul npi npi) E) (nmul a b).

(** [x ** y]. *)
Variable pw : T -> T -> res T.
Let half : T := nflt 1 2.

(** S5.py lines 77-110. *)
Definition ns5_6_1_M_o (l_e I_y J I_w beta_x E G : T) : res T :=
  let! a := pydiv (nmul (nmul (nmul npi npi) E) I_y) (nmul l_e l_e) in (* 105 *)
  let b := nmul G J in                                              (* 106 *)
  let! c := pydiv (nmul (nmul (nmul npi npi) E) I_w) (nmul l_e l_e) in (* 107 *)
  let! d := pydiv beta_x (nint 2) in                                (* 108 *)
  let! ra := pw a half in                                           (* 110 *)
  let! rb := pw (nadd (nadd b c) (nmul (nmul d d) a)) half in
  let! ra' := pw a half in
  Ok (nmul ra (nadd rb (nmul d ra'))).

(** S5.py lines 113-136. *)
Definition ns5_6_1_alpha_m (M_max M_2 M_3 M_4 alpha_m_max : T) : res T :=
  let! r := pw (nadd (nadd (nmul M_2 M_2) (nmul M_3 M_3)) (nmul M_4 M_4)) half in
  let! a := pydiv (nmul (nflt 17 10) (nabs M_max)) r in
  Ok (pymin a alpha_m_max).

(** S5.py lines 139-152. *)
Definition ns5_6_alpha_s (M_s M_o : T) : res T :=
  let! q := pydiv M_s M_o in
  let! s := pw q (nint 2) in
  let! r := pw (nadd s (nint 3)) half in
  let! q' := pydiv M_s M_o in
  Ok (nmul (nflt 6 10) (nsub r q')).

(** S5.py lines 155-197, for members of the enum. *)
Definition ns5_6_3_k_t (d_1 l t_f t_w n_w : T) (code : restraint) : res T :=
  match code with
  | FF | FL | LL | FU => Ok (nflt 1 1)                              (* 182-183 *)
  | FP | PL | PU =>                                                 (* 184-185 *)
      let! dl := pydiv d_1 l in
      let! ratio := pydiv t_f (nmul (nint 2) t_w) in
      let! c := pw ratio (nint 3) in
      let! q := pydiv (nmul dl c) n_w in
      Ok (nadd (nint 1) q)
  | PP =>                                                           (* 186-187 *)
      let! dl := pydiv d_1 l in
      let! ratio := pydiv t_f (nmul (nint 2) t_w) in
      let! c := pw ratio (nint 3) in
      let! q := pydiv (nmul (nmul (nint 2) dl) c) n_w in
      Ok (nadd (nint 1) q)
  end.

(** S5_Shear.py lines 88-125. *)
Definition ns5_11_5_alpha_v (d_p t_w f_y slenderness_limit f_y_ref : T) : res T :=
  let! q := pydiv f_y f_y_ref in
  let! r := pw q half in
  let! limiting := pydiv slenderness_limit r in                     (* 118 *)
  let! sl := pydiv d_p t_w in                                       (* 120 *)
  if nltb limiting sl then
    let! s := pydiv limiting sl in pw s (nint 2)                    (* 121 *)
  else Ok (nflt 1 1).                                               (* 123 *)

(** S6.py lines 115-134 and 137-175 (without the caches). *)
Definition nr_ol (r_x r_y x_o y_o : T) : res T :=
  pw (nadd (nadd (nadd (nmul r_x r_x) (nmul r_y r_y)) (nmul x_o x_o)) (nmul y_o y_o)) half.
Definition nf_euler_torsion (A l_ez r_x r_y x_o y_o J I_w E G : T) : res T :=
  let! r_o := nr_ol r_x r_y x_o y_o in
  let! a := pydiv (nmul G J) (nmul (nmul A r_o) r_o) in
  let! b := pydiv (nmul (nmul (nmul npi npi) E) I_w) (nmul (nmul G J) (nmul l_ez l_ez)) in
  Ok (nmul a (nadd (nint 1) b)).

(** S6.py lines 185-201. *)
Definition ns6_3_3_lambda_n (k_f l_e r f_y f_ref : T) : res T :=
  let! s := pydiv l_e r in
  let! k := pw k_f half in
  let! q := pydiv f_y f_ref in
  let! f := pw q half in
  Ok (nmul (nmul s k) f).

(** S6.py lines 204-237: the entries α_a, λ, η, ξ, α_c. *)
Definition ns6_3_3_alpha_c (lambda_n alpha_b : T) : res (list T) :=
  let! alpha_a := pydiv (nmul (nint 2100) (nsub lambda_n (nflt 135 10)))
                    (nadd (nsub (nmul lambda_n lambda_n) (nmul (nflt 153 10) lambda_n)) (nint 2050)) in (* 226 *)
  let lam := nadd lambda_n (nmul alpha_a alpha_b) in                (* 229 *)
  let eta := pymax (nmul (nflt 326 100000) (nsub lam (nflt 135 10))) (nflt 0 1) in (* 233 *)
  let! s := pydiv lam (nint 90) in
  let! s2 := pw s (nint 2) in
  let! s' := pydiv lam (nint 90) in
  let! s2' := pw s' (nint 2) in
  let! xi := pydiv (nadd (nadd s2 (nint 1)) eta) (nmul (nint 2) s2') in (* 234 *)
  let! q := pydiv (nint 90) (nmul xi lam) in                        (* 235 *)
  let! q2 := pw q (nint 2) in
  let! r := pw (nsub (nint 1) q2) half in
  Ok [alpha_a; lam; eta; xi; nmul xi (nsub (nint 1) r)].

(** S6.py lines 240-286: the entry N_c. *)
Definition ns6_3_3_N_c (A_n k_f l_e r f_y f_ref alpha_b : T) : res T :=
  let N_s := ns6_2_N_s (ns6_2_A_e A_n k_f) f_y in
  let! ln := ns6_3_3_lambda_n k_f l_e r f_y f_ref in
  let! ac := ns6_3_3_alpha_c ln alpha_b in
  Ok (nmul N_s (nth 4 ac (nint 0))).

End Formulas.
