(** C118-C128: the programs whose rounding is bounded on doubles are, over the reals with exact powers
    ([Rpw]), the programs the properties of S5, S6, S7 and of the plate functions are proved of.  So those
    properties and the rounding bounds speak about the same code. *)

From Coq Require Import ZArith Reals List.
From Verif Require Import Base Num RNum PyReal S5 S6 S7 SectProps NumFormulas NumFormulasFacts NumSect NumSectFacts NumS6 NumS6Facts
  NumLinks.
Import ListNotations.
Open Scope R_scope.

Theorem C118_same_program :
  (forall A_g A_n f_y f_u k_t phi au,
     let n := s7_1_N_t A_g A_n f_y f_u k_t phi au in
     ns7_1_N_t A_g A_n f_y f_u k_t phi au = [nt_N_ty n; nt_N_tu n; nt_N n; nt_phiN_ty n; nt_phiN_tu n; nt_phiN n]) /\
  (forall N f_y f_u k_t phi au,
     ns7_1_A_reqd N f_y f_u k_t phi au =
     rmap (fun a => [ar_A_g a; ar_A_n a; ar_A a; ar_phiA_g a; ar_phiA_n a; ar_phiA a]) (s7_1_A_reqd N f_y f_u k_t phi au)).
Proof. exact tension_link. Qed.
Print Assumptions C118_same_program.

Theorem C119_same_program :
  (forall A f s c, ns5_11_4_V_w_Generic A f s = s5_11_4_V_w_Generic A f s /\ ns5_11_4_V_w_CHS A f s c = s5_11_4_V_w_CHS A f s c) /\
  (forall d t fy lim ref, ns5_11_5_alpha_v Rpw d t fy lim ref = s5_11_5_alpha_v d t fy lim ref) /\
  (forall vm va, ns5_11_3_alpha_vma vm va = s5_11_3_alpha_vma vm va) /\
  (forall v Q I, ns5_11_4_V_w_Weld v Q I = s5_11_4_V_w_Weld (WList v) Q I) /\
  (forall t f Q I s, ns5_11_4_V_w_Interface t f Q I s = s5_11_4_V_w_Interface t f Q I s).
Proof. exact shear_link. Qed.
Print Assumptions C119_same_program.

Theorem C120_same_program :
  (forall f Z, ns5_2_M_s f Z = s5_2_M_s f Z) /\
  (forall kt kl kr l, ns5_6_3_l_e kt kl kr l = s5_6_3_l_e kt kl kr l) /\
  (forall M am a_s, ns5_6_1_Mb M am a_s = s5_6_1_Mb M am a_s) /\
  (forall l I J Iw b E G, ns5_6_1_M_o Rpw l I J Iw b E G = s5_6_1_M_o l I J Iw b E G) /\
  (forall M M2 M3 M4 mx, ns5_6_1_alpha_m Rpw M M2 M3 M4 mx = s5_6_1_alpha_m M M2 M3 M4 mx) /\
  (forall d l tf tw nw c, ns5_6_3_k_t Rpw d l tf tw nw c = s5_6_3_k_t d l tf tw nw (RCode c)).
Proof. exact bending_link. Qed.
Print Assumptions C120_same_program.

Theorem C121_same_program :
  (forall A k f, ns6_2_A_e A k = s6_2_A_e A k /\ ns6_2_N_s A f = s6_2_N_s A f /\ ns6_3_2_l_e A k = s6_3_2_l_e A k) /\
  (forall E I l, nN_euler E I l = N_euler E I l) /\
  (forall E l r, nf_euler E l r = f_euler E l r) /\
  (forall x y xo yo, nr_ol Rpw x y xo yo = Ok (r_ol x y xo yo)) /\
  (forall A l x y xo yo J Iw E G, nf_euler_torsion Rpw A l x y xo yo J Iw E G = f_euler_torsion A l x y xo yo J Iw E G) /\
  (forall kf l r fy ref, ns6_3_3_lambda_n Rpw kf l r fy ref = s6_3_3_lambda_n kf l r fy ref).
Proof. exact compression_link. Qed.
Print Assumptions C121_same_program.

Theorem C123_same_program :
  forall M_s M_o, ns5_6_alpha_s Rpw M_s M_o = s5_6_alpha_s M_s M_o.
Proof. exact alpha_s_R. Qed.
Print Assumptions C123_same_program.

Theorem C124_same_program :
  (forall ln ab, ns6_3_3_alpha_c Rpw ln ab =
     rmap (fun a => [ac_alpha_a a; ac_lambda a; ac_eta a; ac_xi a; ac_alpha_c a]) (s6_3_3_alpha_c ln ab)) /\
  (forall An kf l r fy ref ab, ns6_3_3_N_c Rpw An kf l r fy ref ab = rmap nc_N_c (s6_3_3_N_c An kf l r fy ref ab)).
Proof. exact member_link. Qed.
Print Assumptions C124_same_program.

Theorem C128_same_slenderness :
  (forall b t f_y f_ref, ns6_2_lambda_e_flatplate Rpw b t f_y f_ref = s6_2_lambda_e_flatplate b t f_y f_ref) /\
  (forall d t f_y f_ref, ns6_2_lambda_e_CHS d t f_y f_ref = s6_2_lambda_e_CHS d t f_y f_ref) /\
  (forall b l y, ns6_2_b_e_flatplate b l y = s6_2_b_e_flatplate b l y) /\
  (forall n e, ns6_2_k_f_Form_Factor n e = s6_2_k_f_Form_Factor n e).
Proof. exact plate_link. Qed.
Print Assumptions C128_same_slenderness.
