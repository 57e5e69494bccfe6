(** On the reals, with exact powers, the formulas of NumFormulas.v are those of S7.v, S5.v and S6.v. *)

From Coq Require Import ZArith Reals List Bool Lra.
From Verif Require Import Base Num RNum PyReal S7 S5 S6 NumFormulas.
Import ListNotations.
Open Scope R_scope.

(** Exact powers. *)
Definition Rpw (x y : R) : res R :=
  if Req_EM_T y (1 / 2) then rroot x
  else if Req_EM_T y 2 then Ok (x * x)
  else if Req_EM_T y 3 then Ok (x * x * x)
  else if Rlt_dec 0 x then Ok (Rpower x y)
  else Err ValueError.

Lemma Rpw_half x : Rpw x (nflt 1 2) = rroot x.
Proof. unfold Rpw. cbn. destruct (Req_EM_T (1 / 2) (1 / 2)); [reflexivity|lra]. Qed.
Lemma Rpw_2 x : Rpw x (nint 2) = Ok (x * x).
Proof. unfold Rpw. cbn. destruct (Req_EM_T 2 (1 / 2)); [lra|]. destruct (Req_EM_T 2 2); [reflexivity|lra]. Qed.
Lemma Rpw_3 x : Rpw x (nint 3) = Ok (x * x * x).
Proof. unfold Rpw. cbn. destruct (Req_EM_T 3 (1 / 2)); [lra|]. destruct (Req_EM_T 3 2); [lra|]. destruct (Req_EM_T 3 3); [reflexivity|lra]. Qed.
Lemma pydiv_R (x y : R) : pydiv x y = rdiv x y.
Proof. unfold pydiv, rdiv. cbn. unfold Reqb. now destruct (Req_EM_T y 0). Qed.

Definition ar_list (a : a_reqd) : list R := [ar_A_g a; ar_A_n a; ar_A a; ar_phiA_g a; ar_phiA_n a; ar_phiA a].
Definition nt_list (n : n_t) : list R := [nt_N_ty n; nt_N_tu n; nt_N n; nt_phiN_ty n; nt_phiN_tu n; nt_phiN n].
Definition ac_list (a : alpha_c_res) : list R := [ac_alpha_a a; ac_lambda a; ac_eta a; ac_xi a; ac_alpha_c a].

Lemma A_reqd_R N_t f_y f_u k_t phi au : ns7_1_A_reqd N_t f_y f_u k_t phi au = rmap ar_list (s7_1_A_reqd N_t f_y f_u k_t phi au).
Proof.
  unfold ns7_1_A_reqd, s7_1_A_reqd, ns7_2_Ag, s7_2_Ag, ns7_2_An, s7_2_An. rewrite ?pydiv_R.
  destruct (rdiv N_t f_y) as [ag|]; [|reflexivity]. cbn [bind].
  destruct (rdiv N_t au) as [a|]; [|reflexivity]. cbn [bind]. rewrite ?pydiv_R.
  destruct (rdiv a k_t) as [b|]; [|reflexivity]. cbn [bind]. rewrite ?pydiv_R.
  destruct (rdiv b f_u) as [an|]; [|reflexivity]. cbn [bind]. rewrite ?pydiv_R.
  destruct (rdiv ag phi); [|reflexivity]. cbn [bind]. rewrite ?pydiv_R.
  destruct (rdiv an phi); [|reflexivity]. cbn [bind]. rewrite ?pydiv_R.
  destruct (rdiv (pymax ag an) phi); reflexivity.
Qed.

Lemma N_t_R A_g A_n f_y f_u k_t phi au : ns7_1_N_t A_g A_n f_y f_u k_t phi au = nt_list (s7_1_N_t A_g A_n f_y f_u k_t phi au).
Proof. reflexivity. Qed.

Lemma M_o_R l_e I_y J I_w bx E G : ns5_6_1_M_o Rpw l_e I_y J I_w bx E G = s5_6_1_M_o l_e I_y J I_w bx E G.
Proof.
  unfold ns5_6_1_M_o, s5_6_1_M_o. rewrite ?pydiv_R. change (@nmul R RNum) with Rmult. change (@nadd R RNum) with Rplus. change (@npi R RNum) with PI.
  destruct (rdiv (PI * PI * E * I_y) (l_e * l_e)) as [a|]; [|reflexivity]. cbn [bind]. rewrite ?pydiv_R.
  destruct (rdiv (PI * PI * E * I_w) (l_e * l_e)) as [c|]; [|reflexivity]. cbn [bind]. rewrite ?pydiv_R.
  change (@nint R RNum 2) with 2. rewrite (rdiv_ok bx 2) by lra. cbn [bind]. rewrite ?Rpw_half.
  destruct (rroot a) as [ra|]; [|reflexivity]. cbn [bind]. rewrite ?Rpw_half.
  destruct (rroot (G * J + c + bx / 2 * (bx / 2) * a)); [|reflexivity]. cbn [bind]. reflexivity.
Qed.

Lemma alpha_m_R M M2 M3 M4 mx : ns5_6_1_alpha_m Rpw M M2 M3 M4 mx = s5_6_1_alpha_m M M2 M3 M4 mx.
Proof.
  unfold ns5_6_1_alpha_m, s5_6_1_alpha_m. rewrite Rpw_half. cbn -[pydiv rdiv rroot pymin].
  destruct (rroot _) as [r|]; [|reflexivity]. cbn [bind]. rewrite ?pydiv_R. reflexivity.
Qed.

Lemma alpha_s_R M_s M_o : ns5_6_alpha_s Rpw M_s M_o = s5_6_alpha_s M_s M_o.
Proof.
  unfold ns5_6_alpha_s, s5_6_alpha_s. rewrite ?pydiv_R. destruct (rdiv M_s M_o) as [q|]; [|reflexivity]. cbn [bind].
  rewrite Rpw_2. cbn [bind]. rewrite Rpw_half. cbn -[rroot]. destruct (rroot _); reflexivity.
Qed.

Lemma k_t_R d l tf tw nw c : ns5_6_3_k_t Rpw d l tf tw nw c = s5_6_3_k_t d l tf tw nw (RCode c).
Proof.
  unfold ns5_6_3_k_t, s5_6_3_k_t. change (@nmul R RNum) with Rmult. change (@nadd R RNum) with Rplus.
  change (@nint R RNum 2) with 2. change (@nint R RNum 1) with 1.
  destruct c; try (f_equal; cbn; lra);
    (rewrite ?pydiv_R; destruct (rdiv d l) as [dl|]; [|reflexivity]; cbn [bind];
     rewrite ?pydiv_R; destruct (rdiv tf (2 * tw)) as [ra|]; [|reflexivity]; cbn [bind];
     change 3 with (@nint R RNum 3); rewrite Rpw_3; cbn [bind]; rewrite ?pydiv_R; reflexivity).
Qed.

Lemma alpha_v_R d t fy lim ref : ns5_11_5_alpha_v Rpw d t fy lim ref = s5_11_5_alpha_v d t fy lim ref.
Proof.
  unfold ns5_11_5_alpha_v, s5_11_5_alpha_v. rewrite ?pydiv_R. destruct (rdiv fy ref) as [q|]; [|reflexivity]. cbn [bind].
  rewrite Rpw_half. destruct (rroot q) as [r|]; [|reflexivity]. cbn [bind]. rewrite ?pydiv_R.
  destruct (rdiv lim r) as [m|]; [|reflexivity]. cbn [bind]. rewrite ?pydiv_R.
  destruct (rdiv d t) as [sl|]; [|reflexivity]. cbn [bind]. change (@nltb R RNum) with Rltb.
  destruct (Rltb m sl); [|f_equal; cbn; lra]. rewrite ?pydiv_R. destruct (rdiv m sl); [|reflexivity]. cbn [bind]. apply Rpw_2.
Qed.

Lemma alpha_vma_R vm va : ns5_11_3_alpha_vma vm va = s5_11_3_alpha_vma vm va.
Proof.
  unfold ns5_11_3_alpha_vma, s5_11_3_alpha_vma. rewrite ?pydiv_R. destruct (rdiv vm va) as [q|]; [|reflexivity]. cbn [bind].
  rewrite ?pydiv_R. cbn -[rdiv pymin]. destruct (rdiv 2 (9 / 10 + q)); [|reflexivity]. cbn [bind]. f_equal. f_equal. cbn. lra.
Qed.

Lemma Weld_R v Q I : ns5_11_4_V_w_Weld v Q I = s5_11_4_V_w_Weld (WList v) Q I.
Proof. unfold ns5_11_4_V_w_Weld, s5_11_4_V_w_Weld. now rewrite ?pydiv_R. Qed.

Lemma Interface_R t f Q I s : ns5_11_4_V_w_Interface t f Q I s = s5_11_4_V_w_Interface t f Q I s.
Proof. unfold ns5_11_4_V_w_Interface, s5_11_4_V_w_Interface. now rewrite ?pydiv_R. Qed.

Lemma products_R A f s c k a b d :
  ns5_11_4_V_w_Generic A f s = s5_11_4_V_w_Generic A f s /\ ns5_11_4_V_w_CHS A f s c = s5_11_4_V_w_CHS A f s c /\
  ns5_2_M_s f A = s5_2_M_s f A /\ ns5_6_3_l_e k a b d = s5_6_3_l_e k a b d /\ ns5_6_1_Mb k a b = s5_6_1_Mb k a b /\
  ns6_2_A_e A k = s6_2_A_e A k /\ ns6_2_N_s A f = s6_2_N_s A f /\ ns6_3_2_l_e a k = s6_3_2_l_e a k.
Proof. repeat split. Qed.

Lemma N_euler_R E I l : nN_euler E I l = N_euler E I l.
Proof. unfold nN_euler, N_euler. now rewrite ?pydiv_R. Qed.

Lemma f_euler_R E l r : nf_euler E l r = f_euler E l r.
Proof.
  unfold nf_euler, f_euler. rewrite ?pydiv_R. destruct (rdiv l r) as [s|]; [|reflexivity]. cbn [bind]. now rewrite ?pydiv_R.
Qed.

Lemma r_ol_R x y xo yo : nr_ol Rpw x y xo yo = Ok (r_ol x y xo yo).
Proof.
  unfold nr_ol, r_ol. rewrite Rpw_half. apply rroot_ok. cbn.
  pose proof (Rle_0_sqr x). pose proof (Rle_0_sqr y). pose proof (Rle_0_sqr xo). pose proof (Rle_0_sqr yo). unfold Rsqr in *. lra.
Qed.

Lemma f_euler_torsion_R A l x y xo yo J Iw E G :
  nf_euler_torsion Rpw A l x y xo yo J Iw E G = f_euler_torsion A l x y xo yo J Iw E G.
Proof.
  unfold nf_euler_torsion, f_euler_torsion. rewrite r_ol_R. cbn [bind]. rewrite ?pydiv_R.
  cbn -[rdiv pydiv r_ol]. destruct (rdiv (G * J) _); [|reflexivity]. cbn [bind]. rewrite ?pydiv_R. reflexivity.
Qed.

Lemma lambda_n_R kf l r fy ref : ns6_3_3_lambda_n Rpw kf l r fy ref = s6_3_3_lambda_n kf l r fy ref.
Proof.
  unfold ns6_3_3_lambda_n, s6_3_3_lambda_n. rewrite ?pydiv_R. destruct (rdiv l r); [|reflexivity]. cbn [bind].
  rewrite Rpw_half. destruct (rroot kf); [|reflexivity]. cbn [bind]. rewrite ?pydiv_R.
  destruct (rdiv fy ref) as [q|]; [|reflexivity]. cbn [bind]. rewrite Rpw_half. reflexivity.
Qed.

Lemma alpha_c_R ln ab : ns6_3_3_alpha_c Rpw ln ab = rmap ac_list (s6_3_3_alpha_c ln ab).
Proof.
  unfold ns6_3_3_alpha_c, s6_3_3_alpha_c. rewrite ?pydiv_R.
  change (@nmul R RNum) with Rmult. change (@nadd R RNum) with Rplus. change (@nsub R RNum) with Rminus.
  change (@nint R RNum 2100) with 2100. change (@nint R RNum 2050) with 2050. change (@nint R RNum 90) with 90.
  change (@nint R RNum 1) with 1.
  replace (nflt 135 10 : R) with (27 / 2) by (cbn; lra). replace (nflt 153 10 : R) with (153 / 10) by (cbn; lra).
  replace (nflt 0 1 : R) with 0 by (cbn; lra). change (nflt 326 100000 : R) with (326 / 100000).
  destruct (rdiv _ _) as [aa|]; [|reflexivity]. cbn [bind]. rewrite ?pydiv_R, rdiv_ok by lra. cbn [bind].
  rewrite Rpw_2. cbn [bind]. change (@nint R RNum 2) with 2. rewrite ?pydiv_R.
  destruct (rdiv _ (2 * _)) as [xi|]; [|reflexivity]. cbn [bind]. rewrite ?pydiv_R.
  destruct (rdiv 90 _) as [q|]; [|reflexivity]. cbn [bind]. change 2 with (@nint R RNum 2) at 1. rewrite Rpw_2. cbn [bind].
  rewrite Rpw_half. destruct (rroot (1 - q * q)); reflexivity.
Qed.

Lemma N_c_R An kf l r fy ref ab : ns6_3_3_N_c Rpw An kf l r fy ref ab = rmap nc_N_c (s6_3_3_N_c An kf l r fy ref ab).
Proof.
  unfold ns6_3_3_N_c, s6_3_3_N_c. rewrite lambda_n_R. destruct (s6_3_3_lambda_n kf l r fy ref) as [ln|]; [|reflexivity]. cbn [bind].
  rewrite alpha_c_R. destruct (s6_3_3_alpha_c ln ab); reflexivity.
Qed.
