(** On the reals, with exact powers, the functions of NumS6.v are those of S6.v. *)

From Coq Require Import ZArith Reals List Bool Lra.
From Verif Require Import Base Num RNum PyReal Symmetry S6 NumFormulas NumFormulasFacts NumS6.
Import ListNotations.
Open Scope R_scope.

Lemma Rpw_pos x y : 0 < x -> Rpw x y = Ok (Rpower x y).
Proof.
  intros P. unfold Rpw. destruct (Req_EM_T y (1 / 2)) as [->|N1].
  - rewrite rroot_ok by lra. f_equal. rewrite <- Rpower_sqrt by exact P. f_equal. lra.
  - destruct (Req_EM_T y 2) as [->|N2].
    + f_equal. replace 2 with (INR 2) by (cbn; lra). rewrite Rpower_pow by exact P. cbn. ring.
    + destruct (Req_EM_T y 3) as [->|N3].
      * f_equal. replace 3 with (INR 3) by (cbn; lra). rewrite Rpower_pow by exact P. cbn. ring.
      * destruct (Rlt_dec 0 x); [reflexivity|contradiction].
Qed.

Definition rsect (q : nsect R) : sect6 :=
  mk_sect6 (w_A_n q) (w_k_f q) (w_r_x q) (w_r_y q) (w_x_o q) (w_y_o q) (w_J q) (w_I_w q) (w_f_y q) (w_E q) (w_G q).
Definition foxz_list (f : f_oxz_res) : list R := [fx_beta f; fx_f_ox f; fx_f_oz f; fx_r_ol f; fx_f_oxz f].
Definition ncz_list (f : ncz_res) : list R := [cz_N_cz f; cz_f_oc f; cz_lambda_c f; cz_f_n f].
Definition nc_list (o : nc_out) : list (option R) :=
  [Some (o_N_s o); Some (o_phiN_s o); o_N_cx o; o_phiN_cx o; o_N_cy o; o_phiN_cy o; o_N_cz o; o_phiN_cz o;
   Some (o_N_c o); Some (o_phiN_c o)].

Ltac reals := change (@nmul R RNum) with Rmult; change (@nadd R RNum) with Rplus; change (@nsub R RNum) with Rminus;
  change (@nneg R RNum) with Ropp.

Lemma f_oxz_R A lx lz rx ry xo yo J Iw E G :
  nf_oxz Rpw A lx lz rx ry xo yo J Iw E G = rmap foxz_list (f_oxz A lx lz rx ry xo yo J Iw E G).
Proof.
  unfold nf_oxz, f_oxz. rewrite r_ol_R. cbn [bind]. rewrite pydiv_R.
  destruct (rdiv xo _) as [q|]; [|reflexivity]. cbn [bind]. rewrite Rpw_2. cbn [bind]. rewrite f_euler_R, f_euler_torsion_R. reals.
  destruct (f_euler E lx rx) as [fx|]; [|reflexivity]. cbn [bind].
  destruct (f_euler_torsion _ _ _ _ _ _ _ _ _ _) as [fz|]; [|reflexivity]. cbn [bind]. rewrite pydiv_R.
  change (nint 1) with 1. change (@nint R RNum 4) with 4.
  change (rdiv 1 (@nint R RNum 2 * (1 - q * q))) with (rdiv 1 (2 * (1 - q * q))).
  destruct (rdiv 1 (2 * (1 - q * q))) as [h|]; [|reflexivity]. cbn [bind]. rewrite Rpw_2. cbn [bind]. rewrite Rpw_half.
  destruct (rroot _); reflexivity.
Qed.

Lemma double_R A lx lz rx ry xo yo J Iw E G :
  nf_oc_double_symmetric Rpw A lx lz rx ry xo yo J Iw E G = f_oc_double_symmetric A lx lz rx ry xo yo J Iw E G.
Proof.
  unfold nf_oc_double_symmetric, f_oc_double_symmetric. rewrite f_oxz_R, f_euler_torsion_R.
  destruct (f_oxz _ _ _ _ _ _ _ _ _ _ _); [|reflexivity]. cbn [bind rmap]. reflexivity.
Qed.

Lemma single_R A lx ly lz rx ry xo yo J Iw E G sym :
  nf_oc_single_symmetric Rpw A lx ly lz rx ry xo yo J Iw E G sym = f_oc_single_symmetric A lx ly lz rx ry xo yo J Iw E G sym.
Proof.
  unfold nf_oc_single_symmetric, f_oc_single_symmetric. destruct (symcount sym); [|reflexivity]. cbn [bind].
  destruct sym as [[|ax [|? ?]]|]; try reflexivity. rewrite !f_oxz_R. destruct (axis_is _ ax).
  - destruct (f_oxz A lx _ _ _ _ _ _ _ _ _); reflexivity.
  - destruct (f_oxz A ly _ _ _ _ _ _ _ _ _); reflexivity.
Qed.

Lemma coeffs_R fx fy fz r x y : nunsym_coeffs Rpw fx fy fz r x y = Ok (unsym_coeffs fx fy fz r x y).
Proof.
  unfold nunsym_coeffs, unsym_coeffs. rewrite !Rpw_2. cbn [bind]. reals. f_equal. repeat f_equal; ring.
Qed.

Lemma unsym_R roots A lx ly lz rx ry xo yo J Iw E G :
  nf_oc_unsymmetric Rpw roots A lx ly lz rx ry xo yo J Iw E G = f_oc_unsymmetric roots A lx ly lz rx ry xo yo J Iw E G.
Proof.
  unfold nf_oc_unsymmetric, f_oc_unsymmetric. rewrite !f_euler_R, r_ol_R, f_euler_torsion_R.
  destruct (f_euler E lx rx) as [fx|]; [|reflexivity]. cbn [bind]. destruct (f_euler E ly ry) as [fy|]; [|reflexivity]. cbn [bind].
  destruct (f_euler_torsion _ _ _ _ _ _ _ _ _ _) as [fz|]; [|reflexivity]. cbn [bind]. rewrite coeffs_R. cbn [bind].
  destruct (unsym_coeffs _ _ _ _ _ _) as (((a & b) & c) & d). reflexivity.
Qed.

Lemma f_oc_R roots q lx ly lz sym : nf_oc Rpw roots q lx ly lz sym = f_oc roots (rsect q) lx ly lz sym.
Proof.
  unfold nf_oc, f_oc. destruct (symmetry sym) as [s|]; [|reflexivity]. cbn [bind]. destruct s.
  - apply unsym_R.
  - apply double_R.
  - apply f_euler_torsion_R.
  - apply single_R.
Qed.

Lemma n_cz_R A f o u : nn_cz_of Rpw A f o u = rmap ncz_list (n_cz_of A f o u).
Proof.
  unfold nn_cz_of, n_cz_of. rewrite pydiv_R. destruct (rdiv f o) as [q|]; [|reflexivity]. cbn [bind]. rewrite Rpw_half.
  destruct (rroot q) as [lc|]; [|reflexivity]. cbn [bind]. unfold nf_n_of, f_n_of. reals. change (@nleb R RNum) with Rleb.
  replace (nflt 15 10 : R) with (3 / 2) by (cbn; lra). change (nflt 658 1000 : R) with (658 / 1000). change (nflt 877 1000 : R) with (877 / 1000).
  destruct (Rleb lc (3 / 2)).
  - rewrite Rpw_pos by lra. reflexivity.
  - rewrite pydiv_R. destruct (rdiv _ _); reflexivity.
Qed.

Lemma torsion_R roots q lx ly lz sym u :
  ns6_3_3_N_c_torsion Rpw roots q lx ly lz sym u = rmap ncz_list (s6_3_3_N_c_torsion roots (rsect q) lx ly lz sym u).
Proof.
  unfold ns6_3_3_N_c_torsion, s6_3_3_N_c_torsion. rewrite f_oc_R. destruct (f_oc _ _ _ _ _ _); [|reflexivity]. cbn [bind]. apply n_cz_R.
Qed.

Lemma Nc_R roots q l kx ky kz sym ref ab u phi cb ct :
  ns6_1_1_Nc Rpw roots q l kx ky kz sym ref ab u phi cb ct = rmap nc_list (s6_1_1_Nc roots (rsect q) l kx ky kz sym ref ab u phi cb ct).
Proof.
  unfold ns6_1_1_Nc, s6_1_1_Nc. destruct cb; [|reflexivity]. rewrite !N_c_R, torsion_R.
  change (@ns6_3_2_l_e R RNum) with s6_3_2_l_e.
  change (q_A_n (rsect q)) with (w_A_n q). change (q_k_f (rsect q)) with (w_k_f q). change (q_r_x (rsect q)) with (w_r_x q).
  change (q_r_y (rsect q)) with (w_r_y q). change (q_f_y (rsect q)) with (w_f_y q).
  destruct (s6_3_3_N_c _ _ (s6_3_2_l_e l kx) _ _ _ _) as [bx|]; [|reflexivity].
  cbn [bind rmap].
  destruct (s6_3_3_N_c _ _ (s6_3_2_l_e l ky) _ _ _ _) as [by_|]; [|reflexivity].
  cbn [bind rmap]. destruct ct; [|reflexivity].
  destruct (s6_3_3_N_c_torsion _ _ _ _ _ _ _) as [z|]; reflexivity.
Qed.
