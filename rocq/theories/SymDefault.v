(** Missing or unrecognised symmetry information: a section with axes of symmetry, rated as one without. *)

From Coq Require Import Reals Lra Psatz List Bool String.
From Verif Require Import Base Num RNum PyReal Symmetry S6 S6Facts S6Torsion S6Unsym S6Length S6Cases UnsymLength S6Value.
Import ListNotations.
Open Scope R_scope.

(** The offsets of a section with these axes: its shear centre lies on every axis, and at the centre of a point symmetry. *)
Definition fits (axes : list axis) (q : sect6) : Prop :=
  axes = [AxStr "x"] /\ q_y_o q = 0
  \/ axes = [AxStr "y"] /\ q_x_o q = 0
  \/ (axes = [AxStr "x"; AxStr "y"] \/ axes = [AxStr "y"; AxStr "x"] \/ axes = [AxStr "point"]) /\ q_x_o q = 0 /\ q_y_o q = 0.

(** Axes that are not one axis and not x and y. *)
Definition unrecognised (axes : list axis) : Prop :=
  List.length axes <> 1%nat /\ ~ (List.length axes = 2%nat /\ In (AxStr "x") axes /\ In (AxStr "y") axes).

Lemma axis_in_In s l : axis_in s l = true -> In (AxStr s) l.
Proof.
  unfold axis_in. rewrite existsb_exists. intros ([t|a] & I & E); [|discriminate].
  cbn in E. apply String.eqb_eq in E. now subst.
Qed.

Lemma unrecognised_none axes : unrecognised axes -> symmetry (Some axes) = Ok SymNone.
Proof.
  intros [H1 H2]. unfold symmetry. destruct (Nat.eqb_spec (List.length axes) 0); [reflexivity|].
  destruct (Nat.eqb_spec (List.length axes) 1); [contradiction|]. cbn [andb].
  destruct (Nat.eqb_spec (List.length axes) 2); [|reflexivity]. cbn [andb].
  destruct (axis_in "x" axes) eqn:X; [|reflexivity]. destruct (axis_in "y" axes) eqn:Y; [|reflexivity].
  exfalso. apply H2. auto using axis_in_In.
Qed.

(** * With one offset the result is real and at most the coupled stress *)

(** [q] is the smaller root of the coupling of [g1] and [g3] by [k]. *)
Lemma coupled_small k g1 g3 q : 0 < k < 1 -> coupled (1 - k) g1 g3 q -> (2 + k) * q < g1 + g3.
Proof.
  intros Hk (E & P & L1 & L3).
  assert (Z : (g1 - q) * (g3 - q) = k * q ^ 2) by lra.
  assert (4 * (k * q ^ 2) <= (g1 - q + (g3 - q)) ^ 2) by (rewrite <- Z; pose proof (pow2_ge_0 (g1 - g3)); lra).
  assert (k * k * q ^ 2 < (g1 - q + (g3 - q)) ^ 2).
  { assert (0 < k * q ^ 2 * (4 - k)) by (repeat apply Rmult_lt_0_compat; try lra; apply pow_lt; lra). lra. }
  assert (0 < k * q) by (apply Rmult_lt_0_compat; lra). nra.
Qed.

(** [g1] is the stress about the axis of symmetry, [x2] the square of the offset along it. *)
Section OneOffset.
Variables g1 g2 g3 ro2 x2 q : R.
Hypotheses (P2 : 0 < g2) (PX : 0 < x2) (PR : x2 < ro2) (C : coupled (1 - x2 / ro2) g1 g3 q).
Let m := Rmin g2 q.

Lemma m_pos : 0 < m.
Proof. destruct C as (_ & Q & _). now apply Rmin_glb_lt. Qed.

Lemma at_m : 0 <= ro2 * ((m - g1) * (m - g2) * (m - g3)) + m ^ 2 * (g2 * x2).
Proof.
  pose proof m_pos as M. assert (0 <= x2 * m ^ 3) by (apply Rmult_le_pos; [lra|apply pow_le; lra]).
  unfold m, Rmin in *. destruct (Rle_dec g2 q); [lra|].
  destruct C as (E & Q0 & _).
  assert (Z : ro2 * ((q - g1) * (q - g3)) = x2 * q ^ 2).
  { transitivity (ro2 * ((1 - x2 / ro2) * q ^ 2 - (g1 + g3) * q + g1 * g3) + x2 * q ^ 2); [field; lra|]. rewrite E. ring. }
  replace (ro2 * ((q - g1) * (q - g2) * (q - g3)) + q ^ 2 * (g2 * x2))
    with ((q - g2) * (ro2 * ((q - g1) * (q - g3))) + q ^ 2 * (g2 * x2)) by ring.
  rewrite Z. lra.
Qed.

Lemma mean_large : 3 * ro2 * m < ro2 * (g1 + g2 + g3) - g2 * x2.
Proof.
  assert (K : 0 < x2 / ro2 < 1).
  { split; [apply Rdiv_lt_0_compat; lra|]. apply Rmult_lt_reg_r with ro2; [lra|]. unfold Rdiv. rewrite Rmult_assoc, Rinv_l by lra. lra. }
  pose proof (coupled_small (x2 / ro2) g1 g3 q K C) as L.
  replace (ro2 * (g1 + g2 + g3) - g2 * x2) with (ro2 * (g1 + g3 + g2 * (1 - x2 / ro2))) by (field; lra).
  rewrite (Rmult_comm 3), Rmult_assoc. apply Rmult_lt_compat_l; [lra|].
  set (k := x2 / ro2) in *.
  assert (m <= g2) by apply Rmin_l. assert (m <= q) by apply Rmin_r.
  assert ((2 + k) * m <= (2 + k) * q) by (apply Rmult_le_compat_l; lra).
  assert (m * (1 - k) <= g2 * (1 - k)) by (apply Rmult_le_compat_r; lra). lra.
Qed.
End OneOffset.

Lemma unsym_one_offset roots q lx ly lz g : correct_roots roots -> sect_ok q -> 0 < lx -> 0 < ly -> 0 < lz ->
  let ro2 := q_r_x q ^ 2 + q_r_y q ^ 2 + q_x_o q ^ 2 + q_y_o q ^ 2 in
  let f_z := ft (q_A_n q) lz ro2 (q_J q) (q_I_w q) (q_E q) (q_G q) in
  q_y_o q = 0 /\ coupled (1 - q_x_o q ^ 2 / ro2) (fe (q_E q) lx (q_r_x q)) f_z g
  \/ q_x_o q = 0 /\ coupled (1 - q_y_o q ^ 2 / ro2) (fe (q_E q) ly (q_r_y q)) f_z g ->
  exists f, f_oc_unsymmetric roots (q_A_n q) lx ly lz (q_r_x q) (q_r_y q) (q_x_o q) (q_y_o q) (q_J q) (q_I_w q) (q_E q) (q_G q)
    = Ok f /\ 0 < f <= g.
Proof.
  intros HR (HA & Hk & Hx & Hy & HJ & Hw & Hf & HE & HG) Px Py Pz ro2 f_z D.
  assert (R0 : 0 < ro2) by (unfold ro2; nra).
  pose proof (fe_pos (q_E q) lx (q_r_x q) HE Px Hx) as F1. pose proof (fe_pos (q_E q) ly (q_r_y q) HE Py Hy) as F2.
  pose proof (ft_pos (q_A_n q) lz ro2 (q_J q) (q_I_w q) (q_E q) (q_G q) HA Pz R0 HJ Hw HE HG) as F3. fold f_z in F3.
  pose proof (unsym_real (q_A_n q) lx ly lz (q_r_x q) (q_r_y q) (q_x_o q) (q_y_o q) (q_J q) (q_I_w q) (q_E q) (q_G q)
    HA Px Py Pz Hx Hy HJ Hw HE HG roots HR) as U. cbv zeta in U. fold ro2 in U. fold f_z in U.
  assert (Z : q_x_o q = 0 -> q_y_o q = 0 -> forall h, coupled 1 h f_z g -> h = fe (q_E q) lx (q_r_x q) \/ h = fe (q_E q) ly (q_r_y q) ->
    exists f, f_oc_unsymmetric roots (q_A_n q) lx ly lz (q_r_x q) (q_r_y q) (q_x_o q) (q_y_o q) (q_J q) (q_I_w q) (q_E q) (q_G q)
      = Ok f /\ 0 < f <= g).
  { intros X0 Y0 h (E & Q & L1 & L3) Hh.
    pose proof (unsym_no_offset (q_A_n q) lx ly lz (q_r_x q) (q_r_y q) (q_x_o q) (q_y_o q) (q_J q) (q_I_w q) (q_E q) (q_G q)
      HA Px Py Pz Hx Hy HJ Hw HE HG roots
      (roots_here _ _ _ _ _ _ _ _ _ _ _ _ HA Px Py Pz Hx Hy HJ Hw HE HG roots HR) X0 Y0) as N.
    fold ro2 in N. fold f_z in N. eexists. split; [exact N|]. split; [repeat apply Rmin_glb_lt; auto|].
    assert (V : (g - h) * (g - f_z) = 0) by lra.
    apply Rmult_integral in V as [V|V].
    - assert (g = h) by lra. subst g. destruct Hh as [-> | ->].
      + apply Rmin_l.
      + eapply Rle_trans; [apply Rmin_r|apply Rmin_l].
    - assert (g = f_z) by lra. subst g. eapply Rle_trans; [apply Rmin_r|apply Rmin_r]. }
  destruct D as [[Y0 C]|[X0 C]].
  - destruct (Req_dec (q_x_o q) 0) as [X0|X0].
    + apply (Z X0 Y0 (fe (q_E q) lx (q_r_x q))); auto.
      replace (1 - q_x_o q ^ 2 / ro2) with 1 in C by (rewrite X0; field; lra). exact C.
    + assert (PX : 0 < q_x_o q ^ 2) by (pose proof (pow2_ge_0 (q_x_o q)); pose proof (pow_nonzero (q_x_o q) 2 X0); lra).
      assert (PR : q_x_o q ^ 2 < ro2) by (unfold ro2; nra).
      pose proof (m_pos _ _ _ _ _ _ F2 C) as M0. pose proof (at_m _ _ _ _ _ _ F2 PX PR C) as M1.
      pose proof (mean_large _ (fe (q_E q) ly (q_r_y q)) _ _ _ _ PX PR C) as M2.
      destruct (U (Rmin (fe (q_E q) ly (q_r_y q)) g)) as (f & Ef & Pf).
      * lra.
      * rewrite code_cubic_form. replace (q_y_o q ^ 2) with 0 by (rewrite Y0; ring). ring_simplify in M1. ring_simplify. lra.
      * left. replace (q_y_o q ^ 2) with 0 by (rewrite Y0; ring). rewrite !Rmult_0_r, Rminus_0_r, Rplus_0_r. split; [lra|exact M2].
      * exists f. split; auto. pose proof (Rmin_r (fe (q_E q) ly (q_r_y q)) g). lra.
  - destruct (Req_dec (q_y_o q) 0) as [Y0|Y0].
    + apply (Z X0 Y0 (fe (q_E q) ly (q_r_y q))); auto.
      replace (1 - q_y_o q ^ 2 / ro2) with 1 in C by (rewrite Y0; field; lra). exact C.
    + assert (PX : 0 < q_y_o q ^ 2) by (pose proof (pow2_ge_0 (q_y_o q)); pose proof (pow_nonzero (q_y_o q) 2 Y0); lra).
      assert (PR : q_y_o q ^ 2 < ro2) by (unfold ro2; nra).
      pose proof (m_pos _ _ _ _ _ _ F1 C) as M0. pose proof (at_m _ _ _ _ _ _ F1 PX PR C) as M1.
      pose proof (mean_large _ (fe (q_E q) lx (q_r_x q)) _ _ _ _ PX PR C) as M2.
      destruct (U (Rmin (fe (q_E q) lx (q_r_x q)) g)) as (f & Ef & Pf).
      * lra.
      * rewrite code_cubic_form. replace (q_x_o q ^ 2) with 0 by (rewrite X0; ring). ring_simplify in M1. ring_simplify. lra.
      * left. replace (q_x_o q ^ 2) with 0 by (rewrite X0; ring). rewrite !Rmult_0_r, Rmult_0_l, Rminus_0_r, Rplus_0_l.
        split; [lra|]. rewrite (Rplus_comm (fe (q_E q) lx (q_r_x q))). exact M2.
      * exists f. split; auto. pose proof (Rmin_r (fe (q_E q) lx (q_r_x q)) g). lra.
Qed.

(** * Capacities *)

Lemma torsion_default roots q lx ly lz axes axes' u z : correct_roots roots -> sect_ok q -> 0 < lx -> 0 < ly -> 0 < lz -> 0 < u ->
  fits axes q -> unrecognised axes' -> s6_3_3_N_c_torsion roots q lx ly lz (Some axes) u = Ok z ->
  exists z', s6_3_3_N_c_torsion roots q lx ly lz (Some axes') u = Ok z' /\ cz_N_cz z' <= cz_N_cz z.
Proof.
  intros HR Hq Px Py Pz Hu HF Hn H. pose proof (unrecognised_none _ Hn) as Hs. pose proof Hq as (HA & Hk & Hx & Hy & HJ & Hw & Hf & HE & HG).
  assert (S : exists f, f_oc roots q lx ly lz (Some axes') = Ok f /\ 0 < f <= cz_f_oc z).
  { unfold f_oc. rewrite Hs. cbn [bind].
    pose proof (torsion_stress roots q lx ly lz (Some axes) u z Hq Px Py Pz H) as T. cbv zeta in T.
    destruct HF as [[-> Y0]|[[-> X0]|[D [X0 Y0]]]].
    - cbn in T. apply unsym_one_offset; auto.
    - cbn in T. apply unsym_one_offset; auto.
    - destruct D as [->|[->| ->]]; cbn in T; try (apply unsym_one_offset; auto; fail).
      pose proof (unsym_no_offset (q_A_n q) lx ly lz (q_r_x q) (q_r_y q) (q_x_o q) (q_y_o q) (q_J q) (q_I_w q) (q_E q) (q_G q)
        HA Px Py Pz Hx Hy HJ Hw HE HG roots
        (roots_here _ _ _ _ _ _ _ _ _ _ _ _ HA Px Py Pz Hx Hy HJ Hw HE HG roots HR) X0 Y0) as N.
      eexists. split; [exact N|]. split.
      + repeat apply Rmin_glb_lt; [now apply fe_pos|now apply fe_pos|]. apply ft_pos; auto. nra.
      + rewrite T. eapply Rle_trans; [apply Rmin_r|]. cbn [pow]. apply Rmin_r. }
  destruct S as (f & Ef & Pf & Lf).
  assert (exists z', s6_3_3_N_c_torsion roots q lx ly lz (Some axes') u = Ok z' /\ cz_f_oc z' = f) as (z' & Ez & Zf).
  { unfold s6_3_3_N_c_torsion. rewrite Ef. cbn [bind]. rewrite n_cz_value by auto. eexists. split; [reflexivity|reflexivity]. }
  exists z'. split; auto. eapply torsion_mono; [..|exact Ez|exact H|]; auto. now rewrite Zf.
Qed.

Lemma Nc_default roots q l kx ky kz axes axes' f_ref ab u phi cb ct o : correct_roots roots -> sect_ok q ->
  0 < l -> 0 < kx -> 0 < ky -> 0 < kz -> 0 < u -> 0 <= phi ->
  fits axes q -> unrecognised axes' ->
  s6_1_1_Nc roots q l kx ky kz (Some axes) f_ref ab u phi cb ct = Ok o ->
  exists o', s6_1_1_Nc roots q l kx ky kz (Some axes') f_ref ab u phi cb ct = Ok o' /\ o_N_c o' <= o_N_c o /\ o_phiN_c o' <= o_phiN_c o.
Proof.
  intros HR Hq Hl Kx Ky Kz Hu Hp HF Hn H. pose proof (unrecognised_none _ Hn) as Hs. unfold s6_1_1_Nc in *. destruct cb; [|eexists; split; [exact H|lra]].
  cbv zeta in *. inv_bind H. inv_bind H. cbn [bind]. destruct ct; [|eexists; split; [exact H|lra]].
  inv_bind H. injection H as <-. unfold s6_3_2_l_e in *.
  destruct (torsion_default roots q (l * kx) (l * ky) (l * kz) axes axes' u a1) as (z' & Ez & L); auto; try pos.
  rewrite Ez. cbn [bind]. eexists. split; [reflexivity|]. cbn [o_N_c o_phiN_c].
  match goal with |- ?A <= ?B /\ _ => assert (LL : A <= B) end.
  { rewrite !pymin_R. apply Rle_min_compat_l. apply Rle_min_compat_l. exact L. }
  split; [exact LL|]. now apply Rmult_le_compat_l.
Qed.

(** * A misspelt axis *)

Definition open_section : sect6 := mk_sect6 1 1 (3 / 5) (4 / 5) 1 0 2 0 1 1 1.

Lemma open_ok : sect_ok open_section.
Proof. unfold sect_ok, open_section. cbn. lra. Qed.

Lemma capital roots : exists z z',
  s6_3_3_N_c_torsion roots open_section (3 / 5 * PI) (4 / 5 * PI) 1 (Some [AxStr "x"]) (85 / 100) = Ok z
  /\ s6_3_3_N_c_torsion roots open_section (3 / 5 * PI) (4 / 5 * PI) 1 (Some [AxStr "X"]) (85 / 100) = Ok z'
  /\ cz_N_cz z < cz_N_cz z'.
Proof.
  pose proof PI_RGT_0 as PP. assert (Px : 0 < 3 / 5 * PI) by lra. assert (Py : 0 < 4 / 5 * PI) by lra.
  assert (D : forall s, symmetry (Some [AxStr s]) = Ok SymSingle -> exists z,
    s6_3_3_N_c_torsion roots open_section (3 / 5 * PI) (4 / 5 * PI) 1 (Some [AxStr s]) (85 / 100) = Ok z).
  { intros s Hs. destruct (f_oc_defined roots open_section (3 / 5 * PI) (4 / 5 * PI) 1 _ _ open_ok Hs) as (f & Ef & Pf); [discriminate|lra..|].
    unfold s6_3_3_N_c_torsion. rewrite Ef. cbn [bind]. rewrite n_cz_value by (cbn; lra). eauto. }
  destruct (D "x"%string eq_refl) as [z Hz]. destruct (D "X"%string eq_refl) as [z' Hz'].
  exists z, z'. split; auto. split; auto.
  pose proof (torsion_stress _ _ _ _ _ _ _ _ open_ok Px Py Rlt_0_1 Hz) as T.
  pose proof (torsion_stress _ _ _ _ _ _ _ _ open_ok Px Py Rlt_0_1 Hz') as T'.
  cbv zeta in T, T'. unfold open_section in T, T'.
  cbn [q_A_n q_k_f q_r_x q_r_y q_x_o q_y_o q_J q_I_w q_f_y q_E q_G] in T, T'.
  rewrite uns_fz, uns_fx in T. rewrite uns_fz, uns_fy in T'. 
  replace (symmetry (Some [AxStr "x"])) with (Ok SymSingle) in T by reflexivity.
  replace (symmetry (Some [AxStr "X"])) with (Ok SymSingle) in T' by reflexivity.
  cbn [hd axis_is String.eqb Ascii.eqb Bool.eqb] in T, T'.
  destruct T as (T & T0 & T1 & _). destruct T' as (T' & T0' & T1' & _).
  assert (F : 1 / 2 <= cz_f_oc z < 1).
  { replace (1 - 1 ^ 2 / ((3 / 5) ^ 2 + (4 / 5) ^ 2 + 1 ^ 2 + 0 ^ 2)) with (1 / 2) in T by field.
    split; [pose proof (pow2_ge_0 (cz_f_oc z)); lra|]. destruct T1 as [T1|T1]; auto. rewrite T1 in T. lra. }
  assert (F' : cz_f_oc z' = 1).
  { replace (1 - 0 ^ 2 / ((3 / 5) ^ 2 + (4 / 5) ^ 2 + 1 ^ 2 + 0 ^ 2)) with 1 in T' by field.
    assert ((cz_f_oc z' - 1) * (cz_f_oc z' - 1) = 0) by lra. apply Rmult_integral in H as [H|H]; lra. }
  destruct (torsion_value roots open_section _ _ _ _ _ _ Rlt_0_1 Hz) as (_ & _ & V & _ & N). cbn in V, N.
  destruct (torsion_value roots open_section _ _ _ _ _ _ Rlt_0_1 Hz') as (_ & _ & V' & _ & N'). cbn in V', N'.
  rewrite N, N', V, V' by lra. rewrite F'.
  assert (L : Rpower (658 / 1000) (1 / cz_f_oc z) < Rpower (658 / 1000) (1 / 1)).
  { unfold Rpower. apply exp_increasing. pose proof ln_658 as LN.
    assert (1 / 1 < 1 / cz_f_oc z).
    { unfold Rdiv. rewrite !Rmult_1_l. apply Rinv_lt_contravar; lra. }
    nra. }
  lra.
Qed.
