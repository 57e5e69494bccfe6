(** The section 6 and section 5 formulas under a change of the units of length and stress. *)

From Coq Require Import Reals Lra Psatz List Bool String.
From Verif Require Import Base Num RNum PyReal Symmetry S5 S6 S5Facts S6Facts S6Torsion S6Unsym S6Length.
Import ListNotations.
Open Scope R_scope.

(** Lengths are multiplied by k, stresses by s. *)
Definition rescale (k s : R) (q : sect6) : sect6 :=
  mk_sect6 (k ^ 2 * q_A_n q) (q_k_f q) (k * q_r_x q) (k * q_r_y q) (k * q_x_o q) (k * q_y_o q)
    (k ^ 4 * q_J q) (k ^ 6 * q_I_w q) (s * q_f_y q) (s * q_E q) (s * q_G q).

Definition rescale_out (c : R) (o : nc_out) : nc_out :=
  mk_nc_out (c * o_N_s o) (c * o_phiN_s o)
    (option_map (Rmult c) (o_N_cx o)) (option_map (Rmult c) (o_phiN_cx o))
    (option_map (Rmult c) (o_N_cy o)) (option_map (Rmult c) (o_phiN_cy o))
    (option_map (Rmult c) (o_N_cz o)) (option_map (Rmult c) (o_phiN_cz o))
    (c * o_N_c o) (c * o_phiN_c o).

Lemma rdiv_scale z x y a b : y <> 0 -> x = z * y -> rdiv (x * a) (y * b) = rmap (Rmult z) (rdiv a b).
Proof.
  intros Hy ->. unfold rdiv.
  destruct (Req_EM_T b 0) as [->|Hb]; destruct (Req_EM_T _ 0) as [E|E]; cbn [rmap].
  - reflexivity.
  - exfalso. apply E. ring.
  - exfalso. apply Rmult_integral in E. tauto.
  - f_equal. field. auto.
Qed.

Lemma rdiv_same y a b : y <> 0 -> rdiv (y * a) (y * b) = rdiv a b.
Proof.
  intros Hy. rewrite (rdiv_scale 1) by lra. destruct (rdiv a b); cbn; [f_equal; lra|reflexivity].
Qed.

Lemma rroot_scale s a : 0 < s -> rroot (s * s * a) = rmap (Rmult s) (rroot a).
Proof.
  intros Hs. unfold rroot. destruct (Rlt_dec a 0) as [C|C], (Rlt_dec (s * s * a) 0) as [C'|C'];
    cbn [rmap]; try reflexivity.
  - exfalso. apply C'. assert (0 < s * s) by pos. nra.
  - exfalso. assert (0 <= s * s * a) by (apply Rmult_le_pos; nra). lra.
  - f_equal. rewrite sqrt_mult_alt by nra. rewrite sqrt_square by lra. reflexivity.
Qed.

Lemma pymin_scale c a b : 0 < c -> pymin (c * a) (c * b) = c * pymin a b.
Proof. intros. rewrite !pymin_R. now rewrite scale_min by lra. Qed.

Section Rescale.
Variables k s : R.
Hypotheses (Hk : 0 < k) (Hs : 0 < s).

Lemma f_euler_scale E l r : f_euler (s * E) (k * l) (k * r) = rmap (Rmult s) (f_euler E l r).
Proof.
  unfold f_euler. rewrite rdiv_same by lra. destruct (rdiv l r) as [v|]; [|reflexivity].
  cbn [bind rmap]. replace (PI * PI * (s * E)) with (s * (PI * PI * E)) by ring.
  replace (v * v) with (1 * (v * v)) at 1 by ring. apply rdiv_scale; lra.
Qed.

Lemma r_ol_scale r_x r_y x_o y_o :
  r_ol (k * r_x) (k * r_y) (k * x_o) (k * y_o) = k * r_ol r_x r_y x_o y_o.
Proof.
  unfold r_ol.
  replace (k * r_x * (k * r_x) + k * r_y * (k * r_y) + k * x_o * (k * x_o) + k * y_o * (k * y_o))
    with (k * k * (r_x * r_x + r_y * r_y + x_o * x_o + y_o * y_o)) by ring.
  rewrite sqrt_mult_alt by nra. now rewrite sqrt_square by lra.
Qed.

Lemma f_torsion_scale A l r_x r_y x_o y_o J I_w E G :
  f_euler_torsion (k ^ 2 * A) (k * l) (k * r_x) (k * r_y) (k * x_o) (k * y_o) (k ^ 4 * J)
    (k ^ 6 * I_w) (s * E) (s * G)
  = rmap (Rmult s) (f_euler_torsion A l r_x r_y x_o y_o J I_w E G).
Proof.
  unfold f_euler_torsion. rewrite r_ol_scale. set (r := r_ol _ _ _ _).
  assert (0 < k ^ 4) by pos. assert (0 < k ^ 6) by pos.
  replace (s * G * (k ^ 4 * J)) with (s * k ^ 4 * (G * J)) by ring.
  replace (k ^ 2 * A * (k * r) * (k * r)) with (k ^ 4 * (A * r * r)) by ring.
  rewrite (rdiv_scale s) by lra. destruct (rdiv (G * J) (A * r * r)) as [a|]; [|reflexivity].
  cbn [bind rmap].
  replace (PI * PI * (s * E) * (k ^ 6 * I_w)) with (s * k ^ 6 * (PI * PI * E * I_w)) by ring.
  replace (s * k ^ 4 * (G * J) * (k * l * (k * l))) with (s * k ^ 6 * (G * J * (l * l))) by ring.
  rewrite rdiv_same by (assert (0 < s * k ^ 6) by pos; lra).
  destruct (rdiv _ _) as [b|]; [|reflexivity]. cbn [bind rmap]. f_equal. ring.
Qed.

Definition foxz_scale (f : f_oxz_res) : f_oxz_res :=
  mk_foxz (fx_beta f) (s * fx_f_ox f) (s * fx_f_oz f) (k * fx_r_ol f) (s * fx_f_oxz f).

Lemma f_oxz_scale A lx lz r_x r_y x_o y_o J I_w E G :
  f_oxz (k ^ 2 * A) (k * lx) (k * lz) (k * r_x) (k * r_y) (k * x_o) (k * y_o) (k ^ 4 * J)
    (k ^ 6 * I_w) (s * E) (s * G)
  = rmap foxz_scale (f_oxz A lx lz r_x r_y x_o y_o J I_w E G).
Proof.
  unfold f_oxz. rewrite r_ol_scale, f_euler_scale, f_torsion_scale.
  rewrite rdiv_same by lra. destruct (rdiv x_o _) as [q|]; [|reflexivity]. cbn [bind].
  destruct (f_euler E lx r_x) as [fx|]; [|reflexivity]. cbn [bind rmap].
  destruct (f_euler_torsion _ _ _ _ _ _ _ _ _ _) as [fz|]; [|reflexivity]. cbn [bind rmap].
  destruct (rdiv 1 _) as [h|]; [|reflexivity]. cbn [bind rmap].
  replace ((s * fx + s * fz) * (s * fx + s * fz) - 4 * (1 - q * q) * (s * fx) * (s * fz))
    with (s * s * ((fx + fz) * (fx + fz) - 4 * (1 - q * q) * fx * fz)) by ring.
  rewrite rroot_scale by auto. destruct (rroot _) as [z|]; [|reflexivity]. cbn [bind rmap].
  unfold foxz_scale. cbn [fx_beta fx_f_ox fx_f_oz fx_r_ol fx_f_oxz]. do 2 f_equal. ring.
Qed.

Lemma f_oc_scale roots q lx ly lz sym : symmetry sym <> Ok SymNone ->
  f_oc roots (rescale k s q) (k * lx) (k * ly) (k * lz) sym
  = rmap (Rmult s) (f_oc roots q lx ly lz sym).
Proof.
  intros Hn. unfold f_oc. destruct (symmetry sym) as [c|]; [|reflexivity]. cbn [bind].
  unfold rescale. cbn [q_A_n q_k_f q_r_x q_r_y q_x_o q_y_o q_J q_I_w q_f_y q_E q_G].
  destruct c; [now elim Hn| | |].
  - unfold f_oc_double_symmetric. rewrite f_oxz_scale, f_torsion_scale.
    destruct (f_oxz _ _ _ _ _ _ _ _ _ _ _) as [f|]; [|reflexivity]. cbn [bind rmap].
    destruct (f_euler_torsion _ _ _ _ _ _ _ _ _ _) as [g|]; [|reflexivity]. cbn [bind rmap].
    unfold foxz_scale. cbn [fx_f_oxz]. now rewrite pymin_scale.
  - apply f_torsion_scale.
  - unfold f_oc_single_symmetric. destruct sym as [l|]; [|reflexivity]. cbn [symcount bind].
    destruct l as [|a [|? ?]]; try reflexivity.
    destruct (axis_is "x" a); rewrite f_oxz_scale;
      destruct (f_oxz _ _ _ _ _ _ _ _ _ _ _) as [f|]; reflexivity.
Qed.

Definition ncz_scale (z : ncz_res) : ncz_res :=
  mk_ncz (s * k ^ 2 * cz_N_cz z) (s * cz_f_oc z) (cz_lambda_c z) (s * cz_f_n z).

Lemma n_cz_scale A f_y f u :
  n_cz_of (k ^ 2 * A) (s * f_y) (s * f) u = rmap ncz_scale (n_cz_of A f_y f u).
Proof.
  unfold n_cz_of. rewrite rdiv_same by lra. destruct (rdiv f_y f) as [q|]; [|reflexivity].
  cbn [bind]. destruct (rroot q) as [lc|]; [|reflexivity]. cbn [bind].
  unfold f_n_of. destruct (Rleb lc (3 / 2)); cbn [bind].
  - cbn [rmap]. unfold ncz_scale. cbn. do 2 f_equal; ring.
  - destruct (rdiv _ _) as [z|]; [|reflexivity]. cbn [bind rmap]. unfold ncz_scale. cbn.
    do 2 f_equal; ring.
Qed.

Lemma N_c_scale A kf l r f_y f_ref ab :
  s6_3_3_N_c (k ^ 2 * A) kf (k * l) (k * r) (s * f_y) (s * f_ref) ab
  = rmap (fun n => mk_nc (s * k ^ 2 * nc_N_c n) (nc_lambda_n n) (nc_alpha n))
      (s6_3_3_N_c A kf l r f_y f_ref ab).
Proof.
  unfold s6_3_3_N_c. replace (s6_3_3_lambda_n kf (k * l) (k * r) (s * f_y) (s * f_ref))
    with (s6_3_3_lambda_n kf l r f_y f_ref).
  - destruct (s6_3_3_lambda_n _ _ _ _ _) as [ln|]; [|reflexivity]. cbn [bind].
    destruct (s6_3_3_alpha_c _ _) as [a|]; [|reflexivity]. cbn [bind rmap nc_N_c nc_lambda_n nc_alpha].
    unfold s6_2_N_s, s6_2_A_e. do 2 f_equal. ring.
  - unfold s6_3_3_lambda_n. now rewrite !rdiv_same by lra.
Qed.

Lemma Nc_scale roots q l kx ky kz sym f_ref ab u phi cb ct :
  (cb = true -> ct = true -> symmetry sym <> Ok SymNone) ->
  s6_1_1_Nc roots (rescale k s q) (k * l) kx ky kz sym (s * f_ref) ab u phi cb ct
  = rmap (rescale_out (s * k ^ 2)) (s6_1_1_Nc roots q l kx ky kz sym f_ref ab u phi cb ct).
Proof.
  intros Hn. unfold s6_1_1_Nc, s6_3_2_l_e. set (c := s * k ^ 2).
  assert (Hc : 0 < c) by (unfold c; pos).
  replace (s6_2_N_s (s6_2_A_e (q_A_n (rescale k s q)) (q_k_f (rescale k s q))) (q_f_y (rescale k s q)))
    with (c * s6_2_N_s (s6_2_A_e (q_A_n q) (q_k_f q)) (q_f_y q))
    by (unfold s6_2_N_s, s6_2_A_e, rescale, c; cbn [q_A_n q_k_f q_f_y]; ring).
  set (Ns := s6_2_N_s _ _).
  replace (phi * (c * Ns)) with (c * (phi * Ns)) by ring.
  destruct cb; [|reflexivity].
  rewrite !Rmult_assoc.
  assert (SX : forall l r, s6_3_3_N_c (q_A_n (rescale k s q)) (q_k_f (rescale k s q)) (k * l) (k * r)
      (q_f_y (rescale k s q)) (s * f_ref) ab
      = rmap (fun n => mk_nc (c * nc_N_c n) (nc_lambda_n n) (nc_alpha n))
      (s6_3_3_N_c (q_A_n q) (q_k_f q) l r (q_f_y q) f_ref ab)).
  { intros. apply N_c_scale. }
  change (q_r_x (rescale k s q)) with (k * q_r_x q).
  change (q_r_y (rescale k s q)) with (k * q_r_y q).
  rewrite !SX. clear SX.
  destruct (s6_3_3_N_c _ _ (l * kx) _ _ _ _) as [bx|]; [|reflexivity]. cbn [bind rmap].
  destruct (s6_3_3_N_c _ _ (l * ky) _ _ _ _) as [b|]; [|reflexivity]. cbn [bind rmap nc_N_c].
  rewrite !pymin_scale by auto.
  assert (C : forall x, phi * (c * x) = c * (phi * x)) by (intros; ring). rewrite !C.
  rewrite !pymin_scale by auto.
  destruct ct; [|reflexivity].
  unfold s6_3_3_N_c_torsion. rewrite f_oc_scale by auto.
  destruct (f_oc _ _ _ _ _ _) as [f|]; [|reflexivity]. cbn [bind rmap].
  replace (s6_2_A_e (q_A_n (rescale k s q)) (q_k_f (rescale k s q)))
    with (k ^ 2 * s6_2_A_e (q_A_n q) (q_k_f q)) by (unfold s6_2_A_e, rescale; cbn; ring).
  change (q_f_y (rescale k s q)) with (s * q_f_y q). rewrite n_cz_scale.
  destruct (n_cz_of _ _ _ _) as [z|]; [|reflexivity]. cbn [bind rmap].
  unfold ncz_scale. cbn [cz_N_cz]. fold c. rewrite !pymin_scale by auto. rewrite !C.
  unfold rescale_out. cbn. reflexivity.
Qed.

(** * Bending *)

Lemma M_o_scale l I_y J I_w b E G :
  s5_6_1_M_o (k * l) (k ^ 4 * I_y) (k ^ 4 * J) (k ^ 6 * I_w) (k * b) (s * E) (s * G)
  = rmap (Rmult (s * k ^ 3)) (s5_6_1_M_o l I_y J I_w b E G).
Proof.
  unfold s5_6_1_M_o.
  replace (PI * PI * (s * E) * (k ^ 4 * I_y)) with (s * k ^ 4 * (PI * PI * E * I_y)) by ring.
  replace (PI * PI * (s * E) * (k ^ 6 * I_w)) with (s * k ^ 6 * (PI * PI * E * I_w)) by ring.
  replace (k * l * (k * l)) with (k ^ 2 * (l * l)) by ring.
  assert (0 < k ^ 2) by pos.
  rewrite (rdiv_scale (s * k ^ 2) (s * k ^ 4)) by nra.
  rewrite (rdiv_scale (s * k ^ 4) (s * k ^ 6)) by nra.
  destruct (rdiv (PI * PI * E * I_y) _) as [a|]; [|reflexivity]. cbn [bind rmap].
  destruct (rdiv (PI * PI * E * I_w) _) as [c|]; [|reflexivity]. cbn [bind rmap].
  assert (Sa : forall m x, 0 < m -> rroot (m * x) = rmap (Rmult (sqrt m)) (rroot x)).
  { intros m x Hm. rewrite <- rroot_scale by (now apply sqrt_lt_R0).
    now rewrite sqrt_sqrt by lra. }
  rewrite (Sa (s * k ^ 2)) by pos. destruct (rroot a) as [ra|] eqn:Ea; [|reflexivity].
  cbn [bind rmap].
  replace (s * G * (k ^ 4 * J) + s * k ^ 4 * c + k * b / 2 * (k * b / 2) * (s * k ^ 2 * a))
    with (s * k ^ 4 * (G * J + c + b / 2 * (b / 2) * a)) by field.
  rewrite Sa by pos. destruct (rroot (G * J + _ + _)) as [rb|]; [|reflexivity].
  cbn [bind rmap]. f_equal.
  rewrite !sqrt_mult_alt by lra.
  replace (k ^ 4) with ((k * k) * (k * k)) by ring. replace (k ^ 2) with (k * k) by ring.
  rewrite !sqrt_square by nra.
  assert (Ss := sqrt_sqrt s ltac:(lra)). set (t := sqrt s) in *.
  replace (t * k * ra * (t * (k * k) * rb + k * b / 2 * (t * k * ra)))
    with ((t * t) * k ^ 3 * (ra * (rb + b / 2 * ra))) by field.
  rewrite Ss. ring.
Qed.

Lemma alpha_s_same M_s M_o c : 0 < c -> s5_6_alpha_s (c * M_s) (c * M_o) = s5_6_alpha_s M_s M_o.
Proof. intros. unfold s5_6_alpha_s. now rewrite rdiv_same by lra. Qed.

Lemma alpha_v_same d t f lim f_ref :
  s5_11_5_alpha_v (k * d) (k * t) (s * f) lim (s * f_ref) = s5_11_5_alpha_v d t f lim f_ref.
Proof. unfold s5_11_5_alpha_v. now rewrite !rdiv_same by lra. Qed.

Lemma k_t_same d l tf tw n c :
  s5_6_3_k_t (k * d) (k * l) (k * tf) (k * tw) n c = s5_6_3_k_t d l tf tw n c.
Proof.
  unfold s5_6_3_k_t. replace (2 * (k * tw)) with (k * (2 * tw)) by ring.
  now rewrite !rdiv_same by lra.
Qed.
End Rescale.

Lemma factors_same k s : 0 < k -> 0 < s ->
  (forall M_s M_o, s5_6_alpha_s (s * k ^ 3 * M_s) (s * k ^ 3 * M_o) = s5_6_alpha_s M_s M_o)
  /\ (forall d t f_y lim f_ref,
        s5_11_5_alpha_v (k * d) (k * t) (s * f_y) lim (s * f_ref)
        = s5_11_5_alpha_v d t f_y lim f_ref)
  /\ (forall d l t_f t_w n code,
        s5_6_3_k_t (k * d) (k * l) (k * t_f) (k * t_w) n code = s5_6_3_k_t d l t_f t_w n code).
Proof.
  intros Hk Hs. split; [|split]; intros.
  - apply alpha_s_same. pos.
  - now apply alpha_v_same.
  - now apply k_t_same.
Qed.
