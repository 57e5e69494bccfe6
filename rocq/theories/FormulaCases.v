(** Concrete members used by [P_Formulas] and [P_S6]. *)

From Coq Require Import Reals Lra Psatz List Bool String.
From Verif Require Import Base Num RNum PyReal Symmetry S6 S6Facts S6Torsion S6Unsym S6Length
  S6Cases UnsymLength YieldCells YieldFacts UnitFacts.
Import ListNotations.
Open Scope R_scope.

(** A stocky member fails by the torsional mode: flexural buckling does not reduce the
    section capacity up to λ_n = 13.5, the torsional mode has the factor u <= 1. *)
Lemma stocky_N_c A_n k_f l r f_y f_ref :
  0 < k_f -> 0 < l -> 0 < r -> 0 < f_y -> 0 < f_ref ->
  l / r * sqrt k_f * sqrt (f_y / f_ref) <= 27 / 2 ->
  exists n, s6_3_3_N_c A_n k_f l r f_y f_ref 0 = Ok n /\ nc_N_c n = A_n * k_f * f_y.
Proof.
  intros Hk Hl Hr Hf Hrf H.
  unfold s6_3_3_N_c. rewrite lambda_n_value by lra. cbn [bind].
  set (x := l / r * sqrt k_f * sqrt (f_y / f_ref)) in *.
  assert (P : 0 < x) by (unfold x; pos).
  assert (L : lam x 0 = x) by (unfold lam; ring).
  destruct (alpha_c_facts x 0) as (a & E & _ & _ & I & _); [lra|].
  rewrite E. cbn [bind]. eexists. split; [reflexivity|]. cbn [nc_N_c].
  unfold s6_2_N_s, s6_2_A_e.
  assert (ac_alpha_c a = 1) as -> by (apply I; fold (dd x); fold (lam x 0); lra). ring.
Qed.

Lemma stocky_Nc roots q l kx ky kz sym f_ref u phi f :
  sect_ok q -> 0 < l -> 0 < kx -> 0 < ky -> 0 < f_ref -> 0 < u <= 1 ->
  l * kx / q_r_x q * sqrt (q_k_f q) * sqrt (q_f_y q / f_ref) <= 27 / 2 ->
  l * ky / q_r_y q * sqrt (q_k_f q) * sqrt (q_f_y q / f_ref) <= 27 / 2 ->
  f_oc roots q (l * kx) (l * ky) (l * kz) sym = Ok f -> 0 < f ->
  exists o, s6_1_1_Nc roots q l kx ky kz sym f_ref 0 u phi true true = Ok o
  /\ o_N_c o = u * (q_A_n q * q_k_f q) * fnv (q_f_y q) (sqrt (q_f_y q / f)).
Proof.
  intros (HA & Hk & Hx & Hy & HJ & Hw & Hf & HE & HG) Hl Kx Ky Hrf Hu Bx By H Pf.
  destruct (stocky_N_c (q_A_n q) (q_k_f q) (l * kx) (q_r_x q) (q_f_y q) f_ref) as (nx & Ex & Vx);
    auto; [pos|].
  destruct (stocky_N_c (q_A_n q) (q_k_f q) (l * ky) (q_r_y q) (q_f_y q) f_ref) as (ny & Ey & Vy);
    auto; [pos|].
  unfold s6_1_1_Nc, s6_3_2_l_e. rewrite Ex, Ey. cbn [bind].
  unfold s6_3_3_N_c_torsion. rewrite H. cbn [bind]. rewrite n_cz_value by auto. cbn [bind].
  eexists. split; [reflexivity|]. cbn [o_N_c cz_N_cz]. rewrite !pymin_R, Vx, Vy.
  unfold s6_2_N_s, s6_2_A_e.
  pose proof (fnv_le (q_f_y q) (sqrt (q_f_y q / f)) Hf) as U.
  pose proof (fnv_pos (q_f_y q) (sqrt (q_f_y q / f)) Hf) as P0.
  set (v := fnv _ _) in *. set (n := q_A_n q * q_k_f q).
  assert (Pn : 0 < n) by (unfold n; pos).
  assert (u * n * v <= n * q_f_y q).
  { replace (u * n * v) with (n * (u * v)) by ring. apply Rmult_le_compat_l; [lra|]. nra. }
  unfold Rmin. repeat destruct (Rle_dec _ _); lra.
Qed.

(** * A longer member with a larger capacity: no symmetry, offsets x_o = y_o = 4 *)

Definition wide : sect6 := mk_sect6 1 1 1 1 4 4 34 0 1 128 1.
Lemma wide_ok : sect_ok wide.
Proof. unfold sect_ok, wide. cbn. lra. Qed.

Lemma wide_fe c : 0 < c -> fe 128 (c * PI * 1) 1 = 128 / (c * c).
Proof. intros. unfold fe. pose proof PI_RGT_0. field. lra. Qed.
Lemma wide_ft l : 0 < l -> ft 1 l (1 ^ 2 + 1 ^ 2 + 4 ^ 2 + 4 ^ 2) 34 0 128 1 = 1.
Proof. intros. unfold ft. field. lra. Qed.

Lemma wide_short roots : correct_roots roots ->
  exists f, f_oc roots wide (2 * PI * 1) (2 * PI * 1) (2 * PI * 1) (Some []) = Ok f /\ 0 < f < 1.
Proof.
  intros HR. pose proof PI_RGT_0 as PP. change (f_oc roots wide (2 * PI * 1) (2 * PI * 1) (2 * PI * 1) (Some []))
    with (f_oc_unsymmetric roots 1 (2 * PI * 1) (2 * PI * 1) (2 * PI * 1) 1 1 4 4 34 0 128 1).
  destruct (unsym_real 1 (2 * PI * 1) (2 * PI * 1) (2 * PI * 1) 1 1 4 4 34 0 128 1) with (roots := roots) (F := 1)
    as (f & E & P); auto; try lra.
  - rewrite wide_fe, wide_ft by lra. unfold code_cubic. lra.
  - right. rewrite wide_fe, wide_ft by lra. lra.
  - exists f. split; auto. split; [lra|]. destruct (proj2 P) as [|Z]; auto. exfalso.
    destruct (unsym_ok 1 (2 * PI * 1) (2 * PI * 1) (2 * PI * 1) 1 1 4 4 34 0 128 1) with (roots := roots) (f := f)
      as (_ & Q & _); auto; try lra.
    { apply roots_here; auto; lra. }
    rewrite wide_fe, wide_ft in Q by lra. rewrite Z in Q. unfold code_cubic in Q. lra.
Qed.

Lemma wide_long roots : correct_roots roots ->
  f_oc roots wide (4 * PI * 1) (4 * PI * 1) (4 * PI * 1) (Some []) = Ok 1.
Proof.
  intros HR. pose proof PI_RGT_0 as PP. change (f_oc roots wide (4 * PI * 1) (4 * PI * 1) (4 * PI * 1) (Some []))
    with (f_oc_unsymmetric roots 1 (4 * PI * 1) (4 * PI * 1) (4 * PI * 1) 1 1 4 4 34 0 128 1).
  destruct (unsym_real 1 (4 * PI * 1) (4 * PI * 1) (4 * PI * 1) 1 1 4 4 34 0 128 1) with (roots := roots) (F := 1)
    as (f & E & P); auto; try lra.
  - rewrite wide_fe, wide_ft by lra. unfold code_cubic. lra.
  - right. rewrite wide_fe, wide_ft by lra. lra.
  - rewrite E. f_equal.
    destruct (unsym_ok 1 (4 * PI * 1) (4 * PI * 1) (4 * PI * 1) 1 1 4 4 34 0 128 1) with (roots := roots) (f := f)
      as (_ & Q & _); auto; try lra.
    { apply roots_here; auto; lra. }
    rewrite wide_fe, wide_ft in Q by lra.
    assert (Z : (f - 1) * (34 * (f - 8) ^ 2 - 256 * f ^ 2) = 0).
    { rewrite <- Q. unfold code_cubic. field. }
    apply Rmult_integral in Z as [Z|Z]; [lra|]. nra.
Qed.

Lemma longer_stronger roots : correct_roots roots ->
  exists o o',
  s6_1_1_Nc roots wide (2 * PI) 1 1 1 (Some []) 4 0 (85 / 100) (9 / 10) true true = Ok o
  /\ s6_1_1_Nc roots wide (4 * PI) 1 1 1 (Some []) 4 0 (85 / 100) (9 / 10) true true = Ok o'
  /\ o_N_c o < o_N_c o'.
Proof.
  intros HR. pose proof PI_RGT_0 as PP. pose proof PI_4 as P4.
  destruct (wide_short roots HR) as (f & E & P). pose proof (wide_long roots HR) as E'.
  assert (S : sqrt (1 / 4) = 1 / 2).
  { replace (1 / 4) with (1 / 2 * (1 / 2)) by field. apply sqrt_square. lra. }
  destruct (stocky_Nc roots wide (2 * PI) 1 1 1 (Some []) 4 (85 / 100) (9 / 10) f) as (o & Eo & V);
    auto using wide_ok; try lra;
    try (cbn [wide q_r_x q_r_y q_k_f q_f_y]; rewrite S, sqrt_1; lra).
  destruct (stocky_Nc roots wide (4 * PI) 1 1 1 (Some []) 4 (85 / 100) (9 / 10) 1) as (o' & Eo' & V');
    auto using wide_ok; try lra;
    try (cbn [wide q_r_x q_r_y q_k_f q_f_y]; rewrite S, sqrt_1; lra).
  exists o, o'. split; auto. split; auto. rewrite V, V'. cbn [wide q_A_n q_k_f q_f_y].
  rewrite !fnv_by_ratio by lra.
  assert (Q : 1 < 1 / f).
  { apply Rmult_lt_reg_r with f; [lra|]. replace (1 / f * f) with 1 by (field; lra). lra. }
  assert (T : Rpower (658 / 1000) (1 / 1) = 658 / 1000).
  { replace (1 / 1) with 1 by field. apply Rpower_1. lra. }
  destruct (Rle_dec (1 / 1) (9 / 4)) as [_|C]; [|lra]. rewrite T.
  destruct (Rle_dec (1 / f) (9 / 4)) as [C|C].
  - assert (Rpower (658 / 1000) (1 / f) < Rpower (658 / 1000) 1).
    { unfold Rpower. apply exp_increasing. pose proof ln_658. nra. }
    rewrite Rpower_1 in H by lra.
    replace (f * (1 / f * Rpower (658 / 1000) (1 / f))) with (Rpower (658 / 1000) (1 / f)) by (field; lra).
    lra.
  - assert (f < 4 / 9).
    { apply Rmult_lt_reg_r with (1 / f); [lra|]. replace (f * (1 / f)) with 1 by (field; lra). lra. }
    lra.
Qed.

(** * A higher yield stress with a lower capacity: f_y = 2.25 f_oc and 2.26 f_oc *)

Definition cruciform : sect6 :=
  mk_sect6 (1 / 1000) 1 (1 / 20) (1 / 20) 0 0 (1 / 80e6) 0 450e6 200e9 80e9.
Lemma cruciform_ok : sect_ok cruciform.
Proof. unfold sect_ok, cruciform. cbn. lra. Qed.

Lemma cruciform_f_oc roots f l :
  0 < l -> f_oc roots (with_f_y cruciform f) l l l (Some [AxStr "point"]) = Ok 200e6.
Proof.
  intros Hl. cbn [f_oc symmetry bind].
  change (f_oc_point_symmetric (1 / 1000) l (1 / 20) (1 / 20) 0 0 (1 / 80e6) 0 200e9 80e9 = Ok 200e6).
  unfold f_oc_point_symmetric. rewrite f_torsion_value by lra. f_equal. field. lra.
Qed.

Lemma stronger_steel_weaker roots : exists o o',
  s6_1_1_Nc roots cruciform (1 / 10) 1 1 1 (Some [AxStr "point"]) 250e6 0 (85 / 100) (9 / 10) true true = Ok o
  /\ s6_1_1_Nc roots (with_f_y cruciform 452e6) (1 / 10) 1 1 1 (Some [AxStr "point"]) 250e6 0 (85 / 100) (9 / 10) true true = Ok o'
  /\ o_N_c o' < o_N_c o.
Proof.
  assert (B : forall x, 0 < x <= 452e6 -> sqrt (x / 250e6) <= 2).
  { intros x Hx. rewrite <- (sqrt_square 2) by lra. apply sqrt_le_1_alt. lra. }
  pose proof (B 450e6 ltac:(lra)) as B1. pose proof (B 452e6 ltac:(lra)) as B2.
  change cruciform with (with_f_y cruciform 450e6) at 1.
  assert (K : forall f, 0 < f -> sect_ok (with_f_y cruciform f)).
  { intros f Hf. unfold sect_ok, with_f_y, cruciform. cbn. lra. }
  destruct (stocky_Nc roots (with_f_y cruciform 450e6) (1 / 10) 1 1 1 (Some [AxStr "point"]) 250e6 (85 / 100)
    (9 / 10) 200e6) as (o & Eo & V); try lra;
    try (cbn [with_f_y cruciform q_r_x q_r_y q_k_f q_f_y]; rewrite sqrt_1; lra).
  { apply K. lra. } { apply cruciform_f_oc. lra. }
  destruct (stocky_Nc roots (with_f_y cruciform 452e6) (1 / 10) 1 1 1 (Some [AxStr "point"]) 250e6 (85 / 100)
    (9 / 10) 200e6) as (o' & Eo' & V'); try lra;
    try (cbn [with_f_y cruciform q_r_x q_r_y q_k_f q_f_y]; rewrite sqrt_1; lra).
  { apply K. lra. } { apply cruciform_f_oc. lra. }
  exists o, o'. split; auto. split; auto. rewrite V, V'.
  cbn [with_f_y cruciform q_A_n q_k_f q_f_y]. rewrite !fnv_by_ratio by lra.
  destruct (Rle_dec (450e6 / 200e6) (9 / 4)) as [_|C]; [|lra].
  destruct (Rle_dec (452e6 / 200e6) (9 / 4)) as [C|_]; [lra|].
  pose proof Rpower_658_switch as S. replace (3 / 2 * (3 / 2)) with (450e6 / 200e6) in S by field. lra.
Qed.

Lemma stronger_steel_refuted roots : exists o o',
  s6_1_1_Nc roots cruciform (1 / 10) 1 1 1 (Some [AxStr "point"]) 250e6 0 (85 / 100) (9 / 10) true true = Ok o
  /\ s6_1_1_Nc roots (with_f_y cruciform 452e6) (1 / 10) 1 1 1 (Some [AxStr "point"]) 250e6 0
       (85 / 100) (9 / 10) true true = Ok o'
  /\ q_f_y cruciform = 450e6 /\ o_N_c o' < o_N_c o.
Proof. destruct (stronger_steel_weaker roots) as (o & o' & A & B & C). exists o, o'. auto. Qed.

(** * An unequal angle in metres and in millimetres *)

Definition angle : sect6 :=
  mk_sect6 (1 / 1000) 1 (1 / 40) (1 / 40) (2 / 100) (3 / 100) (51 / 128e8) 0 250e6 200e9 80e9.
Lemma angle_ok : sect_ok angle.
Proof. unfold sect_ok, angle. cbn. lra. Qed.

Lemma angle_in_m roots : correct_roots roots -> exists f,
  f_oc roots angle (PI * 1) (PI * 1) (PI * 1) (Some []) = Ok f /\ 0 < f.
Proof.
  intros HR. pose proof PI_RGT_0 as PP.
  change (f_oc roots angle (PI * 1) (PI * 1) (PI * 1) (Some []))
    with (f_oc_unsymmetric roots (1 / 1000) (PI * 1) (PI * 1) (PI * 1) (1 / 40) (1 / 40) (2 / 100) (3 / 100)
            (51 / 128e8) 0 200e9 80e9).
  assert (F : fe 200e9 (PI * 1) (1 / 40) = 125e6) by (unfold fe; field; lra).
  assert (T : ft (1 / 1000) (PI * 1) ((1 / 40) ^ 2 + (1 / 40) ^ 2 + (2 / 100) ^ 2 + (3 / 100) ^ 2)
                (51 / 128e8) 0 200e9 80e9 = 125e6) by (unfold ft; field; lra).
  destruct (unsym_real (1 / 1000) (PI * 1) (PI * 1) (PI * 1) (1 / 40) (1 / 40) (2 / 100) (3 / 100)
            (51 / 128e8) 0 200e9 80e9) with (roots := roots) (F := 75e6) as (f & E & P); auto; try lra.
  - rewrite F, T. unfold code_cubic. lra.
  - exists f. split; [auto|lra].
Qed.

Lemma angle_in_mm roots f : correct_roots roots ->
  f_oc roots (rescale 1000 (1 / 1000000) angle) (1000 * PI * 1) (1000 * PI * 1) (1000 * PI * 1) (Some [])
  <> Ok f.
Proof.
  intros HR H. pose proof PI_RGT_0 as PP. unfold f_oc in H. cbn [symmetry List.length Nat.eqb bind] in H.
  unfold rescale, angle in H. cbn [q_A_n q_k_f q_r_x q_r_y q_x_o q_y_o q_J q_I_w q_f_y q_E q_G] in H.
  set (A := 1000 ^ 2 * (1 / 1000)) in H. set (r := 1000 * (1 / 40)) in H.
  set (xo := 1000 * (2 / 100)) in H. set (yo := 1000 * (3 / 100)) in H.
  set (J := 1000 ^ 4 * (51 / 128e8)) in H. set (Iw := 1000 ^ 6 * 0) in H.
  set (E := 1 / 1000000 * 200e9) in H. set (G := 1 / 1000000 * 80e9) in H.
  set (l := 1000 * PI * 1) in H.
  assert (Hl : 0 < l) by (unfold l; lra).
  destruct (unsym_ok A l l l r r xo yo J Iw E G) with (roots := roots) (f := f) as (P & Q & _);
    try (unfold A, r, xo, yo, J, Iw, E, G; lra); auto.
  { apply roots_here; auto; unfold A, r, xo, yo, J, Iw, E, G; lra. }
  assert (F : fe E l r = 125) by (unfold fe, E, l, r; field; lra).
  assert (T : ft A l (r ^ 2 + r ^ 2 + xo ^ 2 + yo ^ 2) J Iw E G = 125)
    by (unfold ft, A, l, r, xo, yo, J, Iw, E, G; field; lra).
  rewrite F, T in Q. rewrite code_cubic_form in Q.
  replace (xo ^ 2) with 400 in Q by (unfold xo; lra). replace (yo ^ 2) with 900 in Q by (unfold yo; lra).
  replace (r ^ 2) with 625 in Q by (unfold r; lra).
  assert (Q' : 2550 * (f - 125) ^ 3 = f ^ 2 * (360000 * f - 162500)) by lra.
  destruct (Rle_lt_dec f 1) as [C|C].
  - assert ((f - 125) ^ 3 <= - 1000000).
    { replace ((f - 125) ^ 3) with (- (125 - f) ^ 3) by ring.
      assert (100 ^ 3 <= (125 - f) ^ 3) by (apply pow_incr; lra). lra. }
    assert (0 <= f ^ 2 <= 1) by nra. nra.
  - assert (0 < f ^ 2 * (360000 * f - 162500)) by (apply Rmult_lt_0_compat; nra).
    destruct (Rle_lt_dec f 125) as [D|D].
    + assert (0 <= (125 - f) ^ 3) by (apply pow_le; lra).
      replace ((f - 125) ^ 3) with (- (125 - f) ^ 3) in Q' by ring. lra.
    + assert ((f - 125) ^ 3 <= f ^ 3) by (apply pow_incr; lra).
      assert (f ^ 2 * (360000 * f - 162500) = 360000 * f ^ 3 - 162500 * f ^ 2) by ring.
      assert (f ^ 2 <= f ^ 3) by (replace (f ^ 3) with (f * f ^ 2) by ring; nra).
      assert (0 < f ^ 3) by (apply pow_lt; lra). lra.
Qed.

Lemma angle_units roots : correct_roots roots ->
  (exists o, s6_1_1_Nc roots angle PI 1 1 1 (Some []) 250e6 0 (85 / 100) (9 / 10) true true = Ok o)
  /\ forall o, s6_1_1_Nc roots (rescale 1000 (1 / 1000000) angle) (1000 * PI) 1 1 1 (Some [])
                 (1 / 1000000 * 250e6) 0 (85 / 100) (9 / 10) true true <> Ok o.
Proof.
  intros HR. pose proof PI_RGT_0 as PP. split.
  - destruct (angle_in_m roots HR) as (f & E & P).
    assert (L : forall x, 0 < x -> lam x 0 <> 0) by (intros; unfold lam; lra).
    unfold s6_1_1_Nc, s6_3_2_l_e, s6_3_3_N_c.
    rewrite !lambda_n_value by (cbn; lra). cbn [bind].
    rewrite !alpha_c_value by (apply L; unfold angle; cbn [q_r_x q_r_y q_k_f q_f_y]; pos).
    cbn [bind]. unfold s6_3_3_N_c_torsion. rewrite E. cbn [bind].
    rewrite n_cz_value; auto; [|cbn; lra]. cbn [bind]. eauto.
  - intros o H. unfold s6_1_1_Nc, s6_3_2_l_e in H. inv_bind H. inv_bind H. inv_bind H.
    unfold s6_3_3_N_c_torsion in E1. inv_bind E1. now apply (angle_in_mm roots a2 HR) in E2.
Qed.

Lemma torsion_cases roots :
  (exists z, s6_3_3_N_c_torsion roots channel 3 3 3 (Some [AxStr "x"]) (85 / 100) = Ok z)
  /\ exists z, s6_3_3_N_c_torsion roots cruciform 1 1 1 (Some [AxStr "point"]) (85 / 100) = Ok z
      /\ q_f_y cruciform = 9 / 4 * cz_f_oc z.
Proof.
  split.
  - destruct (f_oc_defined roots channel 3 3 3 (Some [AxStr "x"]) SymSingle) as (f & E & P);
      auto using channel_ok; try lra; try reflexivity; try discriminate.
    unfold s6_3_3_N_c_torsion. rewrite E. cbn [bind]. rewrite n_cz_value; eauto. cbn. lra.
  - unfold s6_3_3_N_c_torsion. change cruciform with (with_f_y cruciform 450e6).
    rewrite cruciform_f_oc by lra. cbn [bind]. rewrite n_cz_value; [|cbn; lra|lra].
    eexists. split; [reflexivity|]. cbn. lra.
Qed.

(** The channel of C63 with a negative section constant. *)
Lemma channel_tempered roots l ab f : 0 < l -> -1 <= ab <= 0 -> 0 < f -> exists o,
  s6_1_1_Nc roots (with_f_y channel f) l 1 1 1 (Some [AxStr "x"]) 250e6 ab (85 / 100) (9 / 10)
    true true = Ok o.
Proof.
  intros Hl Hb Hf. apply Nc_defined with (c := SymSingle); try lra; try reflexivity; try discriminate.
  - unfold sect_ok, with_f_y, channel. cbn. lra.
  - intros k r H ln. apply Rgt_not_eq. apply (lam_positive ln ab); auto. unfold ln.
    cbn [with_f_y channel q_k_f q_f_y q_r_x q_r_y] in *.
    assert (0 < k / r).
    { destruct H as [H|H]; injection H as -> ->; lra. }
    replace (l * k / r) with (l * (k / r)) by (unfold Rdiv; ring).
    assert (0 < sqrt 1) by (rewrite sqrt_1; lra).
    assert (0 < sqrt (f / 250e6)) by (apply sqrt_lt_R0; lra).
    apply Rmult_lt_0_compat; auto. apply Rmult_lt_0_compat; auto. apply Rmult_lt_0_compat; auto.
Qed.
