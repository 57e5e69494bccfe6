(** The torsional capacity [s6_3_3_N_c_torsion] in terms of the elastic buckling stress,
    and that stress by symmetry class. *)

From Coq Require Import Reals Lra Psatz List Bool String.
From Verif Require Import Base Num RNum PyReal Symmetry S6 S6Facts S6Torsion S6Unsym S6Length
  UnsymLength YieldFacts.
Import ListNotations.
Open Scope R_scope.

Lemma torsion_value roots q lx ly lz sym u z :
  0 < q_f_y q -> s6_3_3_N_c_torsion roots q lx ly lz sym u = Ok z ->
  let f_y := q_f_y q in let f := cz_f_oc z in
  0 < f /\ cz_lambda_c z = sqrt (f_y / f)
  /\ (f_y <= 9 / 4 * f -> cz_f_n z = f_y * Rpower (658 / 1000) (f_y / f))
  /\ (9 / 4 * f < f_y -> cz_f_n z = 877 / 1000 * f)
  /\ cz_N_cz z = u * (q_A_n q * q_k_f q) * cz_f_n z.
Proof.
  intros Hy H. cbv zeta. unfold s6_3_3_N_c_torsion in H. inv_bind H.
  pose proof (n_cz_of_pos _ _ _ _ _ Hy H) as Hf. rewrite n_cz_value in H by auto.
  injection H as <-. cbn [cz_f_oc cz_lambda_c cz_f_n cz_N_cz].
  split; auto. split; auto. rewrite fnv_by_ratio by auto.
  assert (R : q_f_y q / a <= 9 / 4 <-> q_f_y q <= 9 / 4 * a).
  { split; intros H.
    - apply (Rmult_le_compat_r a) in H; [|lra]. unfold Rdiv in H at 1.
      rewrite Rmult_assoc, Rinv_l in H by lra. lra.
    - apply Rmult_le_reg_r with a; auto. unfold Rdiv at 1.
      rewrite Rmult_assoc, Rinv_l by lra. lra. }
  split; [|split].
  - intros L. destruct (Rle_dec (q_f_y q / a) (9 / 4)) as [|C]; [field; lra|].
    exfalso. apply C. now apply R.
  - intros L. destruct (Rle_dec (q_f_y q / a) (9 / 4)) as [C|]; [|ring].
    exfalso. apply R in C. lra.
  - reflexivity.
Qed.

Lemma torsion_as_fnv roots q lx ly lz sym u z :
  0 < q_f_y q -> s6_3_3_N_c_torsion roots q lx ly lz sym u = Ok z ->
  0 < cz_f_oc z
  /\ n_cz_of (s6_2_A_e (q_A_n q) (q_k_f q)) (q_f_y q) (cz_f_oc z) u = Ok z.
Proof.
  intros Hy H. unfold s6_3_3_N_c_torsion in H. inv_bind H.
  pose proof (n_cz_of_pos _ _ _ _ _ Hy H) as Hf. pose proof H as H0.
  rewrite n_cz_value in H0 by auto. injection H0 as <-. cbn [cz_f_oc]. auto.
Qed.

Lemma torsion_range roots q lx ly lz sym u z :
  0 < q_A_n q -> 0 < q_k_f q -> 0 < q_f_y q -> 0 < u ->
  s6_3_3_N_c_torsion roots q lx ly lz sym u = Ok z ->
  0 < cz_N_cz z <= u * (q_A_n q * q_k_f q) * q_f_y q.
Proof.
  intros HA Hk Hy Hu H. destruct (torsion_as_fnv _ _ _ _ _ _ _ _ Hy H) as [Hf E].
  destruct (n_cz_facts (s6_2_A_e (q_A_n q) (q_k_f q)) (q_f_y q) (cz_f_oc z) u) as (z' & E' & B); auto.
  - unfold s6_2_A_e. pos.
  - rewrite E in E'. injection E' as <-. exact B.
Qed.

Lemma torsion_mono roots q lx ly lz sym roots' q' lx' ly' lz' sym' u z z' :
  0 < q_A_n q -> 0 < q_k_f q -> 0 < q_f_y q -> 0 < u ->
  q_A_n q' = q_A_n q -> q_k_f q' = q_k_f q -> q_f_y q' = q_f_y q ->
  s6_3_3_N_c_torsion roots q lx ly lz sym u = Ok z ->
  s6_3_3_N_c_torsion roots' q' lx' ly' lz' sym' u = Ok z' ->
  cz_f_oc z <= cz_f_oc z' -> cz_N_cz z <= cz_N_cz z'.
Proof.
  intros HA Hk Hy Hu EA Ek Ef H H' L.
  destruct (torsion_as_fnv _ _ _ _ _ _ _ _ Hy H) as [Hf E].
  destruct (torsion_as_fnv roots' q' lx' ly' lz' sym' u z') as [Hf' E']; auto; [lra|].
  rewrite EA, Ek, Ef in E'.
  eapply n_cz_mono; [..|exact E|exact E']; auto. unfold s6_2_A_e. pos.
Qed.

(** The jump: at f_y = 2.25 f_oc the first formula gives more than the second does beyond. *)
Lemma torsion_switch roots q lx ly lz sym roots' q' lx' ly' lz' sym' u z z' :
  0 < q_A_n q -> 0 < q_k_f q -> 0 < q_f_y q -> 0 < u ->
  q_A_n q' = q_A_n q -> q_k_f q' = q_k_f q ->
  s6_3_3_N_c_torsion roots q lx ly lz sym u = Ok z ->
  s6_3_3_N_c_torsion roots' q' lx' ly' lz' sym' u = Ok z' ->
  cz_f_oc z' = cz_f_oc z -> q_f_y q = 9 / 4 * cz_f_oc z -> 9 / 4 * cz_f_oc z < q_f_y q' ->
  999 / 1000 * cz_N_cz z < cz_N_cz z' < cz_N_cz z.
Proof.
  intros HA Hk Hy Hu EA Ek H H' EF E1 L.
  destruct (torsion_value _ _ _ _ _ _ _ _ Hy H) as (Hf & _ & V & _ & N).
  destruct (torsion_value roots' q' lx' ly' lz' sym' u z') as (_ & _ & _ & V' & N'); auto; [lra|].
  rewrite N, N', EA, Ek, V, V', EF by lra. rewrite E1.
  replace (9 / 4 * cz_f_oc z / cz_f_oc z) with (3 / 2 * (3 / 2)) by (field; lra).
  pose proof Rpower_658_switch as S. set (p := Rpower (658 / 1000) (3 / 2 * (3 / 2))) in *.
  assert (K : 0 < u * (q_A_n q * q_k_f q)) by pos.
  set (k := u * (q_A_n q * q_k_f q)) in *. clearbody k p.
  replace (999 / 1000 * (k * (9 / 4 * cz_f_oc z * p))) with (k * (cz_f_oc z * (999 / 1000 * (9 / 4) * p))) by ring.
  replace (k * (9 / 4 * cz_f_oc z * p)) with (k * (cz_f_oc z * (9 / 4 * p))) by ring.
  replace (877 / 1000 * cz_f_oc z) with (cz_f_oc z * (877 / 1000)) by ring.
  split; (apply Rmult_lt_compat_l; [auto|]; apply Rmult_lt_compat_l; [auto|lra]).
Qed.

(** * The elastic stress by symmetry class *)

(** [f] is the coupled flexural-torsional stress: the root of
    β f² - (f_b + f_z) f + f_b f_z = 0 that does not exceed either pure mode. *)
Definition coupled (beta f_b f_z f : R) : Prop :=
  beta * f ^ 2 - (f_b + f_z) * f + f_b * f_z = 0 /\ 0 < f /\ f <= f_b /\ f <= f_z.

Lemma coupled_unique beta b z f g : 0 < beta <= 1 ->
  coupled beta b z f -> coupled beta b z g -> f = g.
Proof.
  unfold coupled. intros Hb (E & F0 & F1 & F2) (E' & G0 & G1 & G2).
  assert (Z : (f - g) * (beta * (f + g) - (b + z)) = 0) by nra.
  apply Rmult_integral in Z as [Z|Z]; [lra|].
  assert (beta * (f + g) <= f + g) by nra.
  assert (f = b) by lra. lra.
Qed.

Lemma f_oxz_coupled A l_ex l_ez r_x r_y x_o y_o J I_w E G r :
  0 < A -> 0 < l_ex -> 0 < l_ez -> 0 < r_x -> 0 < J -> 0 <= I_w -> 0 < E -> 0 < G ->
  f_oxz A l_ex l_ez r_x r_y x_o y_o J I_w E G = Ok r ->
  let ro2 := r_x ^ 2 + r_y ^ 2 + x_o ^ 2 + y_o ^ 2 in
  coupled (1 - x_o ^ 2 / ro2) (fe E l_ex r_x) (ft A l_ez ro2 J I_w E G) (fx_f_oxz r).
Proof.
  intros. destruct (f_oxz_facts A l_ex l_ez r_x r_y x_o y_o J I_w E G)
    as (r' & E' & _ & _ & _ & _ & P & M & Q & _); auto.
  rewrite H7 in E'. injection E' as <-.
  unfold coupled. split; [exact Q|]. split; [exact P|].
  split; (eapply Rle_trans; [exact M|]); [apply Rmin_l|apply Rmin_r].
Qed.

Lemma torsion_stress roots q lx ly lz sym u z :
  sect_ok q -> 0 < lx -> 0 < ly -> 0 < lz ->
  s6_3_3_N_c_torsion roots q lx ly lz sym u = Ok z ->
  let ro2 := q_r_x q ^ 2 + q_r_y q ^ 2 + q_x_o q ^ 2 + q_y_o q ^ 2 in
  let f_x := fe (q_E q) lx (q_r_x q) in
  let f_y := fe (q_E q) ly (q_r_y q) in
  let f_z := ft (q_A_n q) lz ro2 (q_J q) (q_I_w q) (q_E q) (q_G q) in
  let f := cz_f_oc z in
  match symmetry sym with
  | Ok SymPoint => f = f_z
  | Ok SymDouble => coupled (1 - q_x_o q ^ 2 / ro2) f_x f_z f
  | Ok SymSingle =>
      if axis_is "x" (hd (AxAngle 0) (match sym with Some l => l | None => [] end))
      then coupled (1 - q_x_o q ^ 2 / ro2) f_x f_z f
      else coupled (1 - q_y_o q ^ 2 / ro2) f_y f_z f
  | Ok SymNone => correct_roots roots ->
      let p := code_cubic f_x f_y f_z ro2 (q_x_o q ^ 2) (q_y_o q ^ 2) in
      0 < f /\ p f = 0 /\ forall g, 0 <= g -> p g = 0 -> f <= g
  | Err _ => False
  end.
Proof.
  intros (HA & Hk & Hx & Hy & HJ & Hw & Hf & HE & HG) Px Py Pz H. cbv zeta.
  unfold s6_3_3_N_c_torsion in H. inv_bind H.
  assert (Ef : cz_f_oc z = a).
  { pose proof (n_cz_of_pos _ _ _ _ _ Hf H). rewrite n_cz_value in H by auto. now injection H as <-. }
  rewrite Ef. clear Ef H. unfold f_oc in E.
  destruct (symmetry sym) as [c|] eqn:Es; [|discriminate]. cbn [bind] in E. destruct c.
  - intros HR. eapply unsym_ok; [..|exact E]; auto. now apply roots_here.
  - unfold f_oc_double_symmetric in E. inv_bind E. inv_bind E. injection E as <-.
    pose proof (f_oxz_coupled _ _ _ _ _ _ _ _ _ _ _ _ HA Px Pz Hx HJ Hw HE HG E0) as C.
    cbv zeta in C. rewrite pymin_R. rewrite f_torsion_value in E1 by auto. injection E1 as <-.
    rewrite Rmin_left; [exact C|]. apply C.
  - unfold f_oc_point_symmetric in E. rewrite f_torsion_value in E by auto. now injection E as <-.
  - unfold f_oc_single_symmetric in E. inv_bind E. destruct sym as [[|b [|? ?]]|]; try discriminate.
    cbn [hd]. destruct (axis_is "x" b); inv_bind E; injection E as <-.
    + exact (f_oxz_coupled _ _ _ _ _ _ _ _ _ _ _ _ HA Px Pz Hx HJ Hw HE HG E1).
    + pose proof (f_oxz_coupled _ _ _ _ _ _ _ _ _ _ _ _ HA Py Pz Hy HJ Hw HE HG E1) as C.
      cbv zeta in C.
      replace (q_r_y q ^ 2 + q_r_x q ^ 2 + q_y_o q ^ 2 + q_x_o q ^ 2)
        with (q_r_x q ^ 2 + q_r_y q ^ 2 + q_x_o q ^ 2 + q_y_o q ^ 2) in C by ring.
      exact C.
Qed.

(** * The flexural capacity in closed form *)

Lemma N_c_value A_n k_f l r f_y f_ref ab n :
  0 < k_f -> 0 < r -> 0 < f_y -> 0 < f_ref ->
  s6_3_3_N_c A_n k_f l r f_y f_ref ab = Ok n ->
  nc_lambda_n n = l / r * sqrt k_f * sqrt (f_y / f_ref)
  /\ s6_3_3_alpha_c (nc_lambda_n n) ab = Ok (nc_alpha n)
  /\ nc_N_c n = A_n * k_f * f_y * ac_alpha_c (nc_alpha n).
Proof.
  intros Hk Hr Hf Hrf H. unfold s6_3_3_N_c in H.
  rewrite lambda_n_value in H by lra. cbn [bind] in H. inv_bind H. injection H as <-.
  cbn [nc_lambda_n nc_alpha nc_N_c]. auto.
Qed.
