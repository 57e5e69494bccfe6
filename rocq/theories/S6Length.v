(** A longer member never has a larger capacity: [s6_1_1_Nc]. *)

From Coq Require Import Reals Lra Psatz List Bool String.
From Verif Require Import Base Num RNum PyReal Symmetry S6 S6Facts S6Torsion S6Unsym.
Import ListNotations.
Open Scope R_scope.

(** The smaller root of β f² - (p + q) f + p q grows with p and q. *)
Lemma quad_mono beta p q p' q' v v' :
  0 < beta <= 1 -> 0 < p -> 0 < q -> p <= p' -> q <= q' ->
  0 < v -> v <= p -> v <= q -> beta * v ^ 2 - (p + q) * v + p * q = 0 ->
  0 < v' -> v' <= p' -> v' <= q' -> beta * v' ^ 2 - (p' + q') * v' + p' * q' = 0 ->
  v <= v'.
Proof.
  intros Hb Hp Hq Lp Lq V V1 V2 E V' V1' V2' E'.
  destruct (Rle_lt_dec v v') as [|L]; auto. exfalso.
  assert (A : (p - v) * (q - v) = (1 - beta) * (v * v)) by lra.
  assert (A' : (p' - v') * (q' - v') = (1 - beta) * (v' * v')) by lra.
  assert (B : (p - v) * (q - v) <= (p' - v) * (q' - v)) by (apply Rmult_le_compat; lra).
  assert (C : (p' - v) * (q' - v) < (p' - v') * (q' - v')).
  { apply Rle_lt_trans with ((p' - v) * (q' - v')).
    - apply Rmult_le_compat_l; lra.
    - apply Rmult_lt_compat_r; lra. }
  assert (D : (1 - beta) * (v' * v') <= (1 - beta) * (v * v)).
  { apply Rmult_le_compat_l; [lra|]. nra. }
  lra.
Qed.

Lemma fe_anti E l l' r : 0 < E -> 0 < r -> 0 < l -> l <= l' -> fe E l' r <= fe E l r.
Proof.
  intros. unfold fe.
  assert (0 < l / r) by pos. assert (l / r <= l' / r) by (apply div_le_l; lra).
  apply div_le_r; [pos|pos|nra].
Qed.

Lemma ft_anti A l l' ro2 J I_w E G :
  0 < A -> 0 < ro2 -> 0 < J -> 0 <= I_w -> 0 < E -> 0 < G -> 0 < l -> l <= l' ->
  ft A l' ro2 J I_w E G <= ft A l ro2 J I_w E G.
Proof.
  intros. unfold ft. apply Rmult_le_compat_l; [left; pos|].
  assert (PI * PI * E * I_w / (G * J * (l' * l')) <= PI * PI * E * I_w / (G * J * (l * l))).
  { apply div_le_r.
    - pos.
    - pos.
    - apply Rmult_le_compat_l; [left; pos|nra]. }
  lra.
Qed.

Lemma f_oxz_anti A lx lz lx' lz' r_x r_y x_o y_o J I_w E G f f' :
  0 < A -> 0 < r_x -> 0 < J -> 0 <= I_w -> 0 < E -> 0 < G ->
  0 < lx -> lx <= lx' -> 0 < lz -> lz <= lz' ->
  f_oxz A lx lz r_x r_y x_o y_o J I_w E G = Ok f ->
  f_oxz A lx' lz' r_x r_y x_o y_o J I_w E G = Ok f' -> fx_f_oxz f' <= fx_f_oxz f.
Proof.
  intros HA Hr HJ Hw HE HG Hx Lx Hz Lz H H'.
  destruct (f_oxz_facts A lx lz r_x r_y x_o y_o J I_w E G)
    as (r & Er & _ & _ & _ & Hb & P & M & Q & _); auto.
  destruct (f_oxz_facts A lx' lz' r_x r_y x_o y_o J I_w E G)
    as (r' & Er' & _ & _ & _ & _ & P' & M' & Q' & _); auto; try lra.
  rewrite H in Er. injection Er as <-. rewrite H' in Er'. injection Er' as <-.
  fold (fe E lx r_x) (fe E lx' r_x) in *.
  fold (ft A lz (r_x ^ 2 + r_y ^ 2 + x_o ^ 2 + y_o ^ 2) J I_w E G)
       (ft A lz' (r_x ^ 2 + r_y ^ 2 + x_o ^ 2 + y_o ^ 2) J I_w E G) in *.
  assert (R2 : 0 < r_x ^ 2 + r_y ^ 2 + x_o ^ 2 + y_o ^ 2) by nra.
  pose proof (Rmin_l (fe E lx r_x) (ft A lz (r_x ^ 2 + r_y ^ 2 + x_o ^ 2 + y_o ^ 2) J I_w E G)).
  pose proof (Rmin_r (fe E lx r_x) (ft A lz (r_x ^ 2 + r_y ^ 2 + x_o ^ 2 + y_o ^ 2) J I_w E G)).
  pose proof (Rmin_l (fe E lx' r_x) (ft A lz' (r_x ^ 2 + r_y ^ 2 + x_o ^ 2 + y_o ^ 2) J I_w E G)).
  pose proof (Rmin_r (fe E lx' r_x) (ft A lz' (r_x ^ 2 + r_y ^ 2 + x_o ^ 2 + y_o ^ 2) J I_w E G)).
  pose proof (fe_anti E lx lx' r_x HE Hr Hx Lx).
  pose proof (ft_anti A lz lz' _ J I_w E G HA R2 HJ Hw HE HG Hz Lz).
  pose proof (fe_pos E lx' r_x HE ltac:(lra) Hr).
  pose proof (ft_pos A lz' _ J I_w E G HA ltac:(lra) R2 HJ Hw HE HG).
  eapply quad_mono; [exact Hb| | | | | | | |exact Q'| | | |exact Q]; auto; lra.
Qed.

Lemma f_torsion_anti A lz lz' r_x r_y x_o y_o J I_w E G f f' :
  0 < A -> 0 < r_x -> 0 < J -> 0 <= I_w -> 0 < E -> 0 < G -> 0 < lz -> lz <= lz' ->
  f_euler_torsion A lz r_x r_y x_o y_o J I_w E G = Ok f ->
  f_euler_torsion A lz' r_x r_y x_o y_o J I_w E G = Ok f' -> 0 < f' <= f.
Proof.
  intros HA Hr HJ Hw HE HG Hz Lz. rewrite !f_torsion_value by lra.
  fold (ft A lz (r_x ^ 2 + r_y ^ 2 + x_o ^ 2 + y_o ^ 2) J I_w E G)
       (ft A lz' (r_x ^ 2 + r_y ^ 2 + x_o ^ 2 + y_o ^ 2) J I_w E G) in *.
  assert (R2 : 0 < r_x ^ 2 + r_y ^ 2 + x_o ^ 2 + y_o ^ 2) by nra.
  intros H H'. injection H as <-. injection H' as <-. split.
  - apply ft_pos; auto; lra.
  - now apply ft_anti.
Qed.

Definition sect_ok (q : sect6) : Prop :=
  0 < q_A_n q /\ 0 < q_k_f q /\ 0 < q_r_x q /\ 0 < q_r_y q /\ 0 < q_J q /\ 0 <= q_I_w q
  /\ 0 < q_f_y q /\ 0 < q_E q /\ 0 < q_G q.

Lemma f_oxz_pos A lx lz r_x r_y x_o y_o J I_w E G f :
  0 < A -> 0 < r_x -> 0 < J -> 0 <= I_w -> 0 < E -> 0 < G -> 0 < lx -> 0 < lz ->
  f_oxz A lx lz r_x r_y x_o y_o J I_w E G = Ok f -> 0 < fx_f_oxz f.
Proof.
  intros HA Hr HJ Hw HE HG Hx Hz H.
  destruct (f_oxz_facts A lx lz r_x r_y x_o y_o J I_w E G)
    as (r & Er & _ & _ & _ & _ & P & _); auto.
  rewrite H in Er. injection Er as <-. auto.
Qed.

(** Any symmetry but none. *)
Lemma f_oc_anti roots roots' q lx ly lz lx' ly' lz' sym f f' :
  sect_ok q -> symmetry sym <> Ok SymNone ->
  0 < lx -> lx <= lx' -> 0 < ly -> ly <= ly' -> 0 < lz -> lz <= lz' ->
  f_oc roots q lx ly lz sym = Ok f -> f_oc roots' q lx' ly' lz' sym = Ok f' ->
  0 < f' <= f.
Proof.
  intros (HA & Hk & Hx & Hy & HJ & Hw & Hf & HE & HG) Hs Px Lx Py Ly Pz Lz H H'.
  unfold f_oc in *. destruct (symmetry sym) as [s|]; [|discriminate]. cbn [bind] in *.
  destruct s; [exfalso; now apply Hs| |now eapply f_torsion_anti; [..|exact H|exact H']|].
  - unfold f_oc_double_symmetric in *. inv_bind H. inv_bind H. inv_bind H'. inv_bind H'.
    injection H as <-. injection H' as <-. rewrite !pymin_R.
    assert (0 < fx_f_oxz a1) by (eapply f_oxz_pos; [..|eassumption]; auto; lra).
    assert (fx_f_oxz a1 <= fx_f_oxz a) by (eapply f_oxz_anti; [..|eassumption|eassumption]; auto).
    assert (0 < a2 <= a0) by (eapply f_torsion_anti; [..|eassumption|eassumption]; auto).
    unfold Rmin. repeat destruct (Rle_dec _ _); lra.
  - unfold f_oc_single_symmetric in *. destruct sym as [[|a [|? ?]]|]; try discriminate.
    cbn [symcount bind] in *.
    destruct (axis_is "x" a); inv_bind H; inv_bind H'; injection H as <-; injection H' as <-;
      (split; [eapply f_oxz_pos; [..|eassumption]; auto; lra
              |eapply f_oxz_anti; [..|eassumption|eassumption]; auto]).
Qed.

(** * When the capacity is computed *)

Lemma f_oc_defined roots q lx ly lz sym c :
  sect_ok q -> symmetry sym = Ok c -> c <> SymNone -> 0 < lx -> 0 < ly -> 0 < lz ->
  exists f, f_oc roots q lx ly lz sym = Ok f /\ 0 < f.
Proof.
  intros (HA & Hk & Hx & Hy & HJ & Hw & Hf & HE & HG) Hs Hc Px Py Pz.
  unfold f_oc. rewrite Hs. cbn [bind]. destruct c; [congruence| | |].
  - destruct (f_oc_double_facts (q_A_n q) lx lz (q_r_x q) (q_r_y q) (q_x_o q) (q_y_o q)
      (q_J q) (q_I_w q) (q_E q) (q_G q)) as (f & E & P & _); auto. exists f. split; [auto|lra].
  - unfold f_oc_point_symmetric. rewrite f_torsion_value by auto.
    eexists. split; [reflexivity|]. apply ft_pos; auto. nra.
  - assert (exists a, sym = Some [a]) as [a ->].
    { unfold symmetry in Hs. destruct sym as [[|a [|b [|d r]]]|]; try discriminate; eauto.
      revert Hs. unfold axis_in. cbn -[axis_is].
      repeat match goal with |- context [if ?b then _ else _] => destruct b end; discriminate. }
    unfold f_oc_single_symmetric. cbn [symcount bind].
    destruct (axis_is "x" a).
    + destruct (f_oxz_facts (q_A_n q) lx lz (q_r_x q) (q_r_y q) (q_x_o q) (q_y_o q)
        (q_J q) (q_I_w q) (q_E q) (q_G q)) as (r & E & _ & _ & _ & _ & P & _); auto.
      rewrite E. cbn [bind]. eauto.
    + destruct (f_oxz_facts (q_A_n q) ly lz (q_r_y q) (q_r_x q) (q_y_o q) (q_x_o q)
        (q_J q) (q_I_w q) (q_E q) (q_G q)) as (r & E & _ & _ & _ & _ & P & _); auto.
      rewrite E. cbn [bind]. eauto.
Qed.

Lemma Nc_defined roots q l kx ky kz sym c f_ref ab u phi cb ct :
  sect_ok q -> symmetry sym = Ok c -> c <> SymNone ->
  0 < l -> 0 < kx -> 0 < ky -> 0 < kz -> 0 < f_ref -> 0 < u ->
  (forall k r, (k, r) = (kx, q_r_x q) \/ (k, r) = (ky, q_r_y q) ->
     let ln := l * k / r * sqrt (q_k_f q) * sqrt (q_f_y q / f_ref) in
     ln + 2100 * (ln - 27 / 2) / (ln * ln - 153 / 10 * ln + 2050) * ab <> 0) ->
  exists o, s6_1_1_Nc roots q l kx ky kz sym f_ref ab u phi cb ct = Ok o.
Proof.
  intros Hq Hs Hc Hl Kx Ky Kz Hrf Hu Hln.
  pose proof Hq as (HA & Hk & Hx & Hy & HJ & Hw & Hf & HE & HG).
  assert (MX : forall k r, 0 < r -> (k, r) = (kx, q_r_x q) \/ (k, r) = (ky, q_r_y q) -> exists b,
      s6_3_3_N_c (q_A_n q) (q_k_f q) (l * k) r (q_f_y q) f_ref ab = Ok b).
  { intros k r Hr Hkr. unfold s6_3_3_N_c. rewrite lambda_n_value by lra. cbn [bind].
    rewrite alpha_c_value by (apply (Hln k r Hkr)). cbn [bind]. eauto. }
  unfold s6_1_1_Nc, s6_3_2_l_e. destruct cb; [|eauto].
  destruct (MX kx (q_r_x q) Hx ltac:(auto)) as [bx ->]. cbn [bind].
  destruct (MX ky (q_r_y q) Hy ltac:(auto)) as [b ->]. cbn [bind].
  destruct ct; [|eauto].
  destruct (f_oc_defined roots q (l * kx) (l * ky) (l * kz) sym c Hq Hs Hc) as (f & E & P);
    try pos.
  unfold s6_3_3_N_c_torsion. rewrite E. cbn [bind]. rewrite n_cz_value by auto. cbn [bind]. eauto.
Qed.
