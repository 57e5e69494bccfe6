(** The compression capacity as a function of the slenderness for every section constant:
    λ_n² α_c is nondecreasing.  For λ > 0 the factor α_c is the smaller of 1 and a smooth
    function of λ; its logarithmic derivative is bounded by analysis except for negative
    section constants and n >= 33, where [YieldCells.v] has a checked table. *)

From Coq Require Import Reals Lra Psatz ZArith List Bool.
From Verif Require Import Base Num RNum PyReal S6 S6Facts.
Open Scope R_scope.

(** * α_c without the cut-off of η *)

Definition pe (l : R) : R := slen l + 1 + 326 / 100000 * (l - 27 / 2).
Definition de2 (l : R) : R := pe l * pe l - 4 * slen l.
Definition kap : R := 95599 / 100000.
Definition qq (l : R) : R :=
  326 / 100000 * l * (l * (l - 27) / 4050 + 191198 / 100000 + 326 / 100000 * l).
Definition de (l : R) : R := sqrt (de2 l).
Definition bb (l : R) : R := de l + slen l - kap.

Lemma de2_split l : de2 l = (slen l - kap) * (slen l - kap) + qq l.
Proof. unfold de2, pe, slen, qq, kap. field. Qed.

Lemma qq_pos l : 0 < l -> 0 < qq l.
Proof.
  intros H. unfold qq. apply Rmult_lt_0_compat; [lra|].
  assert (0 <= (l - 27 / 2) * (l - 27 / 2)) by apply Rle_0_sqr. nra.
Qed.

Lemma de2_pos l : 0 < l -> 0 < de2 l.
Proof.
  intros H. rewrite de2_split. pose proof (qq_pos l H).
  pose proof (Rle_0_sqr (slen l - kap)). unfold Rsqr in *. lra.
Qed.

Lemma de_pos l : 0 < l -> 0 < de l.
Proof. intros H. apply sqrt_lt_R0. now apply de2_pos. Qed.

Lemma de_sq l : 0 < l -> de l * de l = de2 l.
Proof. intros H. apply sqrt_sqrt. left. now apply de2_pos. Qed.

(** B (D - u + κ) = Q *)
Lemma bb_prod l : 0 < l -> bb l * (de l - slen l + kap) = qq l.
Proof.
  intros H. pose proof (de_sq l H) as E. rewrite de2_split in E. unfold bb. nra.
Qed.

Lemma bb_pos l : 0 < l -> 0 < bb l /\ 0 < de l - slen l + kap.
Proof.
  intros H. pose proof (bb_prod l H) as E. pose proof (qq_pos l H) as Q.
  pose proof (de_pos l H) as D.
  assert (S : 0 < bb l + (de l - slen l + kap)) by (unfold bb; lra).
  destruct (Rlt_le_dec 0 (bb l)) as [B|B].
  - split; auto. apply Rmult_lt_reg_l with (bb l); auto. lra.
  - exfalso. assert (0 < de l - slen l + kap) by lra. nra.
Qed.

Lemma pe_pos l : 0 < l -> 0 < pe l.
Proof. intros H. unfold pe, slen. nra. Qed.

Definition ext (l : R) : R := 2 / (pe l + de l).

Lemma ac_of_ext l : 0 < l -> ac_of l = Rmin 1 (ext l).
Proof.
  intros H. pose proof (pe_pos l H) as P. pose proof (de_pos l H) as D.
  destruct (Rle_lt_dec l (27 / 2)) as [C|C].
  - assert (E : ac_of l = 1) by (apply ac_of_eq_1; lra). rewrite E. symmetry.
    apply Rmin_left. unfold ext.
    assert (U : slen l <= 1) by (apply slen_le_1; lra).
    assert (DL : de l <= 2 - pe l).
    { unfold de. apply Rle_trans with (sqrt ((2 - pe l) * (2 - pe l))).
      - apply sqrt_le_1_alt. unfold de2, pe. nra.
      - rewrite sqrt_square; [lra|]. unfold pe. lra. }
    apply Rmult_le_reg_r with (pe l + de l); [lra|]. unfold Rdiv.
    rewrite Rmult_assoc, Rinv_l by lra. lra.
  - assert (E : ac_of l = ext l).
    { unfold ac_of, acv, ext, de, de2, pe, eta_of. rewrite Rmax_left by lra. reflexivity. }
    rewrite E. symmetry. apply Rmin_right. rewrite <- E. apply ac_of_le_1. lra.
Qed.

(** * Derivatives *)

Lemma D_const c x : derivable_pt_lim (fun _ => c) x 0.
Proof. apply derivable_pt_lim_const. Qed.

Lemma D_eq f x a b : derivable_pt_lim f x a -> a = b -> derivable_pt_lim f x b.
Proof. now intros H <-. Qed.

Lemma D_fun f g x a : (forall y, f y = g y) -> derivable_pt_lim f x a -> derivable_pt_lim g x a.
Proof.
  intros E H eps He. destruct (H eps He) as [d Hd]. exists d. intros h H0 Hh.
  rewrite <- !E. now apply Hd.
Qed.

Lemma D_id_scale c x : derivable_pt_lim (fun y => c * y) x c.
Proof.
  eapply D_eq.
  - apply (derivable_pt_lim_scal id c x 1). apply derivable_pt_lim_id.
  - ring.
Qed.

Lemma D_slen l : derivable_pt_lim slen l (l / 4050).
Proof.
  apply (D_fun (fun y => (/ 90 * y) * (/ 90 * y))); [intros; unfold slen; field|].
  eapply D_eq.
  - apply (derivable_pt_lim_mult (fun y => / 90 * y) (fun y => / 90 * y)); apply D_id_scale.
  - field.
Qed.

Lemma D_pe l : derivable_pt_lim pe l (l / 4050 + 326 / 100000).
Proof.
  apply (D_fun (fun y => slen y + (326 / 100000 * y + (1 - 326 / 100000 * (27 / 2)))));
    [intros; unfold pe; field|].
  eapply D_eq.
  - apply (derivable_pt_lim_plus slen (fun y => 326 / 100000 * y + (1 - 326 / 100000 * (27 / 2)))).
    + apply D_slen.
    + apply (derivable_pt_lim_plus (fun y => 326 / 100000 * y) (fun _ => 1 - 326 / 100000 * (27 / 2))).
      * apply D_id_scale.
      * apply D_const.
  - field.
Qed.

Lemma D_de2 l : derivable_pt_lim de2 l (2 * pe l * (l / 4050 + 326 / 100000) - 4 * (l / 4050)).
Proof.
  eapply D_eq.
  - apply (derivable_pt_lim_minus (fun y => pe y * pe y) (fun y => 4 * slen y)).
    + apply (derivable_pt_lim_mult pe pe); apply D_pe.
    + apply (derivable_pt_lim_scal slen 4). apply D_slen.
  - ring.
Qed.

Lemma D_de l : 0 < l ->
  derivable_pt_lim de l
    (/ (2 * de l) * (2 * pe l * (l / 4050 + 326 / 100000) - 4 * (l / 4050))).
Proof.
  intros H. apply (derivable_pt_lim_comp de2 sqrt).
  - apply D_de2.
  - apply derivable_pt_lim_sqrt. now apply de2_pos.
Qed.

(** The logarithmic derivative of P + D is B / D. *)
Lemma D_pd l : 0 < l ->
  derivable_pt_lim (fun y => pe y + de y) l ((pe l + de l) * bb l / (de l * l)).
Proof.
  intros H. eapply D_eq.
  - apply (derivable_pt_lim_plus pe de); [apply D_pe|now apply D_de].
  - pose proof (de_pos l H) as D. pose proof (de_sq l H) as E.
    assert (Ee : pe l * pe l = de l * de l + 4 * slen l) by (rewrite E; unfold de2; ring).
    apply Rmult_eq_reg_r with (de l * l); [|apply Rgt_not_eq, Rmult_lt_0_compat; lra].
    replace ((pe l + de l) * bb l / (de l * l) * (de l * l)) with ((pe l + de l) * bb l)
      by (field; lra).
    replace ((l / 4050 + 326 / 100000 +
       / (2 * de l) * (2 * pe l * (l / 4050 + 326 / 100000) - 4 * (l / 4050))) * (de l * l))
      with ((pe l + de l) * (l * (l / 4050 + 326 / 100000)) - 2 * (l * (l / 4050)))
      by (field; lra).
    assert (Eu : l * (l / 4050) = 2 * slen l) by (unfold slen; field).
    assert (Em : l * (l / 4050 + 326 / 100000) = pe l + slen l - kap)
      by (unfold pe, slen, kap; field).
    rewrite Em, Eu. unfold bb. nra.
Qed.

Definition kk (n : R) : R := 184345 / 100 + 27 * n - n * n.

Lemma D_dd n : derivable_pt_lim dd n (2 * n - 153 / 10).
Proof.
  apply (D_fun (fun y => (1 * y) * (1 * y) + (- (153 / 10) * y + 2050)));
    [intros; unfold dd; ring|].
  eapply D_eq.
  - apply (derivable_pt_lim_plus (fun y => (1 * y) * (1 * y)) (fun y => - (153 / 10) * y + 2050)).
    + apply (derivable_pt_lim_mult (fun y => 1 * y) (fun y => 1 * y)); apply D_id_scale.
    + apply (derivable_pt_lim_plus (fun y => - (153 / 10) * y) (fun _ => 2050)).
      * apply D_id_scale.
      * apply D_const.
  - ring.
Qed.

Lemma D_lam n ab :
  derivable_pt_lim (fun y => lam y ab) n (1 + 2100 * kk n / (dd n * dd n) * ab).
Proof.
  pose proof (dd_pos n) as P.
  apply (D_fun (fun y => 1 * y + ab * ((2100 * y + (- (2100 * (27 / 2)))) / dd y))).
  { intros y. unfold lam. pose proof (dd_pos y). field. lra. }
  eapply D_eq.
  - apply (derivable_pt_lim_plus (fun y => 1 * y)
             (fun y => ab * ((2100 * y + (- (2100 * (27 / 2)))) / dd y))); [apply D_id_scale|].
    apply (derivable_pt_lim_scal (fun y => (2100 * y + (- (2100 * (27 / 2)))) / dd y) ab).
    apply (derivable_pt_lim_div (fun y => 2100 * y + (- (2100 * (27 / 2)))) dd);
      [|apply D_dd|lra].
    apply (derivable_pt_lim_plus (fun y => 2100 * y) (fun _ => - (2100 * (27 / 2)))).
    + apply D_id_scale.
    + apply D_const.
  - unfold Rsqr, kk, dd in *. field. lra.
Qed.

(** n λ' = λ - α_b Z *)
Definition cub (n : R) : R := 2 * n * n * n - 558 / 10 * n * n + 4131 / 10 * n - 27675.
Definition zz (n : R) : R := 2100 * cub n / (dd n * dd n).

Lemma lam_slope n ab :
  n * (1 + 2100 * kk n / (dd n * dd n) * ab) = lam n ab - ab * zz n.
Proof.
  pose proof (dd_pos n). unfold lam, zz, cub, kk, dd in *. field. lra.
Qed.

(** * The condition on the slope *)

Definition slope_ok (n ab : R) : Prop :=
  - ab * zz n * (bb (lam n ab) * bb (lam n ab)) <= qq (lam n ab) * lam n ab.

Definition curve (ab n : R) : R := (pe (lam n ab) + de (lam n ab)) / (n * n).

Lemma D_curve ab n : 0 < n -> 0 < lam n ab ->
  derivable_pt_lim (curve ab) n
    (((pe (lam n ab) + de (lam n ab)) * bb (lam n ab) / (de (lam n ab) * lam n ab)
        * (1 + 2100 * kk n / (dd n * dd n) * ab) * (n * n)
      - (2 * n) * (pe (lam n ab) + de (lam n ab))) / Rsqr (n * n)).
Proof.
  intros Hn Hl.
  apply (derivable_pt_lim_div (fun y => pe (lam y ab) + de (lam y ab)) (fun y => y * y)).
  - apply (derivable_pt_lim_comp (fun y => lam y ab) (fun l => pe l + de l)).
    + apply D_lam.
    + now apply D_pd.
  - eapply D_eq; [apply (derivable_pt_lim_mult id id); apply derivable_pt_lim_id|].
    unfold id. ring.
  - assert (0 < n * n) by (apply Rmult_lt_0_compat; auto). lra.
Qed.

Lemma slope_sign ab n : 0 < n -> 0 < lam n ab -> slope_ok n ab ->
  ((pe (lam n ab) + de (lam n ab)) * bb (lam n ab) / (de (lam n ab) * lam n ab)
        * (1 + 2100 * kk n / (dd n * dd n) * ab) * (n * n)
      - (2 * n) * (pe (lam n ab) + de (lam n ab))) / Rsqr (n * n) <= 0.
Proof.
  intros Hn Hl H. pose proof (lam_slope n ab) as E. unfold slope_ok in H.
  set (l := lam n ab) in *. clearbody l.
  set (g := 1 + 2100 * kk n / (dd n * dd n) * ab) in *. clearbody g. set (z := zz n) in *. clearbody z.
  pose proof (de_pos l Hl) as D. pose proof (pe_pos l Hl) as P. destruct (bb_pos l Hl) as [B B'].
  pose proof (bb_prod l Hl) as Q. rewrite <- Q in H.
  assert (H1 : - ab * z * bb l <= (de l - slen l + kap) * l).
  { apply Rmult_le_reg_r with (bb l); auto. nra. }
  assert (H2 : bb l * (l - ab * z) <= 2 * de l * l).
  { replace (2 * de l * l) with (bb l * l + (de l - slen l + kap) * l) by (unfold bb; ring). nra. }
  assert (N2 : 0 < Rsqr (n * n)) by (unfold Rsqr; repeat apply Rmult_lt_0_compat; auto).
  assert (DL : 0 < de l * l) by (apply Rmult_lt_0_compat; auto).
  apply Rmult_le_reg_r with (Rsqr (n * n)); auto. rewrite Rmult_0_l.
  unfold Rdiv at 1. rewrite Rmult_assoc, Rinv_l, Rmult_1_r by lra.
  apply Rmult_le_reg_r with (de l * l); auto. rewrite Rmult_0_l.
  replace (((pe l + de l) * bb l / (de l * l) * g * (n * n) - 2 * n * (pe l + de l)) * (de l * l))
    with (n * (pe l + de l) * (bb l * (n * g) - 2 * de l * l)) by (field; lra).
  rewrite E.
  assert (0 < n * (pe l + de l)) by (apply Rmult_lt_0_compat; lra). nra.
Qed.

Lemma curve_down ab n n' : 0 < n -> n <= n' ->
  (forall x, n <= x <= n' -> 0 < lam x ab /\ slope_ok x ab) -> curve ab n' <= curve ab n.
Proof.
  intros Hn [L| ->] H; [|lra].
  destruct (MVT_cor2 (curve ab) (fun n =>
    ((pe (lam n ab) + de (lam n ab)) * bb (lam n ab) / (de (lam n ab) * lam n ab)
        * (1 + 2100 * kk n / (dd n * dd n) * ab) * (n * n)
      - (2 * n) * (pe (lam n ab) + de (lam n ab))) / Rsqr (n * n)) n n' L) as (c & E & C).
  - intros c C. apply D_curve; [lra|]. now apply H.
  - assert (S := slope_sign ab c ltac:(lra)). destruct (H c) as [H1 H2]; [lra|].
    specialize (S H1 H2). set (s := _ / Rsqr (c * c)) in *. nra.
Qed.

(** λ_n² α_c grows where the condition on the slope holds. *)
Lemma ext_up ab n n' : 0 < n -> n <= n' ->
  (forall x, n <= x <= n' -> 0 < lam x ab /\ slope_ok x ab) ->
  n * n * ac_of (lam n ab) <= n' * n' * ac_of (lam n' ab).
Proof.
  intros Hn L H. pose proof (curve_down ab n n' Hn L H) as C.
  destruct (H n) as [P _]; [lra|]. destruct (H n') as [P' _]; [lra|].
  rewrite !ac_of_ext by auto.
  assert (E : forall x, 0 < x -> 0 < lam x ab -> x * x * ext (lam x ab) = 2 / curve ab x).
  { intros x Hx Px. unfold ext, curve. pose proof (pe_pos _ Px). pose proof (de_pos _ Px). field.
    split; lra. }
  assert (CP : 0 < curve ab n').
  { unfold curve. pose proof (pe_pos _ P'). pose proof (de_pos _ P'). apply div_pos; [lra|].
    apply Rmult_lt_0_compat; lra. }
  assert (X : n * n * ext (lam n ab) <= n' * n' * ext (lam n' ab)).
  { rewrite !E by lra. unfold Rdiv. apply Rmult_le_compat_l; [lra|].
    apply Rinv_le_contravar; auto. }
  assert (N2 : n * n <= n' * n') by nra. assert (N0 : 0 < n * n) by nra.
  set (e := ext (lam n ab)) in *. set (e' := ext (lam n' ab)) in *.
  unfold Rmin. destruct (Rle_dec 1 e), (Rle_dec 1 e'); nra.
Qed.
