(** Proofs about the bending and shear formulas of S5.py and S5_Shear.py. *)

From Coq Require Import Reals Lra Psatz List Permutation String.
From Verif Require Import Base Num RNum PyReal S5.
Import ListNotations.
Open Scope R_scope.

(** * Shear buckling coefficient *)

Lemma alpha_v_value d_p t_w f_y lim f_ref :
  0 < d_p -> 0 < t_w -> 0 < f_y -> 0 < lim -> 0 < f_ref ->
  s5_11_5_alpha_v d_p t_w f_y lim f_ref =
  Ok (let L := lim / sqrt (f_y / f_ref) in let s := d_p / t_w in
      if Rlt_dec L s then (L / s) * (L / s) else 1).
Proof.
  intros. unfold s5_11_5_alpha_v.
  assert (Hq : 0 < f_y / f_ref) by now apply div_pos.
  assert (0 < sqrt (f_y / f_ref)) by now apply sqrt_lt_R0.
  assert (0 < d_p / t_w) by now apply div_pos.
  repeat (rstep; [|lra]). unfold Rltb. cbv zeta.
  now destruct (Rlt_dec _ _).
Qed.

Lemma alpha_v_range d_p t_w f_y lim f_ref :
  0 < d_p -> 0 < t_w -> 0 < f_y -> 0 < lim -> 0 < f_ref ->
  let L := lim / sqrt (f_y / f_ref) in
  exists v, s5_11_5_alpha_v d_p t_w f_y lim f_ref = Ok v
   /\ (d_p / t_w <= L -> v = 1)
   /\ (L < d_p / t_w -> 0 < v < 1 /\ v = (L / (d_p / t_w)) ^ 2
        /\ 1 - v <= 2 * (d_p / t_w - L) / L).
Proof.
  intros Hd Ht Hf Hl Hr L. eexists. split; [now apply alpha_v_value|].
  cbv zeta. fold L. set (s := d_p / t_w).
  assert (Hs : 0 < s) by now apply div_pos.
  assert (HL : 0 < L).
  { unfold L. apply div_pos; auto using sqrt_lt_R0, div_pos. }
  clearbody L s.
  destruct (Rlt_dec L s) as [C|C]; split; intros D; try lra.
  assert (Hx : 0 < L / s) by now apply div_pos.
  assert (Hx1 : L / s < 1) by now apply div_lt_1.
  split; [nra|]. split; [ring|].
  assert (E : 2 * (s - L) / L - (1 - L / s * (L / s)) =
              (s - L) * (s - L) * (2 * s + L) / (L * s * s)) by (field; lra).
  assert (0 <= (s - L) * (s - L) * (2 * s + L) / (L * s * s)).
  { apply Rmult_le_pos.
    - apply Rmult_le_pos; nra.
    - left. apply Rinv_0_lt_compat. repeat apply Rmult_lt_0_compat; auto. }
  lra.
Qed.

Lemma alpha_v_mono d_p t_w f_y d_p' t_w' f_y' lim f_ref v v' :
  0 < d_p -> 0 < t_w' -> 0 < f_y -> 0 < lim -> 0 < f_ref ->
  d_p <= d_p' -> t_w' <= t_w -> f_y <= f_y' ->
  s5_11_5_alpha_v d_p t_w f_y lim f_ref = Ok v ->
  s5_11_5_alpha_v d_p' t_w' f_y' lim f_ref = Ok v' -> v' <= v.
Proof.
  intros Hd Ht Hf Hl Hr Ld Lt Lf.
  rewrite !alpha_v_value by lra. cbv zeta. intros E E'.
  injection E as <-. injection E' as <-.
  assert (0 < f_y / f_ref) by now apply div_pos.
  assert (f_y / f_ref <= f_y' / f_ref) by now apply div_le_l.
  assert (0 < sqrt (f_y / f_ref)) by now apply sqrt_lt_R0.
  assert (sqrt (f_y / f_ref) <= sqrt (f_y' / f_ref)) by now apply sqrt_le_1_alt.
  set (L := lim / sqrt (f_y / f_ref)). set (L' := lim / sqrt (f_y' / f_ref)).
  assert (HLL : L' <= L) by (apply div_le_r; lra).
  assert (HL' : 0 < L') by (apply div_pos; lra).
  set (s := d_p / t_w). set (s' := d_p' / t_w').
  assert (Hs : 0 < s) by (apply div_pos; lra).
  assert (Hss : s <= s').
  { unfold s, s'. apply Rle_trans with (d_p' / t_w).
    - apply div_le_l; lra. - apply div_le_r; lra. }
  assert (Hx : L' / s' <= L / s).
  { apply Rle_trans with (L / s'). - apply div_le_l; lra. - apply div_le_r; lra. }
  assert (0 < L' / s') by (apply div_pos; lra).
  pose proof (div_lt_1 L' s') as P1.
  destruct (Rlt_dec L s) as [C|C], (Rlt_dec L' s') as [C'|C']; try lra.
  - nra.
  - nra.
Qed.

(** * Non-uniform shear *)

Lemma alpha_vma_value f_vm f_va : 0 < f_vm -> 0 < f_va ->
  s5_11_3_alpha_vma f_vm f_va = Ok (Rmin (2 / (9 / 10 + f_vm / f_va)) 1).
Proof.
  intros. unfold s5_11_3_alpha_vma.
  assert (0 < f_vm / f_va) by now apply div_pos.
  repeat (rstep; [|lra]). now rewrite pymin_R.
Qed.

Lemma alpha_vma_range f_vm f_va : 0 < f_vm -> 0 < f_va ->
  exists v, s5_11_3_alpha_vma f_vm f_va = Ok v
   /\ 0 < v <= 1 /\ (v = 1 <-> f_vm / f_va <= 11 / 10)
   /\ (11 / 10 < f_vm / f_va -> v = 2 / (9 / 10 + f_vm / f_va)).
Proof.
  intros H1 H2. eexists. split; [now apply alpha_vma_value|].
  assert (Hq : 0 < f_vm / f_va) by now apply div_pos.
  set (q := f_vm / f_va) in *.
  assert (Hp : 0 < 2 / (9 / 10 + q)) by (apply div_pos; lra).
  assert (E : 2 / (9/10 + q) * (9/10 + q) = 2) by (field; lra).
  unfold Rmin. destruct (Rle_dec (2 / (9 / 10 + q)) 1) as [C|C];
    repeat split; intros; try lra; nra.
Qed.

Lemma alpha_vma_mono f_vm f_va f_vm' f_va' v v' :
  0 < f_vm -> 0 < f_va' -> f_vm <= f_vm' -> f_va' <= f_va ->
  s5_11_3_alpha_vma f_vm f_va = Ok v -> s5_11_3_alpha_vma f_vm' f_va' = Ok v' -> v' <= v.
Proof.
  intros H1 H2 L1 L2. rewrite !alpha_vma_value by lra.
  intros E E'. injection E as <-. injection E' as <-.
  assert (0 < f_vm / f_va) by (apply div_pos; lra).
  assert (f_vm / f_va <= f_vm' / f_va').
  { apply Rle_trans with (f_vm' / f_va). - apply div_le_l; lra. - apply div_le_r; lra. }
  apply Rle_min_compat_r. apply div_le_r; lra.
Qed.

Lemma alpha_vma_scale f_vm f_va k : 0 < k ->
  0 < f_vm -> 0 < f_va -> s5_11_3_alpha_vma (k * f_vm) (k * f_va)
                          = s5_11_3_alpha_vma f_vm f_va.
Proof.
  intros. rewrite !alpha_vma_value by (try apply Rmult_lt_0_compat; auto).
  do 4 f_equal. field. lra.
Qed.

(** * Welds *)

Lemma py_sum_from l : forall a, fold_left Rplus l a = a + fold_right Rplus 0 l.
Proof. induction l as [|x l IH]; intros a; cbn; [ring|]. rewrite IH. ring. Qed.

Lemma weld_total l Q I :
  s5_11_4_V_w_Weld (WList l) Q I = s5_11_4_V_w_Weld (WFloat (fold_right Rplus 0 l)) Q I.
Proof.
  unfold s5_11_4_V_w_Weld, py_sum. cbn [bind]. f_equal. f_equal.
  rewrite py_sum_from. cbn. ring.
Qed.

Lemma sum_perm l l' : Permutation l l' -> fold_right Rplus 0 l = fold_right Rplus 0 l'.
Proof. induction 1; cbn; lra. Qed.

Lemma weld_order l l' Q I : Permutation l l' ->
  s5_11_4_V_w_Weld (WList l) Q I = s5_11_4_V_w_Weld (WList l') Q I.
Proof. intros P. rewrite !weld_total. now rewrite (sum_perm _ _ P). Qed.

Lemma weld_value x Q I : Q <> 0 -> s5_11_4_V_w_Weld (WFloat x) Q I = Ok (x * I / Q).
Proof.
  intros. unfold s5_11_4_V_w_Weld, py_sum. cbn [bind]. rewrite rdiv_ok by auto. cbn. f_equal.
  field. auto.
Qed.

(** * Reference buckling moment *)

Lemma M_o_value l_e I_y J I_w beta_x E G :
  0 < l_e -> 0 < I_y -> 0 < J -> 0 <= I_w -> 0 < E -> 0 < G ->
  s5_6_1_M_o l_e I_y J I_w beta_x E G =
  Ok (let a := PI * PI * E * I_y / (l_e * l_e) in
      let c := PI * PI * E * I_w / (l_e * l_e) in
      let d := beta_x / 2 in
      sqrt a * (sqrt (G * J + c + d * d * a) + d * sqrt a)).
Proof.
  intros. unfold s5_6_1_M_o.
  assert (0 < l_e * l_e) by pos.
  assert (0 < PI * PI * E * I_y / (l_e * l_e)) by pos.
  assert (0 <= PI * PI * E * I_w / (l_e * l_e)) by pos.
  assert (0 < G * J) by pos.
  rstep; [|lra]. rstep; [|lra]. rstep; [|lra]. rstep; [reflexivity|].
  assert (0 <= beta_x / 2 * (beta_x / 2) * (PI * PI * E * I_y / (l_e * l_e))) by pos.
  lra.
Qed.

(** The moment as a function of a (proportional to 1/l^2); [k] is I_w/I_y. *)
Definition mo (b k d a : R) : R := sqrt a * (sqrt (b + k * a + d * d * a) + d * sqrt a).

Lemma mo_pos b k d a : 0 < b -> 0 <= k -> 0 < a -> 0 < mo b k d a.
Proof.
  intros Hb Hk Ha. unfold mo.
  assert (0 < sqrt a) by now apply sqrt_lt_R0.
  apply Rmult_lt_0_compat; auto.
  assert (Rabs (d * sqrt a) < sqrt (b + k * a + d * d * a)).
  { rewrite <- sqrt_Rsqr_abs. apply sqrt_lt_1_alt. split; [apply Rle_0_sqr|].
    unfold Rsqr. replace (d * sqrt a * (d * sqrt a)) with (d * d * (sqrt a * sqrt a)) by ring.
    rewrite sqrt_sqrt by lra. nra. }
  apply Rabs_def2 in H0. lra.
Qed.

(** Dividing out: mo = (b + k a) / (sqrt (b/a + k + d^2) - d). *)
Lemma mo_alt b k d a : 0 < b -> 0 <= k -> 0 < a ->
  0 < sqrt (b / a + k + d * d) - d
  /\ mo b k d a * (sqrt (b / a + k + d * d) - d) = b + k * a.
Proof.
  intros Hb Hk Ha.
  assert (Hba : 0 < b / a) by now apply div_pos.
  set (r := sqrt (b / a + k + d * d)).
  assert (Hd : Rabs d < r).
  { unfold r. rewrite <- sqrt_Rsqr_abs. apply sqrt_lt_1_alt. split; [apply Rle_0_sqr|].
    unfold Rsqr. lra. }
  apply Rabs_def2 in Hd. split; [lra|].
  assert (Hr : r * r = b / a + k + d * d).
  { unfold r. apply sqrt_sqrt. nra. }
  assert (Hs : sqrt (b + k * a + d * d * a) = sqrt a * r).
  { unfold r. rewrite <- sqrt_mult by nra. f_equal. field. lra. }
  unfold mo. rewrite Hs.
  replace (sqrt a * (sqrt a * r + d * sqrt a) * (r - d))
    with (sqrt a * sqrt a * (r * r - d * d)) by ring.
  rewrite sqrt_sqrt by lra. rewrite Hr. field. lra.
Qed.

Lemma mo_incr b k d a a' : 0 < b -> 0 <= k -> 0 < a -> a < a' -> mo b k d a < mo b k d a'.
Proof.
  intros Hb Hk Ha L.
  destruct (mo_alt b k d a) as [P E]; auto.
  destruct (mo_alt b k d a') as [P' E']; auto; try lra.
  set (r := sqrt (b / a + k + d * d)) in *. set (r' := sqrt (b / a' + k + d * d)) in *.
  assert (Hr : r' < r).
  { unfold r, r'. apply sqrt_lt_1_alt.
    assert (b / a' < b / a) by (apply div_lt_r; lra).
    assert (0 < b / a') by (apply div_pos; lra). nra. }
  pose proof (mo_pos b k d a Hb Hk Ha) as Mp.
  apply Rmult_lt_reg_r with (r' - d); auto. rewrite E'.
  apply Rlt_le_trans with (b + k * a).
  - rewrite <- E. apply Rmult_lt_compat_l; lra.
  - nra.
Qed.

Lemma M_o_as_mo l_e I_y J I_w beta_x E G :
  0 < l_e -> 0 < I_y -> 0 < J -> 0 <= I_w -> 0 < E -> 0 < G ->
  s5_6_1_M_o l_e I_y J I_w beta_x E G =
  Ok (mo (G * J) (I_w / I_y) (beta_x / 2) (PI * PI * E * I_y / (l_e * l_e))).
Proof.
  intros. rewrite M_o_value by auto. cbv zeta. unfold mo. do 6 f_equal.
  field. split; lra.
Qed.

Lemma M_o_positive l_e I_y J I_w beta_x E G :
  0 < l_e -> 0 < I_y -> 0 < J -> 0 <= I_w -> 0 < E -> 0 < G ->
  exists m, s5_6_1_M_o l_e I_y J I_w beta_x E G = Ok m /\ 0 < m.
Proof.
  intros. eexists. split; [now apply M_o_as_mo|]. apply mo_pos; pos.
Qed.

Lemma M_o_decreasing l l' I_y J I_w beta_x E G m m' :
  0 < l -> l < l' -> 0 < I_y -> 0 < J -> 0 <= I_w -> 0 < E -> 0 < G ->
  s5_6_1_M_o l I_y J I_w beta_x E G = Ok m ->
  s5_6_1_M_o l' I_y J I_w beta_x E G = Ok m' -> m' < m.
Proof.
  intros Hl L HI HJ Hw HE HG. rewrite !M_o_as_mo by lra.
  intros Em Em'. injection Em as <-. injection Em' as <-.
  apply mo_incr; pos.
  apply div_lt_r; pos. apply Rmult_gt_0_lt_compat; lra.
Qed.

Lemma M_o_symmetric l_e I_y J I_w E G :
  0 < l_e -> 0 < I_y -> 0 < J -> 0 <= I_w -> 0 < E -> 0 < G ->
  s5_6_1_M_o l_e I_y J I_w 0 E G =
  Ok (sqrt (PI * PI * E * I_y / (l_e * l_e) * (G * J + PI * PI * E * I_w / (l_e * l_e)))).
Proof.
  intros. rewrite M_o_value by auto. cbv zeta.
  assert (0 < PI * PI * E * I_y / (l_e * l_e)) by pos.
  assert (0 <= PI * PI * E * I_w / (l_e * l_e)) by pos.
  assert (0 < G * J) by pos.
  rewrite sqrt_mult by lra. f_equal.
  replace (0 / 2) with 0 by field. rewrite !Rmult_0_l, !Rplus_0_r. reflexivity.
Qed.

(** * Moment modification factor *)

Lemma alpha_m_value M a b c mx : a * a + b * b + c * c <> 0 ->
  s5_6_1_alpha_m M a b c mx =
  Ok (Rmin (17 / 10 * Rabs M / sqrt (a * a + b * b + c * c)) mx).
Proof.
  intros H. unfold s5_6_1_alpha_m. rstep; [|nra].
  rstep. { now rewrite pymin_R. }
  intros Z. apply sqrt_eq_0 in Z; [lra|nra].
Qed.

Lemma alpha_m_capped M a b c mx v :
  s5_6_1_alpha_m M a b c mx = Ok v -> v <= mx.
Proof.
  unfold s5_6_1_alpha_m. rstep; [|nra].
  unfold rdiv. destruct (Req_EM_T _ 0); cbn [bind]; intros E; [discriminate|].
  injection E as <-. rewrite pymin_R. apply Rmin_r.
Qed.

Lemma alpha_m_defined M a b c mx :
  (exists v, s5_6_1_alpha_m M a b c mx = Ok v) <-> ~ (a = 0 /\ b = 0 /\ c = 0).
Proof.
  split.
  - intros [v E] (-> & -> & ->). revert E. unfold s5_6_1_alpha_m. rstep; [|lra].
    replace (0 * 0 + 0 * 0 + 0 * 0) with 0 by ring. rewrite sqrt_0, rdiv_0.
    discriminate.
  - intros H. eexists. apply alpha_m_value. intros Z. apply H. repeat split; nra.
Qed.

Lemma alpha_m_scale M a b c mx k : k <> 0 ->
  s5_6_1_alpha_m (k * M) (k * a) (k * b) (k * c) mx = s5_6_1_alpha_m M a b c mx.
Proof.
  intros Hk. destruct (Req_dec (a * a + b * b + c * c) 0) as [Z|Z].
  - assert (a = 0) by nra. assert (b = 0) by nra. assert (c = 0) by nra. subst.
    rewrite !Rmult_0_r. unfold s5_6_1_alpha_m. rewrite rroot_ok by lra. cbn [bind].
    replace (0 * 0 + 0 * 0 + 0 * 0) with 0 by ring. now rewrite sqrt_0, !rdiv_0.
  - assert (0 < k * k) by nra.
    assert (0 < a * a + b * b + c * c) by nra.
    rewrite !alpha_m_value; auto.
    + do 2 f_equal.
      replace (k * a * (k * a) + k * b * (k * b) + k * c * (k * c))
        with (k * k * (a * a + b * b + c * c)) by ring.
      rewrite sqrt_mult by lra.
      replace (sqrt (k * k)) with (Rabs k) by (rewrite <- sqrt_Rsqr_abs; reflexivity).
      rewrite Rabs_mult. field. split.
      * intros Z'. apply sqrt_eq_0 in Z'; lra.
      * now apply Rabs_no_R0.
    + replace (k * a * (k * a) + k * b * (k * b) + k * c * (k * c))
        with (k * k * (a * a + b * b + c * c)) by ring.
      apply Rmult_integral_contrapositive. lra.
Qed.

Lemma sq_eq x y : Rabs x = Rabs y -> x * x = y * y.
Proof.
  intros H. assert (E : Rsqr (Rabs x) = Rsqr (Rabs y)) by now rewrite H.
  rewrite <- !Rsqr_abs in E. exact E.
Qed.

Lemma alpha_m_sign M a b c M' a' b' c' mx :
  Rabs M' = Rabs M -> Rabs a' = Rabs a -> Rabs b' = Rabs b -> Rabs c' = Rabs c ->
  s5_6_1_alpha_m M' a' b' c' mx = s5_6_1_alpha_m M a b c mx.
Proof.
  intros HM Ha Hb Hc. unfold s5_6_1_alpha_m.
  now rewrite (sq_eq _ _ Ha), (sq_eq _ _ Hb), (sq_eq _ _ Hc), HM.
Qed.

Lemma alpha_m_uniform M mx : M <> 0 ->
  s5_6_1_alpha_m M M M M mx = Ok (Rmin (17 / 10 / sqrt 3) mx).
Proof.
  intros H. assert (0 < M * M) by nra. rewrite alpha_m_value by lra. do 2 f_equal.
  replace (M * M + M * M + M * M) with (3 * (M * M)) by ring.
  rewrite sqrt_mult by lra.
  replace (sqrt (M * M)) with (Rabs M) by (rewrite <- sqrt_Rsqr_abs; reflexivity).
  field. split; [|now apply Rabs_no_R0]. intros Z. apply sqrt_eq_0 in Z; lra.
Qed.

(** * Slenderness factor *)

Definition h (q : R) : R := 6 / 10 * (sqrt (q * q + 3) - q).

Lemma alpha_s_value M_s M_o : M_o <> 0 -> s5_6_alpha_s M_s M_o = Ok (h (M_s / M_o)).
Proof. intros. unfold s5_6_alpha_s. rstep; auto. rstep; [reflexivity|]. nra. Qed.

Lemma h_key q : (sqrt (q * q + 3) - q) * (sqrt (q * q + 3) + q) = 3
                /\ Rabs q < sqrt (q * q + 3).
Proof.
  split.
  - replace ((sqrt (q * q + 3) - q) * (sqrt (q * q + 3) + q))
      with (sqrt (q * q + 3) * sqrt (q * q + 3) - q * q) by ring.
    rewrite sqrt_sqrt by nra. ring.
  - rewrite <- sqrt_Rsqr_abs. apply sqrt_lt_1_alt. unfold Rsqr. nra.
Qed.

Lemma h_pos q : 0 < h q.
Proof. destruct (h_key q) as [_ H]. apply Rabs_def2 in H. unfold h. lra. Qed.

Lemma h_decr q q' : 0 <= q -> q < q' -> h q' < h q.
Proof.
  intros Hq L. unfold h.
  destruct (h_key q) as [E A], (h_key q') as [E' A'].
  apply Rabs_def2 in A, A'.
  assert (sqrt (q * q + 3) < sqrt (q' * q' + 3)) by (apply sqrt_lt_1_alt; nra).
  nra.
Qed.

Lemma h_lt q : 0 < q -> h q < 6 / 10 * sqrt 3.
Proof.
  intros H. pose proof (h_decr 0 q) as D. unfold h in D at 2.
  replace (0 * 0 + 3) with 3 in D by ring. lra.
Qed.

Lemma alpha_s_range M_s M_o : 0 < M_s -> 0 < M_o ->
  exists v, s5_6_alpha_s M_s M_o = Ok v /\ 0 < v < 6 / 10 * sqrt 3.
Proof.
  intros. eexists. split; [apply alpha_s_value; lra|]. split; [apply h_pos|].
  apply h_lt. now apply div_pos.
Qed.

Lemma alpha_s_mono M_s M_o M_s' M_o' v v' :
  0 < M_s -> 0 < M_o' -> M_s <= M_s' -> M_o' <= M_o -> M_s < M_s' \/ M_o' < M_o ->
  s5_6_alpha_s M_s M_o = Ok v -> s5_6_alpha_s M_s' M_o' = Ok v' -> v' < v.
Proof.
  intros H1 H2 L1 L2 S. rewrite !alpha_s_value by lra.
  intros E E'. injection E as <-. injection E' as <-.
  apply h_decr. { left. apply div_pos; lra. }
  destruct S as [S|S].
  - apply Rlt_le_trans with (M_s' / M_o).
    + apply Rmult_lt_compat_r; auto. apply Rinv_0_lt_compat. lra.
    + apply div_le_r; lra.
  - apply Rle_lt_trans with (M_s' / M_o).
    + apply div_le_l; lra.
    + apply div_lt_r; lra.
Qed.

(** * Member capacity *)

Lemma h_le_iff q k : 0 < k -> h q <= k <-> 3 <= (k / (6 / 10)) ^ 2 + 2 * q * (k / (6 / 10)).
Proof.
  intros Hk. unfold h. set (j := k / (6 / 10)).
  assert (Hj : 0 < j) by (apply div_pos; lra).
  assert (Ek : k = 6 / 10 * j) by (unfold j; field). rewrite Ek. clear Ek.
  destruct (h_key q) as [E A]. apply Rabs_def2 in A.
  set (r := sqrt (q * q + 3)) in *.
  assert (Er : r * r = q * q + 3) by (apply sqrt_sqrt; nra).
  split; intros Hh.
  - assert (r <= j + q) by lra. nra.
  - destruct (Rle_lt_dec r (j + q)); [lra|]. exfalso.
    destruct (Rle_lt_dec 0 (j + q)); nra.
Qed.

Lemma Mb_exceeds : exists M_s M_o a_s,
  0 < M_s /\ 0 < M_o /\ s5_6_alpha_s M_s M_o = Ok a_s /\ M_s < s5_6_1_Mb M_s 1 a_s.
Proof.
  exists 1, 100, (h (1 / 100)). repeat split; try lra.
  - apply alpha_s_value. lra.
  - unfold s5_6_1_Mb. destruct (Rle_lt_dec (h (1/100)) 1) as [C|C]; [|lra].
    apply h_le_iff in C; lra.
Qed.

Lemma Mb_bound_iff M_s M_o alpha_m a_s :
  0 < M_s -> 0 < M_o -> 0 < alpha_m -> s5_6_alpha_s M_s M_o = Ok a_s ->
  (s5_6_1_Mb M_s alpha_m a_s <= M_s <->
   3 <= (5 / (3 * alpha_m)) ^ 2 + 10 / (3 * alpha_m) * (M_s / M_o)).
Proof.
  intros Hs Ho Hm E. rewrite alpha_s_value in E by lra. injection E as <-.
  set (q := M_s / M_o).
  assert (I : 0 < 1 / alpha_m) by (apply div_pos; lra).
  transitivity (h q <= 1 / alpha_m).
  - unfold s5_6_1_Mb. pose proof (h_pos q).
    assert (Ei : alpha_m * (1 / alpha_m) = 1) by (field; lra).
    split; intros.
    + apply Rmult_le_reg_l with alpha_m; auto. rewrite Ei.
      apply Rmult_le_reg_r with M_s; auto. lra.
    + assert (alpha_m * h q <= 1) by (rewrite <- Ei; apply Rmult_le_compat_l; lra). nra.
  - rewrite h_le_iff by auto.
    replace (1 / alpha_m / (6 / 10)) with (5 / (3 * alpha_m)) by (field; lra).
    replace (2 * q * (5 / (3 * alpha_m))) with (10 / (3 * alpha_m) * q) by (field; lra).
    reflexivity.
Qed.

(** * Twist restraint factor *)

Lemma k_t_values d_1 l t_f t_w n_w c :
  0 < d_1 -> 0 < l -> 0 < t_f -> 0 < t_w -> 0 < n_w ->
  s5_6_3_k_t d_1 l t_f t_w n_w (RCode c) =
  Ok (1 + match c with FF | FL | LL | FU => 0 | FP | PL | PU => 1 | PP => 2 end
          * (d_1 / l * (t_f / (2 * t_w)) ^ 3 / n_w)).
Proof.
  intros. unfold s5_6_3_k_t.
  destruct c; try (f_equal; lra); repeat (rstep; [|lra]); f_equal; field; lra.
Qed.

Lemma k_t_term_pos d_1 l t_f t_w n_w :
  0 < d_1 -> 0 < l -> 0 < t_f -> 0 < t_w -> 0 < n_w ->
  0 < d_1 / l * (t_f / (2 * t_w)) ^ 3 / n_w.
Proof.
  intros. apply div_pos; auto. apply Rmult_lt_0_compat; [now apply div_pos|].
  apply pow_lt. apply div_pos; lra.
Qed.

Lemma k_t_facts d_1 l t_f t_w n_w :
  0 < d_1 -> 0 < l -> 0 < t_f -> 0 < t_w -> 0 < n_w ->
  (forall c, In c [FF; FL; LL; FU] -> s5_6_3_k_t d_1 l t_f t_w n_w (RCode c) = Ok 1)
  /\ exists p pp, 1 < p /\ 1 < pp /\ pp - 1 = 2 * (p - 1)
     /\ (forall c, In c [FP; PL; PU] -> s5_6_3_k_t d_1 l t_f t_w n_w (RCode c) = Ok p)
     /\ s5_6_3_k_t d_1 l t_f t_w n_w (RCode PP) = Ok pp.
Proof.
  intros. split.
  - intros c Hc. rewrite k_t_values by auto.
    cbn in Hc; intuition subst; f_equal; lra.
  - pose proof (k_t_term_pos d_1 l t_f t_w n_w).
    set (z := d_1 / l * (t_f / (2 * t_w)) ^ 3 / n_w) in *.
    assert (0 < z) by auto.
    exists (1 + z), (1 + 2 * z). split; [lra|]. split; [lra|]. split; [lra|]. split.
    + intros c Hc. rewrite k_t_values by auto.
      cbn in Hc; intuition subst; fold z; f_equal; lra.
    + rewrite k_t_values by auto. reflexivity.
Qed.

Lemma k_t_strings d_1 l t_f t_w n_w s :
  s5_6_3_k_t d_1 l t_f t_w n_w (RStr s) = Err AssertionError.
Proof. reflexivity. Qed.

Lemma k_t_accepts d_1 l t_f t_w n_w c :
  0 < d_1 -> 0 < l -> 0 < t_f -> 0 < t_w -> 0 < n_w ->
  exists k, s5_6_3_k_t d_1 l t_f t_w n_w (RCode c) = Ok k /\ 1 <= k.
Proof.
  intros. eexists. split; [now apply k_t_values|].
  pose proof (k_t_term_pos d_1 l t_f t_w n_w ltac:(lra) ltac:(lra) ltac:(lra) ltac:(lra) ltac:(lra)).
  destruct c; lra.
Qed.
