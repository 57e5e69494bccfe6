(** Proofs about the torsional buckling part of S6.py and about [s6_1_1_Nc]. *)

From Coq Require Import Reals Lra Psatz List Bool String.
From Verif Require Import Base Num RNum PyReal Symmetry S6 S6Facts.
Import ListNotations.
Open Scope R_scope.

(** * Elastic stresses *)

Lemma f_euler_value E l_e r : 0 < l_e -> 0 < r ->
  f_euler E l_e r = Ok (PI * PI * E / (l_e / r * (l_e / r))).
Proof.
  intros. unfold f_euler. assert (0 < l_e / r) by pos.
  rstep; [|lra]. rstep; [reflexivity|]. assert (0 < l_e / r * (l_e / r)) by pos. lra.
Qed.

Lemma r_ol_sq r_x r_y x_o y_o :
  r_ol r_x r_y x_o y_o * r_ol r_x r_y x_o y_o = r_x * r_x + r_y * r_y + x_o * x_o + y_o * y_o.
Proof. unfold r_ol. apply sqrt_sqrt. nra. Qed.

Lemma r_ol_pos r_x r_y x_o y_o : 0 < r_x -> 0 < r_ol r_x r_y x_o y_o.
Proof. intros. unfold r_ol. apply sqrt_lt_R0. nra. Qed.

Lemma r_ol_swap r_x r_y x_o y_o : r_ol r_y r_x y_o x_o = r_ol r_x r_y x_o y_o.
Proof. unfold r_ol. f_equal. ring. Qed.

Lemma f_torsion_value A l_ez r_x r_y x_o y_o J I_w E G :
  0 < A -> 0 < l_ez -> 0 < r_x -> 0 < J -> 0 < G ->
  f_euler_torsion A l_ez r_x r_y x_o y_o J I_w E G =
  Ok (G * J / (A * (r_x ^ 2 + r_y ^ 2 + x_o ^ 2 + y_o ^ 2))
      * (1 + PI * PI * E * I_w / (G * J * (l_ez * l_ez)))).
Proof.
  intros. unfold f_euler_torsion.
  pose proof (r_ol_pos r_x r_y x_o y_o H1) as Hr.
  pose proof (r_ol_sq r_x r_y x_o y_o) as Er.
  set (r := r_ol r_x r_y x_o y_o) in *.
  assert (0 < A * r * r) by pos.
  assert (0 < G * J * (l_ez * l_ez)) by pos.
  rstep; [|lra]. rstep; [|lra]. do 3 f_equal.
  replace (A * r * r) with (A * (r * r)) by ring. rewrite Er. f_equal. ring.
Qed.

Lemma f_torsion_swap A l_ez r_x r_y x_o y_o J I_w E G :
  f_euler_torsion A l_ez r_y r_x y_o x_o J I_w E G =
  f_euler_torsion A l_ez r_x r_y x_o y_o J I_w E G.
Proof. unfold f_euler_torsion. now rewrite r_ol_swap. Qed.

(** * The flexural-torsional stress *)

(** Smaller root of β f² - (p + q) f + p q = 0. *)
Lemma quad_root beta p q : 0 < beta <= 1 -> 0 < p -> 0 < q ->
  let v := 1 / (2 * beta) * ((p + q) - sqrt ((p + q) * (p + q) - 4 * beta * p * q)) in
  0 <= (p + q) * (p + q) - 4 * beta * p * q
  /\ 0 < v /\ v <= p /\ v <= q /\ beta * v ^ 2 - (p + q) * v + p * q = 0
  /\ (beta = 1 -> v = Rmin p q).
Proof.
  intros Hb Hp Hq v.
  assert (Hpq : 0 < p * q) by pos.
  assert (Hbpq : 0 < beta * (p * q)) by pos.
  assert (Hd : 0 <= (p + q) * (p + q) - 4 * beta * p * q).
  { assert (beta * (p * q) <= 1 * (p * q)) by (apply Rmult_le_compat_r; lra).
    pose proof (Rle_0_sqr (p - q)) as S. unfold Rsqr in S. lra. }
  split; auto.
  set (D := (p + q) * (p + q) - 4 * beta * p * q) in *.
  assert (Er : sqrt D * sqrt D = D) by now apply sqrt_sqrt.
  pose proof (sqrt_pos D) as Hr. unfold v. set (r := sqrt D) in *.
  set (w := 1 / (2 * beta) * (p + q - r)).
  assert (Ew : 2 * beta * w = p + q - r) by (unfold w; field; lra).
  assert (Hrlt : r < p + q).
  { destruct (Rlt_le_dec r (p + q)); auto. exfalso.
    assert ((p + q) * (p + q) <= r * r) by (apply Rmult_le_compat; lra).
    unfold D in Er. lra. }
  assert (Hw : 0 < w) by (unfold w; pos).
  clearbody w.
  assert (Q : beta * w ^ 2 - (p + q) * w + p * q = 0).
  { apply Rmult_eq_reg_l with (4 * beta); [|lra].
    replace (4 * beta * (beta * w ^ 2 - (p + q) * w + p * q))
      with ((2 * beta * w) * (2 * beta * w) - 2 * (p + q) * (2 * beta * w) + 4 * beta * p * q)
      by ring.
    rewrite Ew. unfold D in Er. lra. }
  assert (Q2 : (p - w) * (q - w) = (1 - beta) * (w * w)) by lra.
  assert (Q3 : 0 <= (1 - beta) * (w * w)) by (apply Rmult_le_pos; [lra|pos]).
  (* the sum of the distances is at least the larger root's *)
  assert (Hsum : 2 * beta * w <= p + q) by lra.
  assert (Hw1 : w <= p /\ w <= q).
  { destruct (Rle_lt_dec w p) as [C|C], (Rle_lt_dec w q) as [C'|C']; try tauto; exfalso.
    - assert ((p - w) * (q - w) <= 0) by nra.
      assert (Z : (p - w) * (q - w) = 0) by lra.
      apply Rmult_integral in Z. destruct Z; [|lra].
      assert (p = w) by lra. subst p. assert (beta = 1) by nra. subst beta. lra.
    - assert ((p - w) * (q - w) <= 0) by nra.
      assert (Z : (p - w) * (q - w) = 0) by lra.
      apply Rmult_integral in Z. destruct Z; [lra|].
      assert (q = w) by lra. subst q. assert (beta = 1) by nra. subst beta. lra.
    - assert (H1 : (w - p) * (w - q) < (w - p) * w).
      { apply Rmult_lt_compat_l; lra. }
      (* w > p, q: then (w-p)(w-q) = (1-β) w², and 2βw <= p+q < 2w *)
      set (s := (p + q) / 2). assert (Hs : beta * w <= s) by (unfold s; lra).
      assert (0 <= (p - q) * (p - q)) by apply Rle_0_sqr.
      assert (G1 : (w - p) * (w - q) <= (w - s) * (w - s)) by (unfold s; nra).
      assert (G2 : (w - s) * (w - s) <= ((1 - beta) * w) * ((1 - beta) * w)).
      { apply Rmult_le_compat; unfold s in *; nra. }
      assert (G3 : (1 - beta) * (w * w) <= (1 - beta) * ((1 - beta) * (w * w))) by lra.
      assert (0 < w * w) by pos.
      destruct (Req_dec beta 1) as [->|N].
      + assert (Z : (p - w) * (q - w) = 0) by lra. apply Rmult_integral in Z. lra.
      + assert (0 < 1 - beta) by lra.
        assert (w * w <= (1 - beta) * (w * w)) by (apply Rmult_le_reg_l with (1 - beta); lra).
        nra. }
  split; [auto|]. split; [tauto|]. split; [tauto|]. split; [auto|].
  intros ->. assert (Z : (p - w) * (q - w) = 0) by lra.
  apply Rmult_integral in Z. unfold Rmin. destruct (Rle_dec p q); lra.
Qed.

Lemma f_oxz_facts A l_ex l_ez r_x r_y x_o y_o J I_w E G :
  0 < A -> 0 < l_ex -> 0 < l_ez -> 0 < r_x -> 0 < J -> 0 <= I_w -> 0 < E -> 0 < G ->
  let f_x := PI * PI * E / (l_ex / r_x * (l_ex / r_x)) in
  let ro2 := r_x ^ 2 + r_y ^ 2 + x_o ^ 2 + y_o ^ 2 in
  let f_z := G * J / (A * ro2) * (1 + PI * PI * E * I_w / (G * J * (l_ez * l_ez))) in
  let beta := 1 - x_o ^ 2 / ro2 in
  exists r, f_oxz A l_ex l_ez r_x r_y x_o y_o J I_w E G = Ok r
   /\ fx_f_ox r = f_x /\ fx_f_oz r = f_z /\ fx_beta r = beta /\ 0 < beta <= 1
   /\ 0 < fx_f_oxz r /\ fx_f_oxz r <= Rmin f_x f_z
   /\ beta * fx_f_oxz r ^ 2 - (f_x + f_z) * fx_f_oxz r + f_x * f_z = 0
   /\ (x_o = 0 -> fx_f_oxz r = Rmin f_x f_z).
Proof.
  intros HA Hlx Hlz Hr HJ Hw HE HG f_x ro2 f_z beta.
  pose proof (r_ol_pos r_x r_y x_o y_o Hr) as Hro.
  pose proof (r_ol_sq r_x r_y x_o y_o) as Ero.
  set (ro := r_ol r_x r_y x_o y_o) in *.
  assert (Eb : 1 - x_o / ro * (x_o / ro) = beta).
  { unfold beta, ro2. replace (r_x ^ 2 + r_y ^ 2 + x_o ^ 2 + y_o ^ 2) with (ro * ro)
      by (rewrite Ero; ring). field. lra. }
  assert (Hro2 : 0 < ro2) by (unfold ro2; nra).
  assert (Hb : 0 < beta <= 1).
  { unfold beta.
    assert (x_o ^ 2 / ro2 < 1) by (apply div_lt_1; auto; unfold ro2; nra).
    assert (0 <= x_o ^ 2 / ro2) by (apply div_nonneg; auto; nra). lra. }
  assert (Hfx : 0 < f_x) by (unfold f_x; pos).
  assert (Hfz : 0 < f_z).
  { unfold f_z. apply Rmult_lt_0_compat; [pos|].
    assert (0 <= PI * PI * E * I_w / (G * J * (l_ez * l_ez))).
    { apply div_nonneg; pos. } lra. }
  destruct (quad_root beta f_x f_z Hb Hfx Hfz) as (Hd & V1 & V2 & V3 & V4 & V5).
  eexists. split.
  { unfold f_oxz. fold ro. rewrite (rdiv_ok x_o ro) by lra. cbn [bind]. rewrite Eb.
    rewrite f_euler_value by auto. cbn [bind]. fold f_x.
    rewrite f_torsion_value by auto. cbn [bind]. fold ro2. fold f_z.
    rewrite (rdiv_ok 1) by lra. cbn [bind].
    rewrite rroot_ok by auto. cbn [bind]. reflexivity. }
  cbn [fx_f_ox fx_f_oz fx_beta fx_f_oxz].
  split; [reflexivity|]. split; [reflexivity|]. split; [reflexivity|].
  split; [auto|]. split; [auto|]. split; [apply Rmin_glb; auto|]. split; [auto|].
  intros Hx. apply V5. unfold beta. rewrite Hx. field. lra.
Qed.

Lemma f_oc_double_facts A l_ex l_ez r_x r_y x_o y_o J I_w E G :
  0 < A -> 0 < l_ex -> 0 < l_ez -> 0 < r_x -> 0 < J -> 0 <= I_w -> 0 < E -> 0 < G ->
  let f_x := PI * PI * E / (l_ex / r_x * (l_ex / r_x)) in
  let ro2 := r_x ^ 2 + r_y ^ 2 + x_o ^ 2 + y_o ^ 2 in
  let f_z := G * J / (A * ro2) * (1 + PI * PI * E * I_w / (G * J * (l_ez * l_ez))) in
  exists f, f_oc_double_symmetric A l_ex l_ez r_x r_y x_o y_o J I_w E G = Ok f
   /\ 0 < f <= Rmin f_x f_z /\ (x_o = 0 -> f = Rmin f_x f_z).
Proof.
  intros HA Hlx Hlz Hr HJ Hw HE HG f_x ro2 f_z.
  destruct (f_oxz_facts A l_ex l_ez r_x r_y x_o y_o J I_w E G)
    as (r & Er & _ & _ & _ & _ & P & L & _ & Z); auto.
  fold f_x ro2 in L, Z. fold f_z in L, Z.
  exists (fx_f_oxz r). unfold f_oc_double_symmetric. rewrite Er. cbn [bind].
  rewrite f_torsion_value by auto. cbn [bind]. rewrite pymin_R. fold ro2. fold f_z.
  pose proof (Rmin_r f_x f_z).
  split; [f_equal; rewrite Rmin_left; lra|]. split; [lra|]. auto.
Qed.

(** * From the elastic stress to the capacity *)

Definition fnv (f_y lc : R) : R :=
  if Rle_dec lc (3 / 2) then f_y * Rpower (658 / 1000) (lc * lc)
  else f_y * (877 / 1000 / (lc * lc)).

Lemma f_n_value f_y lc : f_n_of f_y lc = Ok (fnv f_y lc).
Proof.
  unfold f_n_of, fnv, Rleb. destruct (Rle_dec lc (3 / 2)) as [C|C]; [reflexivity|].
  rewrite rdiv_ok; [reflexivity|]. nra.
Qed.

Lemma n_cz_value A_e f_y f u : 0 < f_y -> 0 < f ->
  n_cz_of A_e f_y f u =
  Ok (mk_ncz (u * A_e * fnv f_y (sqrt (f_y / f))) f (sqrt (f_y / f)) (fnv f_y (sqrt (f_y / f)))).
Proof.
  intros. unfold n_cz_of. assert (0 < f_y / f) by pos.
  rstep; [|lra]. rstep; [|lra]. rewrite f_n_value. reflexivity.
Qed.

Lemma ln_658 : ln (658 / 1000) < 0.
Proof. rewrite <- ln_1. apply ln_increasing; lra. Qed.

Lemma Rpower_658_anti x y : x <= y -> Rpower (658 / 1000) y <= Rpower (658 / 1000) x.
Proof.
  intros [L| ->]; [|lra]. unfold Rpower. left. apply exp_increasing.
  pose proof ln_658. nra.
Qed.

Lemma Rpower_658_le1 x : 0 <= x -> Rpower (658 / 1000) x <= 1.
Proof.
  intros. rewrite <- (Rpower_O (658 / 1000)) by lra. now apply Rpower_658_anti.
Qed.

(** 0.658^2.25 to four digits: its fourth power is 0.658^9. *)
Lemma Rpower_658_switch :
  3898 / 10000 < Rpower (658 / 1000) (3 / 2 * (3 / 2)) < 390 / 1000.
Proof.
  set (z := Rpower (658 / 1000) (3 / 2 * (3 / 2))).
  assert (Hz : 0 < z) by apply exp_pos.
  assert (E : z ^ 4 = (658 / 1000) ^ 9).
  { rewrite <- !Rpower_pow by (auto; lra). unfold z. rewrite Rpower_mult. f_equal.
    cbn. lra. }
  assert (Hm : forall a, 0 <= a -> a < z \/ z <= a /\ z ^ 4 <= a ^ 4).
  { intros a Ha. destruct (Rlt_le_dec a z); [now left|right]. split; auto.
    apply pow_incr. lra. }
  assert (Hn : forall a, 0 <= a -> z < a \/ a <= z /\ a ^ 4 <= z ^ 4).
  { intros a Ha. destruct (Rlt_le_dec z a); [now left|right]. split; auto.
    apply pow_incr. lra. }
  split.
  - destruct (Hm (3898 / 10000)) as [|[_ F]]; [lra|lra|]. exfalso. rewrite E in F. lra.
  - destruct (Hn (390 / 1000)) as [|[_ F]]; [lra|lra|]. exfalso. rewrite E in F. lra.
Qed.

Lemma fnv_pos f_y lc : 0 < f_y -> 0 < fnv f_y lc.
Proof.
  intros. unfold fnv. destruct (Rle_dec lc (3/2)).
  - apply Rmult_lt_0_compat; auto. apply exp_pos.
  - assert (0 < lc) by lra. pos.
Qed.

Lemma fnv_le f_y lc : 0 < f_y -> fnv f_y lc <= f_y.
Proof.
  intros. unfold fnv. destruct (Rle_dec lc (3/2)).
  - pose proof (Rpower_658_le1 (lc * lc) (Rle_0_sqr lc)). nra.
  - assert (877 / 1000 / (lc * lc) <= 1) by (apply div_le_1; nra). nra.
Qed.

Lemma fnv_anti f_y l l' : 0 < f_y -> 0 <= l -> l <= l' -> fnv f_y l' <= fnv f_y l.
Proof.
  intros Hf Hl L. unfold fnv.
  assert (l * l <= l' * l') by nra.
  destruct (Rle_dec l (3/2)) as [C|C], (Rle_dec l' (3/2)) as [C'|C']; try lra.
  - pose proof (Rpower_658_anti (l * l) (l' * l')). nra.
  - pose proof (Rpower_658_anti (l * l) (3/2 * (3/2)) ltac:(nra)).
    pose proof Rpower_658_switch.
    assert (877 / 1000 / (l' * l') <= 877 / 1000 / (9 / 4)) by (apply div_le_r; nra).
    nra.
  - assert (877 / 1000 / (l' * l') <= 877 / 1000 / (l * l)) by (apply div_le_r; nra).
    nra.
Qed.

Lemma n_cz_facts A_e f_y f u : 0 < A_e -> 0 < f_y -> 0 < f -> 0 < u ->
  exists z, n_cz_of A_e f_y f u = Ok z /\ 0 < cz_N_cz z <= u * A_e * f_y.
Proof.
  intros. eexists. split; [now apply n_cz_value|]. cbn [cz_N_cz].
  pose proof (fnv_pos f_y (sqrt (f_y / f)) H0). pose proof (fnv_le f_y (sqrt (f_y / f)) H0).
  assert (0 < u * A_e) by pos. nra.
Qed.

Lemma n_cz_mono A_e f_y f f' u z z' :
  0 < A_e -> 0 < f_y -> 0 < f -> f <= f' -> 0 < u ->
  n_cz_of A_e f_y f u = Ok z -> n_cz_of A_e f_y f' u = Ok z' -> cz_N_cz z <= cz_N_cz z'.
Proof.
  intros HA Hy Hf L Hu. rewrite !n_cz_value by lra. intros E E'.
  injection E as <-. injection E' as <-. cbn [cz_N_cz].
  assert (f_y / f' <= f_y / f) by (apply div_le_r; lra).
  assert (sqrt (f_y / f') <= sqrt (f_y / f)) by now apply sqrt_le_1_alt.
  pose proof (fnv_anti f_y _ _ Hy (sqrt_pos (f_y / f')) H0).
  assert (0 < u * A_e) by pos. nra.
Qed.

(** The jump at λ_c = 3/2: the limit from the right is at least 99.9 % of the value. *)
Lemma switch_jump f_y : 0 < f_y ->
  exists v, f_n_of f_y (3 / 2) = Ok v
  /\ 999 / 1000 * v < f_y * (877 / 1000 / (3 / 2 * (3 / 2))) < v.
Proof.
  intros H. eexists. split; [apply f_n_value|]. unfold fnv.
  destruct (Rle_dec (3/2) (3/2)) as [_|C]; [|lra].
  pose proof Rpower_658_switch.
  set (x := Rpower (658 / 1000) (3 / 2 * (3 / 2))) in *.
  replace (877 / 1000 / (3 / 2 * (3 / 2))) with (877 / 2250) by field.
  nra.
Qed.

(** * The member capacity *)

Ltac inv_bind H :=
  match type of H with
  | bind ?e _ = Ok _ => let E := fresh "E" in destruct e eqn:E; [cbn [bind] in H | discriminate H]
  end.

Definition present (o : nc_out) : list R :=
  match o_N_cx o with Some x => [x] | None => [] end ++
  match o_N_cy o with Some x => [x] | None => [] end ++
  match o_N_cz o with Some x => [x] | None => [] end.

Lemma scale_min k a b : 0 <= k -> k * Rmin a b = Rmin (k * a) (k * b).
Proof.
  intros H. unfold Rmin. destruct (Rle_dec a b), (Rle_dec (k*a) (k*b)); auto; nra.
Qed.

Lemma Nc_facts roots q l kx ky kz sym f_ref ab u phi cb ct o :
  0 <= phi ->
  s6_1_1_Nc roots q l kx ky kz sym f_ref ab u phi cb ct = Ok o ->
  o_N_s o = q_A_n q * q_k_f q * q_f_y q
  /\ o_N_c o = fold_right Rmin (o_N_s o) (present o)
  /\ o_N_c o <= o_N_s o
  /\ o_phiN_s o = phi * o_N_s o
  /\ o_phiN_c o = phi * o_N_c o
  /\ o_phiN_cx o = option_map (Rmult phi) (o_N_cx o)
  /\ o_phiN_cy o = option_map (Rmult phi) (o_N_cy o)
  /\ o_phiN_cz o = option_map (Rmult phi) (o_N_cz o)
  /\ (forall x, In x (present o) -> o_N_c o <= x <= o_N_s o).
Proof.
  intros Hphi H. unfold s6_1_1_Nc in H. destruct cb.
  - inv_bind H. inv_bind H. destruct ct.
    + inv_bind H. injection H as <-. cbn -[Rmin pymin]. rewrite !pymin_R.
      unfold s6_2_N_s, s6_2_A_e. set (N := q_A_n q * q_k_f q * q_f_y q).
      set (x := nc_N_c a). set (y := nc_N_c a0). set (z := cz_N_cz a1).
      assert (M : Rmin (Rmin (Rmin N (Rmin x N)) (Rmin y N)) (Rmin N z)
                  = Rmin (Rmin x N) (Rmin (Rmin y N) (Rmin (Rmin N z) N))).
      { unfold Rmin. repeat destruct (Rle_dec _ _); lra. }
      rewrite M.
      split; [reflexivity|]. split; [reflexivity|].
      split; [unfold Rmin; repeat destruct (Rle_dec _ _); lra|].
      split; [reflexivity|]. split; [reflexivity|].
      split; [reflexivity|]. split; [reflexivity|]. split; [reflexivity|].
      intros w [<-|[<-|[<-|[]]]]; unfold Rmin; repeat destruct (Rle_dec _ _); lra.
    + injection H as <-. cbn -[Rmin pymin]. rewrite !pymin_R.
      unfold s6_2_N_s, s6_2_A_e. set (N := q_A_n q * q_k_f q * q_f_y q).
      set (x := nc_N_c a). set (y := nc_N_c a0).
      assert (M : Rmin (Rmin N (Rmin x N)) (Rmin y N) = Rmin (Rmin x N) (Rmin (Rmin y N) N)).
      { unfold Rmin. repeat destruct (Rle_dec _ _); lra. }
      assert (M' : Rmin (Rmin (phi * N) (phi * Rmin x N)) (phi * Rmin y N)
                  = phi * Rmin (Rmin x N) (Rmin (Rmin y N) N)).
      { rewrite <- M. rewrite !scale_min by auto. reflexivity. }
      rewrite M, M'.
      split; [reflexivity|]. split; [reflexivity|].
      split; [unfold Rmin; repeat destruct (Rle_dec _ _); lra|].
      split; [reflexivity|]. split; [reflexivity|].
      split; [reflexivity|]. split; [reflexivity|]. split; [reflexivity|].
      intros w [<-|[<-|[]]]; unfold Rmin; repeat destruct (Rle_dec _ _); lra.
  - injection H as <-. cbn. repeat split; auto; try lra; contradiction.
Qed.

(** What each reported mode is. *)
Lemma Nc_modes roots q l kx ky kz sym f_ref ab u phi cb ct o :
  s6_1_1_Nc roots q l kx ky kz sym f_ref ab u phi cb ct = Ok o ->
  (o_N_cx o = None <-> cb = false) /\ (o_N_cy o = None <-> cb = false)
  /\ (o_N_cz o = None <-> cb = false \/ ct = false)
  /\ (forall v, o_N_cx o = Some v -> exists b,
        s6_3_3_N_c (q_A_n q) (q_k_f q) (l * kx) (q_r_x q) (q_f_y q) f_ref ab = Ok b
        /\ v = Rmin (nc_N_c b) (o_N_s o))
  /\ (forall v, o_N_cy o = Some v -> exists b,
        s6_3_3_N_c (q_A_n q) (q_k_f q) (l * ky) (q_r_y q) (q_f_y q) f_ref ab = Ok b
        /\ v = Rmin (nc_N_c b) (o_N_s o))
  /\ (forall v, o_N_cz o = Some v -> exists b,
        s6_3_3_N_c_torsion roots q (l * kx) (l * ky) (l * kz) sym u = Ok b
        /\ v = Rmin (cz_N_cz b) (o_N_s o)).
Proof.
  intros H. unfold s6_1_1_Nc in H. destruct cb.
  - inv_bind H. inv_bind H. destruct ct.
    + inv_bind H. injection H as <-. cbn [o_N_cx o_N_cy o_N_cz o_N_s].
      split; [split; discriminate|]. split; [split; discriminate|].
      split; [split; [discriminate|intros [|]; discriminate]|].
      split; [|split].
      * intros v Hv. injection Hv as <-. rewrite pymin_R. eauto.
      * intros v Hv. injection Hv as <-. rewrite pymin_R. eauto.
      * intros v Hv. injection Hv as <-. rewrite pymin_R, Rmin_comm. eauto.
    + injection H as <-. cbn [o_N_cx o_N_cy o_N_cz o_N_s].
      split; [split; discriminate|]. split; [split; discriminate|].
      split; [split; auto|].
      split; [|split].
      * intros v Hv. injection Hv as <-. rewrite pymin_R. eauto.
      * intros v Hv. injection Hv as <-. rewrite pymin_R. eauto.
      * discriminate.
  - injection H as <-. cbn.
    split; [tauto|]. split; [tauto|]. split; [tauto|]. repeat split; discriminate.
Qed.

Lemma Nc_no_buckling roots q l kx ky kz sym f_ref ab u phi ct :
  exists o, s6_1_1_Nc roots q l kx ky kz sym f_ref ab u phi false ct = Ok o
  /\ o_N_c o = q_A_n q * q_k_f q * q_f_y q /\ o_N_s o = o_N_c o
  /\ o_phiN_c o = phi * o_N_c o
  /\ o_N_cx o = None /\ o_N_cy o = None /\ o_N_cz o = None.
Proof. eexists. split; [reflexivity|]. cbn. tauto. Qed.

Ltac minle :=
  solve [ apply Rle_refl
        | eapply Rle_trans; [apply Rmin_l|]; minle
        | eapply Rle_trans; [apply Rmin_r|]; minle ].

Lemma Nc_more_checks roots q l kx ky kz sym f_ref ab u phi cb ct cb' ct' o o' :
  Bool.le cb cb' -> Bool.le ct ct' ->
  s6_1_1_Nc roots q l kx ky kz sym f_ref ab u phi cb ct = Ok o ->
  s6_1_1_Nc roots q l kx ky kz sym f_ref ab u phi cb' ct' = Ok o' ->
  o_N_c o' <= o_N_c o.
Proof.
  intros Lb Lt H H'.
  destruct cb, cb'; try (cbn in Lb; discriminate);
  destruct ct, ct'; try (cbn in Lt; discriminate);
  unfold s6_1_1_Nc in H, H';
  repeat inv_bind H; repeat inv_bind H';
  injection H as <-; injection H' as <-; cbn [o_N_c]; rewrite ?pymin_R;
  repeat match goal with
  | A : Ok _ = Ok _ |- _ => injection A as A; subst
  | A : ?t = Ok _, B : ?t = Ok _ |- _ => rewrite A in B
  end;
  repeat apply Rmin_glb; minle.
Qed.

(** * Exchanging the axes *)

Definition swap_sect (q : sect6) : sect6 :=
  mk_sect6 (q_A_n q) (q_k_f q) (q_r_y q) (q_r_x q) (q_y_o q) (q_x_o q)
    (q_J q) (q_I_w q) (q_f_y q) (q_E q) (q_G q).

Lemma f_oc_single_swap A l_ex l_ey l_ez r_x r_y x_o y_o J I_w E G a :
  axis_is "x" a = false ->
  f_oc_single_symmetric A l_ex l_ey l_ez r_x r_y x_o y_o J I_w E G (Some [a]) =
  f_oc_single_symmetric A l_ey l_ex l_ez r_y r_x y_o x_o J I_w E G (Some [AxStr "x"]).
Proof. intros H. unfold f_oc_single_symmetric. cbn [symcount bind]. rewrite H. reflexivity. Qed.

Lemma f_oc_swap roots q l_ex l_ey l_ez :
  f_oc roots q l_ex l_ey l_ez (Some [AxStr "y"]) =
  f_oc roots (swap_sect q) l_ey l_ex l_ez (Some [AxStr "x"]).
Proof. reflexivity. Qed.

Lemma Nc_swap roots q l kx ky kz f_ref ab u phi cb ct o :
  s6_1_1_Nc roots q l kx ky kz (Some [AxStr "y"]) f_ref ab u phi cb ct = Ok o ->
  exists o', s6_1_1_Nc roots (swap_sect q) l ky kx kz (Some [AxStr "x"]) f_ref ab u phi cb ct
             = Ok o'
  /\ o_N_s o' = o_N_s o /\ o_N_c o' = o_N_c o /\ o_phiN_c o' = o_phiN_c o
  /\ o_N_cx o' = o_N_cy o /\ o_N_cy o' = o_N_cx o /\ o_N_cz o' = o_N_cz o.
Proof.
  intros H. unfold s6_1_1_Nc in *. destruct cb.
  - inv_bind H. inv_bind H.
    change (q_A_n (swap_sect q)) with (q_A_n q). change (q_k_f (swap_sect q)) with (q_k_f q).
    change (q_f_y (swap_sect q)) with (q_f_y q).
    change (q_r_x (swap_sect q)) with (q_r_y q). change (q_r_y (swap_sect q)) with (q_r_x q).
    rewrite E0, E. cbn [bind]. destruct ct.
    + inv_bind H. injection H as <-.
      unfold s6_3_3_N_c_torsion in *. rewrite f_oc_swap in E1.
      change (q_A_n (swap_sect q)) with (q_A_n q).
      change (q_k_f (swap_sect q)) with (q_k_f q).
      change (q_f_y (swap_sect q)) with (q_f_y q). rewrite E1. cbn [bind].
      eexists. split; [reflexivity|]. cbn [o_N_s o_N_c o_phiN_c o_N_cx o_N_cy o_N_cz].
      rewrite !pymin_R.
      assert (M : forall N x y, Rmin (Rmin N y) x = Rmin (Rmin N x) y).
      { intros. unfold Rmin. repeat destruct (Rle_dec _ _); lra. }
      rewrite (M _ (Rmin (nc_N_c a) _)). tauto.
    + injection H as <-. eexists. split; [reflexivity|].
      cbn [o_N_s o_N_c o_phiN_c o_N_cx o_N_cy o_N_cz]. rewrite !pymin_R.
      assert (M : forall N x y, Rmin (Rmin N y) x = Rmin (Rmin N x) y).
      { intros. unfold Rmin. repeat destruct (Rle_dec _ _); lra. }
      rewrite (M _ (Rmin (nc_N_c a) _)). rewrite (M _ (phi * Rmin (nc_N_c a) _)). tauto.
  - injection H as <-. eexists. split; [reflexivity|]. cbn. tauto.
Qed.

(** * Default symmetry *)

Lemma Nc_default_sym roots q l kx ky kz f_ref ab u phi ct :
  s6_1_1_Nc roots q l kx ky kz None f_ref ab u phi true ct <> Err TypeError ->
  ct = false \/ (exists e, e <> TypeError /\
     s6_1_1_Nc roots q l kx ky kz None f_ref ab u phi true ct = Err e).
Proof.
  intros H. destruct ct; [right|now left].
  unfold s6_1_1_Nc in *.
  destruct (s6_3_3_N_c _ _ _ (q_r_x q) _ _ _) as [x|e]; cbn [bind] in *.
  - destruct (s6_3_3_N_c _ _ _ (q_r_y q) _ _ _) as [y|e]; cbn [bind] in *.
    + exfalso. apply H. reflexivity.
    + exists e. split; [congruence|reflexivity].
  - exists e. split; [congruence|reflexivity].
Qed.

Lemma Nc_default_sym_fails roots q l kx ky kz f_ref ab u phi :
  forall o, s6_1_1_Nc roots q l kx ky kz None f_ref ab u phi true true <> Ok o.
Proof.
  intros o H. unfold s6_1_1_Nc in H. inv_bind H. inv_bind H. discriminate.
Qed.

Lemma Nc_default_sym_no_torsion roots q l kx ky kz sym f_ref ab u phi cb :
  s6_1_1_Nc roots q l kx ky kz None f_ref ab u phi cb false =
  s6_1_1_Nc roots q l kx ky kz sym f_ref ab u phi cb false.
Proof. reflexivity. Qed.
