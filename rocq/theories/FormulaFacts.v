(** Proofs about equations solved by the bending formulas of S5.py, and about equivalent
    formulations of the shear and buckling formulas. *)

From Coq Require Import Reals Lra Psatz List.
From Verif Require Import Base Num RNum PyReal S5 S6 S5Facts S6Facts S6Torsion.
Import ListNotations.
Open Scope R_scope.

Ltac posp := repeat (pos; try (apply pow_le)); pos.

(** * The reference buckling moment *)

Lemma M_o_equation l_e I_y J I_w beta_x E G m :
  0 < l_e -> 0 < I_y -> 0 < J -> 0 <= I_w -> 0 < E -> 0 < G ->
  s5_6_1_M_o l_e I_y J I_w beta_x E G = Ok m ->
  let P := PI ^ 2 * E * I_y / l_e ^ 2 in
  let W := PI ^ 2 * E * I_w / l_e ^ 2 in
  m ^ 2 = P * (G * J + W + beta_x * m)
  /\ forall x, 0 < x -> x ^ 2 = P * (G * J + W + beta_x * x) -> x = m.
Proof.
  intros Hl HI HJ Hw HE HG Hm P W.
  destruct (M_o_positive l_e I_y J I_w beta_x E G) as (m' & E' & Hp); auto.
  rewrite Hm in E'. injection E' as <-.
  rewrite M_o_value in Hm by auto. cbv zeta in Hm. injection Hm as Hm.
  assert (Pp : 0 < P) by (unfold P; posp).
  assert (Wp : 0 <= W) by (unfold W; posp).
  replace (PI * PI * E * I_y / (l_e * l_e)) with P in Hm by (unfold P; field; lra).
  replace (PI * PI * E * I_w / (l_e * l_e)) with W in Hm by (unfold W; field; lra).
  assert (Gp : 0 < G * J) by pos.
  assert (Sa : sqrt P * sqrt P = P) by (apply sqrt_sqrt; lra).
  assert (Rp : 0 <= G * J + W + beta_x / 2 * (beta_x / 2) * P) by nra.
  assert (Sb := sqrt_sqrt _ Rp).
  set (ra := sqrt P) in *. set (rb := sqrt (G * J + W + _)) in *.
  assert (Eq : m ^ 2 = P * (G * J + W + beta_x * m)).
  { rewrite <- Hm.
    replace ((ra * (rb + beta_x / 2 * ra)) ^ 2)
      with ((ra * ra) * (rb * rb) + beta_x * (ra * ra) * (ra * rb)
            + (beta_x / 2) ^ 2 * (ra * ra) * (ra * ra)) by field.
    rewrite Sb, Sa. replace (ra * (rb + beta_x / 2 * ra))
      with (ra * rb + beta_x / 2 * (ra * ra)) by ring. rewrite Sa. field. }
  split; [exact Eq|]. intros x Hx Ex.
  assert ((x - m) * (x + m - P * beta_x) = 0) by nra.
  apply Rmult_integral in H as [H|H]; [lra|]. exfalso.
  assert (x * m = - (P * (G * J + W))) by nra.
  assert (0 < P * (G * J + W)) by (apply Rmult_lt_0_compat; lra). nra.
Qed.

(** * The slenderness reduction factor *)

Lemma alpha_s_equation M_s M_o a :
  0 < M_s -> 0 < M_o -> s5_6_alpha_s M_s M_o = Ok a ->
  a ^ 2 + 12 / 10 * (M_s / M_o) * a = 108 / 100
  /\ (forall x, 0 < x -> x ^ 2 + 12 / 10 * (M_s / M_o) * x = 108 / 100 -> x = a)
  /\ a * M_s < 9 / 10 * M_o.
Proof.
  intros Hs Ho E. rewrite alpha_s_value in E by lra. injection E as <-.
  set (q := M_s / M_o). assert (Hq : 0 < q) by (unfold q; pos).
  assert (Eq : h q ^ 2 + 12 / 10 * q * h q = 108 / 100).
  { unfold h. assert (S := sqrt_sqrt (q * q + 3) ltac:(nra)). set (r := sqrt _) in *. nra. }
  pose proof (h_pos q) as Hp. split; [exact Eq|]. split.
  - intros x Hx Ex. assert ((x - h q) * (x + h q + 12 / 10 * q) = 0) by nra.
    apply Rmult_integral in H as [H|H]; [lra|exfalso; lra].
  - assert (M_s = q * M_o) by (unfold q; field; lra). rewrite H.
    assert (q * h q < 9 / 10) by nra. nra.
Qed.

(** The member capacity for a fixed M_o grows with the section capacity. *)
Lemma member_grows M_s M_s' M_o a a' :
  0 < M_s -> M_s < M_s' -> 0 < M_o ->
  s5_6_alpha_s M_s M_o = Ok a -> s5_6_alpha_s M_s' M_o = Ok a' -> a * M_s < a' * M_s'.
Proof.
  intros Hs L Ho E E'.
  destruct (alpha_s_equation _ _ _ Hs Ho E) as (Q & _ & B).
  destruct (alpha_s_equation _ _ _ (Rlt_trans _ _ _ Hs L) Ho E') as (Q' & _ & B').
  rewrite alpha_s_value in E, E' by lra. injection E as Ea. injection E' as Ea'.
  assert (0 < a) by (rewrite <- Ea; apply h_pos).
  assert (0 < a') by (rewrite <- Ea'; apply h_pos).
  set (y := a * M_s) in *. set (y' := a' * M_s') in *.
  (* y^2 = M_s^2 (1.08 - 1.2 y / M_o) *)
  assert (Y : y ^ 2 * M_o = M_s ^ 2 * (108 / 100 * M_o - 12 / 10 * y)).
  { unfold y. apply (f_equal (fun z => z * M_s ^ 2 * M_o)) in Q.
    replace ((a ^ 2 + 12 / 10 * (M_s / M_o) * a) * M_s ^ 2 * M_o)
      with (a ^ 2 * M_s ^ 2 * M_o + 12 / 10 * M_s * a * M_s ^ 2) in Q by (field; lra). lra. }
  assert (Y' : y' ^ 2 * M_o = M_s' ^ 2 * (108 / 100 * M_o - 12 / 10 * y')).
  { unfold y'. apply (f_equal (fun z => z * M_s' ^ 2 * M_o)) in Q'.
    replace ((a' ^ 2 + 12 / 10 * (M_s' / M_o) * a') * M_s' ^ 2 * M_o)
      with (a' ^ 2 * M_s' ^ 2 * M_o + 12 / 10 * M_s' * a' * M_s' ^ 2) in Q' by (field; lra). lra. }
  destruct (Rlt_le_dec y y') as [|C]; auto. exfalso.
  assert (0 < y') by (unfold y'; pos).
  assert (y' ^ 2 <= y ^ 2) by nra.
  assert (0 < 108 / 100 * M_o - 12 / 10 * y) by lra.
  assert (M_s ^ 2 < M_s' ^ 2) by nra.
  assert (M_s ^ 2 * (108 / 100 * M_o - 12 / 10 * y)
          < M_s' ^ 2 * (108 / 100 * M_o - 12 / 10 * y)) by nra.
  assert (M_s' ^ 2 * (108 / 100 * M_o - 12 / 10 * y)
          <= M_s' ^ 2 * (108 / 100 * M_o - 12 / 10 * y')) by nra.
  nra.
Qed.

Lemma Mb_grows f_y f_y' Z_e Z_e' M_o alpha_m a a' :
  0 < f_y -> 0 < Z_e -> f_y <= f_y' -> Z_e <= Z_e' -> 0 < M_o -> 0 <= alpha_m ->
  s5_6_alpha_s (s5_2_M_s f_y Z_e) M_o = Ok a ->
  s5_6_alpha_s (s5_2_M_s f_y' Z_e') M_o = Ok a' ->
  s5_6_1_Mb (s5_2_M_s f_y Z_e) alpha_m a <= s5_6_1_Mb (s5_2_M_s f_y' Z_e') alpha_m a'.
Proof.
  unfold s5_2_M_s, s5_6_1_Mb. intros Hf Hz Lf Lz Ho Ha E E'.
  assert (P : 0 < f_y * Z_e) by pos.
  assert (L : f_y * Z_e <= f_y' * Z_e') by (apply Rmult_le_compat; lra).
  destruct L as [L|L].
  - pose proof (member_grows _ _ _ _ _ P L Ho E E'). nra.
  - rewrite <- L in *. rewrite E in E'. injection E' as <-. lra.
Qed.

Lemma Mb_shrinks_with_length l l' I_y J I_w beta_x E G M_s alpha_m mo mo' a a' :
  0 < l -> l <= l' -> 0 < I_y -> 0 < J -> 0 <= I_w -> 0 < E -> 0 < G ->
  0 < M_s -> 0 <= alpha_m ->
  s5_6_1_M_o l I_y J I_w beta_x E G = Ok mo ->
  s5_6_1_M_o l' I_y J I_w beta_x E G = Ok mo' ->
  s5_6_alpha_s M_s mo = Ok a -> s5_6_alpha_s M_s mo' = Ok a' ->
  s5_6_1_Mb M_s alpha_m a' <= s5_6_1_Mb M_s alpha_m a.
Proof.
  intros Hl L HI HJ Hw HE HG Hs Ha E1 E2 E3 E4. unfold s5_6_1_Mb.
  destruct L as [L| ->].
  - destruct (M_o_positive l I_y J I_w beta_x E G) as (x & Q & Px); auto.
    rewrite E1 in Q. injection Q as <-.
    destruct (M_o_positive l' I_y J I_w beta_x E G) as (x & Q & Px'); auto; [lra|].
    rewrite E2 in Q. injection Q as <-.
    pose proof (M_o_decreasing l l' I_y J I_w beta_x E G _ _ Hl L HI HJ Hw HE HG E1 E2) as D.
    pose proof (alpha_s_mono M_s mo M_s mo' a a' Hs Px' ltac:(lra) ltac:(lra) (or_intror D) E3 E4).
    rewrite !(Rmult_comm alpha_m), !Rmult_assoc.
    apply Rmult_le_compat_r; [nra|lra].
  - rewrite E1 in E2. injection E2 as <-. rewrite E3 in E4. injection E4 as <-. lra.
Qed.

(** * Equivalent formulations *)

Lemma interface_is_weld t f_y Q I s :
  s5_11_4_V_w_Interface t f_y Q I s = s5_11_4_V_w_Weld (WFloat (s * f_y * t)) Q I.
Proof.
  unfold s5_11_4_V_w_Interface, s5_11_4_V_w_Weld, py_sum. cbn [bind fold_left].
  f_equal. ring.
Qed.

Lemma chs_is_generic A f_y s k :
  s5_11_4_V_w_CHS A f_y s k = s5_11_4_V_w_Generic (k * A) f_y s.
Proof. unfold s5_11_4_V_w_CHS, s5_11_4_V_w_Generic. ring. Qed.

Lemma euler_load E A r l f :
  f_euler E l r = Ok f -> N_euler E (A * r ^ 2) l = Ok (A * f).
Proof.
  unfold f_euler, N_euler, rdiv. destruct (Req_EM_T r 0) as [|Hr]; [discriminate|]. cbn [bind].
  destruct (Req_EM_T (l / r * (l / r)) 0) as [|Hs]; [discriminate|]. intros H. injection H as <-.
  assert (l <> 0). { intros ->. apply Hs. unfold Rdiv. rewrite Rmult_0_l. ring. }
  destruct (Req_EM_T (l * l) 0) as [Hl|_]; [nra|]. f_equal. field. auto.
Qed.

Lemma euler_load_iff E r l : r <> 0 ->
  (exists f, f_euler E l r = Ok f) <-> (exists N, N_euler E (r ^ 2) l = Ok N).
Proof.
  intros Hr. split.
  - intros (f & H). apply (euler_load E 1 r l) in H. rewrite Rmult_1_l in H. eauto.
  - unfold N_euler, f_euler, rdiv. intros (N & H).
    destruct (Req_EM_T (l * l) 0) as [|Hl]; [discriminate|].
    destruct (Req_EM_T r 0) as [|_]; [contradiction|]. cbn [bind].
    destruct (Req_EM_T (l / r * (l / r)) 0) as [Hs|_]; eauto. exfalso. apply Hl.
    assert (l / r = 0) by nra. assert (l = l / r * r) by (field; auto). rewrite H0 in H1. nra.
Qed.
