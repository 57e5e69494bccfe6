(** Absolute rounding errors, for the formulas in which numbers of like size are subtracted. *)

From Coq Require Import ZArith Reals List Bool Lia Lra Psatz Floats.SpecFloat.
From Verif Require Import Base Num PyNum FloatSpec FloatValSpec FloatRound FloatOps FloatFacts FloatError FloatUtil
  FloatUtilSpec FloatCheck FloatLocs FloatCapacity FloatRoot FloatFormulaSpec FloatCalc FloatFormulas S5 NumFormulas.
Import ListNotations.
Open Scope R_scope.
Local Opaque SFadd SFsub SFmul SFdiv SFsqrt.

Definition nr (E : R) (x : pynum) (X : R) : Prop := finite_double x /\ Rabs (val x - X) <= E.

(** Half the least positive double. *)
Definition h75 : R := bp (-1075).
Lemma h_small : 0 < h75 <= u53 / 1000000.
Proof.
  unfold h75. split; [apply bp_pos|]. apply Rle_trans with (bp (-75)); [apply bp_le; lia|].
  unfold u53. replace (bp (-75)) with (bp (-53) * bp (-22)) by (rewrite <- bp_add; f_equal; lia).
  unfold Rdiv. apply Rmult_le_compat_l; [left; apply bp_pos|]. change (-22)%Z with (- (22))%Z; rewrite <- bp_inv, bp_Z by lia.
  apply Rinv_le_contravar; [lra|]. apply IZR_le. lia.
Qed.

Lemma nr_weak E F x X : E <= F -> nr E x X -> nr F x X.
Proof. intros H (Fx & B). split; [exact Fx|lra]. Qed.

Lemma nr_fin E x X : nr E x X -> exists f, x = PFlt f /\ fin64 f /\ val x = sfR f.
Proof. intros (F & _). apply finite_double_fin in F. destruct F as (f & -> & F). exists f. now rewrite val_sfR. Qed.

Lemma nr_exact x : finite_double x -> nr 0 x (val x).
Proof. intros F. split; [exact F|]. rewrite Rminus_eq_0, Rabs_R0. lra. Qed.

Lemma nr_nonneg E x X : nr E x X -> 0 <= E.
Proof. intros (_ & B). apply Rle_trans with (2 := B), Rabs_pos. Qed.

Lemma big_bp C : C <= 1000000000000 -> C <= bp 1022.
Proof.
  intros H. apply Rle_trans with (1 := H). apply Rle_trans with (bp 40); [|apply bp_le; lia].
  rewrite bp_Z by lia. apply IZR_le. cbn. lia.
Qed.

Lemma n_op E G v V f C : rounds v f -> Rabs (v - V) <= E -> Rabs V <= C -> C + E <= 1000000000000 ->
  E + u53 * (C + E) + h75 <= G -> nr G (PFlt f) V.
Proof.
  intros R B L S H. assert (A : Rabs v <= C + E) by (apply abs_le in B, L; apply abs_le; lra).
  destruct (rounds_err v f R) as [F K]; [apply Rle_trans with (1 := A); now apply big_bp|].
  split; [now apply fin_double|]. rewrite val_sfR.
  assert (u53 * Rabs v <= u53 * (C + E)) by (pose proof u53_small; apply Rmult_le_compat_l; lra).
  fold h75 in K. replace (sfR f - V) with ((sfR f - v) + (v - V)) by ring.
  apply Rle_trans with (1 := Rabs_triang _ _). lra.
Qed.

Lemma n_sub E F G C x y X Y : nr E x X -> nr F y Y -> Rabs (X - Y) <= C -> C + (E + F) <= 1000000000000 ->
  (E + F) + u53 * (C + (E + F)) + h75 <= G -> nr G (nsub x y) (X - Y).
Proof.
  intros Nx Ny L S H. destruct (nr_fin _ _ _ Nx) as (f & -> & Fx & Vx), (nr_fin _ _ _ Ny) as (g & -> & Fy & Vy).
  apply (n_op (E + F) G _ _ _ C (sub_rounds f g Fx Fy)); auto. destruct Nx as (_ & Bx), Ny as (_ & By).
  rewrite Vx in Bx. rewrite Vy in By. apply abs_le in Bx, By. apply abs_le. lra.
Qed.

Lemma n_add E F G C x y X Y : nr E x X -> nr F y Y -> Rabs (X + Y) <= C -> C + (E + F) <= 1000000000000 ->
  (E + F) + u53 * (C + (E + F)) + h75 <= G -> nr G (nadd x y) (X + Y).
Proof.
  intros Nx Ny L S H. destruct (nr_fin _ _ _ Nx) as (f & -> & Fx & Vx), (nr_fin _ _ _ Ny) as (g & -> & Fy & Vy).
  apply (n_op (E + F) G _ _ _ C (add_rounds f g Fx Fy)); auto. destruct Nx as (_ & Bx), Ny as (_ & By).
  rewrite Vx in Bx. rewrite Vy in By. apply abs_le in Bx, By. apply abs_le. lra.
Qed.

Lemma mul_err x y X Y E F A B : Rabs (x - X) <= E -> Rabs (y - Y) <= F -> Rabs X <= A -> Rabs Y <= B ->
  Rabs (x * y - X * Y) <= E * B + F * A + E * F.
Proof.
  intros Hx Hy HX HY. replace (x * y - X * Y) with ((x - X) * Y + (y - Y) * X + (x - X) * (y - Y)) by ring.
  apply Rle_trans with (1 := Rabs_triang _ _). apply Rplus_le_compat; [apply Rle_trans with (1 := Rabs_triang _ _); apply Rplus_le_compat|];
    rewrite Rabs_mult; apply Rmult_le_compat; auto using Rabs_pos.
Qed.

Lemma n_mul E F G A B C x y X Y : nr E x X -> nr F y Y -> Rabs X <= A -> Rabs Y <= B -> Rabs (X * Y) <= C ->
  C + (E * B + F * A + E * F) <= 1000000000000 ->
  (E * B + F * A + E * F) + u53 * (C + (E * B + F * A + E * F)) + h75 <= G -> nr G (nmul x y) (X * Y).
Proof.
  intros Nx Ny HA HB HC S H. destruct (nr_fin _ _ _ Nx) as (f & -> & Fx & Vx), (nr_fin _ _ _ Ny) as (g & -> & Fy & Vy).
  apply (n_op (E * B + F * A + E * F) G _ _ _ C (mul_rounds f g Fx Fy)); auto. rewrite <- Vx, <- Vy.
  apply mul_err; auto; [apply Nx|apply Ny].
Qed.

(** Division by something at least [b], computed to within a thousandth of [b]. *)
Lemma n_div E F G b C x y X Y : nr E x X -> nr F y Y -> 0 < b <= Y -> F <= b / 1000 -> Rabs (X / Y) <= C ->
  C + (E + C * F) * (1002 / 1000 / Y) <= 1000000000000 ->
  (E + C * F) * (1002 / 1000 / Y) + u53 * (C + (E + C * F) * (1002 / 1000 / Y)) + h75 <= G ->
  pydiv x y = Ok (ndiv x y) /\ nr G (ndiv x y) (X / Y).
Proof.
  intros Nx Ny Hb HF HC S H. pose proof (nr_nonneg _ _ _ Nx) as E0. pose proof (nr_nonneg _ _ _ Ny) as F0.
  destruct (nr_fin _ _ _ Nx) as (f & -> & Fx & Vx), (nr_fin _ _ _ Ny) as (g & -> & Fy & Vy).
  assert (Py : 999 / 1000 * Y <= sfR g).
  { destruct Ny as (_ & By). rewrite Vy in By. apply abs_le in By. lra. }
  split.
  - unfold pydiv. rewrite fin_nonzero; [reflexivity|apply Ny|rewrite Vy; lra].
  - apply (n_op ((E + C * F) * (1002 / 1000 / Y)) G _ _ _ C (div_rounds f g Fx Fy ltac:(lra))); auto.
    destruct Nx as (_ & Bx), Ny as (_ & By). rewrite Vx in Bx. rewrite Vy in By.
    replace (sfR f / sfR g - X / Y) with (((sfR f - X) - X / Y * (sfR g - Y)) * / sfR g) by (field; lra).
    rewrite Rabs_mult. apply Rmult_le_compat; try apply Rabs_pos.
    + unfold Rminus at 1. apply Rle_trans with (1 := Rabs_triang _ _). apply Rplus_le_compat; [exact Bx|]. rewrite Rabs_Ropp, Rabs_mult.
      apply Rmult_le_compat; auto using Rabs_pos.
    + rewrite Rabs_right by (apply Rle_ge, Rlt_le, Rinv_0_lt_compat; lra).
      apply Rle_trans with (/ (999 / 1000 * Y)); [apply Rinv_le_contravar; lra|]. rewrite Rinv_mult.
      unfold Rdiv at 1. apply Rmult_le_compat_r; [apply Rlt_le, Rinv_0_lt_compat; lra|]. lra.
Qed.

Lemma close_nr k e x X : close k e x X -> nr (k * u53 * X) x X.
Proof. intros (F & E & _). now split. Qed.

Lemma nr_close k e x X : nr (k * u53 * X) x X -> bp (- e) <= X <= bp e -> close k e x X.
Proof. intros (F & E) B. split; [exact F|]. split; assumption. Qed.

(** ** The slenderness factor for bending *)
Section Pow.
Variable pw : pynum -> pynum -> res pynum.
Hypothesis good : good_pow pw.

Lemma alpha_s_near Ms Mo : moderate Ms -> moderate Mo ->
  exists a, ns5_6_alpha_s pw Ms Mo = Ok a /\ finite_double a /\
    Rabs (val a - 6 / 10 * (sqrt ((val Ms / val Mo) ^ 2 + 3) - val Ms / val Mo)) <= bp (-49) * (1 + val Ms / val Mo).
Proof.
  intros Ma Mb. unfold ns5_6_alpha_s.
  destruct (cdiv _ _ _ _ _ _ _ _ (moderate_close Ms Ma) (moderate_close Mo Mb)) as [-> C1]; try side. cbn [bind].
  set (q := ndiv Ms Mo) in *. set (Q := val Ms / val Mo) in *.
  destruct (csquare pw good _ _ _ _ C1) as (s & -> & C2); try side. cbn [bind].
  apply close_weak with (k' := 65 / 10) (e' := 240%Z) in C2; [|lra|lia].
  change (nint 3) with (PInt 3). rewrite addi by apply C2.
  pose proof (cint 3 ltac:(lia)) as C0. apply close_weak with (k' := 65 / 10) (e' := 240%Z) in C0; [|lra|lia].
  pose proof (cadd _ _ _ _ _ _ C2 C0 ltac:(lra) ltac:(lia)) as C3.
  destruct (croot pw good _ _ 121 _ _ C3) as (r & -> & C4); try side. cbn [bind].
  set (W := sqrt (Q * Q + 3)) in *. replace (Q ^ 2) with (Q * Q) by ring. fold W.
  pose proof (close_pos _ _ _ _ C1) as PQ. pose proof (close_pos _ _ _ _ C4) as PW.
  assert (WW : W * W = Q * Q + 3) by (apply sqrt_sqrt; nra).
  assert (QW : Q < W <= Q + 1733 / 1000) by (split; nra).
  destruct (close_fin _ _ _ _ C1) as (fq & Eq & Fq & Vq), (close_fin _ _ _ _ C4) as (fr & Er & Fr & Vr).
  destruct C1 as (_ & E1 & B1), C4 as (_ & E4 & _). rewrite Vq in E1. rewrite Vr in E4.
  pose proof u53_small as U. pose proof u53_val as U'.
  assert (QB : Q <= bp 120) by apply B1.
  assert (D0 : Rabs ((sfR fr - sfR fq) - (W - Q)) <= 8 * u53 * W + 8 / 10 * u53 * W + 11 / 10 * u53 * Q).
  { apply abs_le in E1, E4. apply abs_le. assert (0 < u53 * W) by now apply Rmult_lt_0_compat. lra. }
  set (K := 8 * u53 * W + 8 / 10 * u53 * W + 11 / 10 * u53 * Q) in *.
  assert (UQ : 0 < u53 * Q) by now apply Rmult_lt_0_compat.
  assert (UW : u53 * W <= u53 * Q + 1733 / 1000 * u53) by (replace (1733 / 1000 * u53) with (u53 * (1733 / 1000)) by ring; rewrite <- Rmult_plus_distr_l; apply Rmult_le_compat_l; lra).
  assert (KB : K <= u53 * (99 / 10 * Q + 153 / 10)) by (unfold K; lra).
  assert (K0 : 0 <= K) by (unfold K; assert (0 < u53 * W) by (apply Rmult_lt_0_compat; lra); lra).
  assert (Bg : Rabs (sfR fr - sfR fq) <= 1733 / 1000 + K) by (apply abs_le in D0; apply abs_le; lra).
  assert (KL : K <= Q + 1).
  { apply Rle_trans with (1 := KB). assert (u53 * (99 / 10 * Q + 153 / 10) <= 1 / 1000 * (99 / 10 * Q + 153 / 10)) by (apply Rmult_le_compat_r; lra). lra. }
  assert (HB : bp 120 + 100 <= bp 1022).
  { apply Rle_trans with (bp 120 + bp 120); [|].
    - apply Rplus_le_compat_l. apply Rle_trans with (bp 7); [rewrite bp_Z by lia; apply IZR_le; cbn; lia|apply bp_le; lia].
    - replace (bp 120 + bp 120) with (bp (120 + 1)) by (rewrite bp_double; ring). apply bp_le. lia. }
  destruct (sub_rel fr fq Fr Fq) as (e & He & Fs & Es); [lra|].
  rewrite Eq, Er. change (nsub (PFlt fr) (PFlt fq)) with (PFlt (SFsub f64 e64 fr fq)).
  set (t := SFsub f64 e64 fr fq) in *.
  assert (ND : Rabs (sfR t - (W - Q)) <= K + u53 * (1733 / 1000 + K)).
  { rewrite Es. replace ((sfR fr - sfR fq) * (1 + e) - (W - Q)) with (((sfR fr - sfR fq) - (W - Q)) + (sfR fr - sfR fq) * e) by ring.
    apply Rle_trans with (1 := Rabs_triang _ _). apply Rplus_le_compat; [exact D0|]. rewrite Rabs_mult, (Rmult_comm u53).
    apply Rmult_le_compat; auto using Rabs_pos. }
  set (K2 := K + u53 * (1733 / 1000 + K)) in *.
  assert (UK : u53 * K <= K / 1000) by (unfold Rdiv; rewrite (Rmult_comm K); apply Rmult_le_compat_r; lra).
  assert (UK0 : 0 <= u53 * K) by (apply Rmult_le_pos; lra).
  (* the literal 0.6 *)
  destruct (clit 6 10 ltac:(lia) ltac:(lia)) as (Fl & El & _).
  apply finite_double_fin in Fl. destruct Fl as (fl6 & E6 & F6). rewrite E6, val_sfR in El. rewrite E6.
  change (nmul (PFlt fl6) (PFlt t)) with (PFlt (SFmul f64 e64 fl6 t)).
  assert (ML : Rabs (sfR fl6 * sfR t - 6 / 10 * (W - Q)) <= (66 / 100 * u53) * (1733 / 1000) + K2 * (6 / 10) + (66 / 100 * u53) * K2).
  { apply mul_err; try lra; rewrite Rabs_right; lra. }
  set (K3 := (66 / 100 * u53) * (1733 / 1000) + K2 * (6 / 10) + (66 / 100 * u53) * K2) in *.
  assert (K2L : 0 <= K2 <= K * (1001 / 1000) + 18 / 10 * u53) by (unfold K2; lra).
  assert (U2 : 66 / 100 * u53 * K2 <= K2 / 1000) by (unfold Rdiv; rewrite (Rmult_comm K2 (/ 1000)); apply Rmult_le_compat_r; lra).
  assert (U20 : 0 <= 66 / 100 * u53 * K2) by (apply Rmult_le_pos; lra).
  assert (K3L : 0 <= K3 <= 602 / 1000 * K + 24 / 10 * u53) by (unfold K3; lra).
  assert (Mb' : Rabs (sfR fl6 * sfR t) <= 11 / 10 + K3) by (apply abs_le in ML; apply abs_le; lra).
  destruct (mul_rel fl6 t F6 Fs) as (e2 & h & He2 & Hh & Fm & Em); [lra|].
  eexists. split; [reflexivity|]. split; [now apply fin_double|]. rewrite val_sfR, Em.
  replace (sfR fl6 * sfR t * (1 + e2) + h - 6 / 10 * (W - Q)) with ((sfR fl6 * sfR t - 6 / 10 * (W - Q)) + (sfR fl6 * sfR t * e2 + h)) by ring.
  apply Rle_trans with (1 := Rabs_triang _ _).
  assert (T2 : Rabs (sfR fl6 * sfR t * e2 + h) <= (11 / 10 + K3) * u53 + h75).
  { apply Rle_trans with (1 := Rabs_triang _ _). apply Rplus_le_compat; [|exact Hh]. rewrite Rabs_mult. apply Rmult_le_compat; auto using Rabs_pos. }
  assert (U3 : K3 * u53 <= K3 / 1000) by (unfold Rdiv; apply Rmult_le_compat_l; lra).
  pose proof h_small as Hs.
  assert (B49 : bp (-49) = 16 * u53) by (unfold u53; change (-49)%Z with (-53 + 1 + 1 + 1 + 1)%Z; rewrite !bp_double; ring).
  rewrite B49. apply Rle_trans with (K3 + ((11 / 10 + K3) * u53 + h75)); [lra|]. lra.
Qed.

Lemma alpha_s_rel Ms Mo : moderate Ms -> moderate Mo -> val Ms / val Mo <= 1024 ->
  exists a, ns5_6_alpha_s pw Ms Mo = Ok a /\
    accurate 28 a (6 / 10 * (sqrt ((val Ms / val Mo) ^ 2 + 3) - val Ms / val Mo)) /\ 0 < val a.
Proof.
  intros Ma Mb L. destruct (alpha_s_near Ms Mo Ma Mb) as (a & E & F & B). exists a. split; [exact E|].
  set (Q := val Ms / val Mo) in *.
  assert (PQ : 0 < Q) by (apply Rmult_lt_0_compat; [now apply moderate_pos|apply Rinv_0_lt_compat; now apply moderate_pos]).
  set (W := sqrt (Q ^ 2 + 3)) in *. assert (WW : W * W = Q ^ 2 + 3) by (apply sqrt_sqrt; nra).
  assert (W0 : 0 <= W) by apply sqrt_pos. assert (QW : Q < W <= Q + 1733 / 1000) by (split; nra).
  assert (B2 : 1 / 1200 <= W - Q).
  { assert (H : (W - Q) * (W + Q) = 3) by nra. assert (W + Q <= 2050) by lra. nra. }
  assert (B49 : bp (-49) = 16 * u53) by (unfold u53; change (-49)%Z with (-53 + 1 + 1 + 1 + 1)%Z; rewrite !bp_double; ring).
  assert (B28 : bp (-28) = IZR (2 ^ 25) * u53) by (rewrite <- bp_Z by lia; unfold u53; rewrite <- bp_add; f_equal).
  pose proof u53_small as U. pose proof u53_val as U'.
  assert (T : bp (-49) * (1 + Q) <= 16400 * u53).
  { rewrite B49. replace (16 * u53 * (1 + Q)) with (u53 * (16 * (1 + Q))) by ring. rewrite (Rmult_comm 16400). apply Rmult_le_compat_l; lra. }
  split; [split; [exact F|]|].
  - change (powerRZ 2 (- (28))) with (bp (-28)). apply Rle_trans with (1 := B). apply Rle_trans with (1 := T). rewrite B28.
    rewrite (Rabs_right (6 / 10 * (W - Q))) by lra.
    apply Rle_trans with (IZR (2 ^ 25) * u53 * (6 / 10 * (1 / 1200))).
    + cbn [Z.pow Z.pow_pos Pos.iter Z.mul Pos.mul]. lra.
    + apply Rmult_le_compat_l; [cbn [Z.pow Z.pow_pos Pos.iter Z.mul Pos.mul]; lra|lra].
  - apply abs_le in B. lra.
Qed.
End Pow.
