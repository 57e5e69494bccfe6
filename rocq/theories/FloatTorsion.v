(** Rounding error of the flexural-torsional buckling stress (S6, [f_oxz]). *)

From Coq Require Import ZArith Reals List Bool Lia Lra Psatz Floats.SpecFloat.
From Verif Require Import Base Num PyNum FloatSpec FloatValSpec FloatRound FloatOps FloatFacts FloatError FloatUtil
  FloatUtilSpec FloatCheck FloatLocs FloatCapacity FloatRoot FloatFormulaSpec FloatS6Spec FloatCalc FloatFormulas FloatNear
  FloatAlphaC NumFormulas NumS6.
Import ListNotations.
Open Scope R_scope.
Local Opaque SFadd SFsub SFmul SFdiv SFsqrt.

(** One rounding, of any size below 2^1022. *)
Lemma op_err v f : rounds v f -> Rabs v <= bp 1022 -> finite_double (PFlt f) /\ Rabs (val (PFlt f) - v) <= u53 * Rabs v + h75.
Proof. intros R L. destruct (rounds_err v f R L) as [F K]. split; [now apply fin_double|]. rewrite val_sfR. exact K. Qed.

(** Subtraction and multiplication with errors in units of a scale [S]. *)
Lemma sub_scale k j x y X Y S : finite_double x -> finite_double y -> bp (-900) <= S <= bp 900 -> 0 <= k -> 0 <= j -> k + j <= 10000000000 ->
  Rabs (val x - X) <= k * u53 * S -> Rabs (val y - Y) <= j * u53 * S -> Rabs (X - Y) <= S ->
  finite_double (nsub x y) /\ Rabs (val (nsub x y) - (X - Y)) <= (k + j + 2) * u53 * S.
Proof.
  intros Fx Fy HS K J KJ Ex Ey B. pose proof u53_small as U. pose proof (bp_pos (-900)) as P9.
  destruct (proj1 (finite_double_fin x) Fx) as (f & -> & Gx), (proj1 (finite_double_fin y) Fy) as (g & -> & Gy).
  rewrite val_sfR in Ex, Ey.
  assert (Ev : Rabs ((sfR f - sfR g) - (X - Y)) <= (k + j) * u53 * S).
  { apply abs_le in Ex, Ey. apply abs_le. lra. }
  assert (KU : (k + j) * u53 * S <= 1 / 1000 * S).
  { apply Rmult_le_compat_r; [lra|]. pose proof u53_val. apply Rle_trans with (10000000000 * u53); [apply Rmult_le_compat_r; lra|lra]. }
  assert (Bv : Rabs (sfR f - sfR g) <= 11 / 10 * S) by (apply abs_le in Ev, B; apply abs_le; lra).
  destruct (op_err _ _ (sub_rounds f g Gx Gy)) as [F E].
  { apply Rle_trans with (1 := Bv). apply Rle_trans with (bp 901); [|apply bp_le; lia]. change 901%Z with (900 + 1)%Z. rewrite bp_double. lra. }
  split; [exact F|]. change (nsub (PFlt f) (PFlt g)) with (PFlt (SFsub f64 e64 f g)).
  assert (Hh : h75 <= 1 / 10 * (u53 * S)).
  { unfold h75, u53. apply Rle_trans with (1 / 10 * (bp (-53) * bp (-900))).
    - rewrite <- bp_add. change (-53 + -900)%Z with (-953)%Z. apply Rle_trans with (bp (-953 + - (4))); [apply bp_le; lia|].
      rewrite bp_add, <- bp_inv, (bp_Z 4) by lia. change (2 ^ 4)%Z with 16%Z. pose proof (bp_pos (-953)). lra.
    - apply Rmult_le_compat_l; [lra|]. apply Rmult_le_compat_l; [left; apply bp_pos|apply HS]. }
  assert (u53 * Rabs (sfR f - sfR g) <= u53 * (11 / 10 * S)) by (apply Rmult_le_compat_l; lra).
  apply abs_le in E, Ev. apply abs_le. lra.
Qed.

Lemma mul_scale k j x y X Y S : finite_double x -> finite_double y -> bp (-900) <= S <= bp 900 -> 0 <= k <= 1000 -> 0 <= j <= 10000000000 ->
  Rabs (val x - X) <= k * u53 -> Rabs (val y - Y) <= j * u53 * S -> Rabs X <= 1 -> Rabs Y <= S ->
  finite_double (nmul x y) /\ Rabs (val (nmul x y) - X * Y) <= (k + j + 3) * u53 * S.
Proof.
  intros Fx Fy HS K J Ex Ey BX BY. pose proof u53_small as U. pose proof u53_val as U'. pose proof (bp_pos (-900)) as P9.
  destruct (proj1 (finite_double_fin x) Fx) as (f & -> & Gx), (proj1 (finite_double_fin y) Fy) as (g & -> & Gy).
  rewrite val_sfR in Ex, Ey.
  pose proof (mul_err _ _ _ _ _ _ _ _ Ex Ey BX BY) as Ev.
  assert (KJ : k * u53 * (j * u53 * S) <= 1 / 10 * u53 * S).
  { replace (k * u53 * (j * u53 * S)) with (k * j * u53 * (u53 * S)) by ring. rewrite (Rmult_assoc (1 / 10)).
    apply Rmult_le_compat_r; [apply Rmult_le_pos; lra|].
    assert (k * j <= 1000 * 10000000000) by (apply Rmult_le_compat; lra).
    apply Rle_trans with (1000 * 10000000000 * u53); [apply Rmult_le_compat_r; lra|lra]. }
  assert (Ev' : Rabs (sfR f * sfR g - X * Y) <= (k + j + 1 / 10) * u53 * S) by lra.
  assert (KU : (k + j + 1 / 10) * u53 * S <= 1 / 1000 * S).
  { apply Rmult_le_compat_r; [lra|]. apply Rle_trans with (10000002000 * u53); [apply Rmult_le_compat_r; lra|lra]. }
  assert (BXY : Rabs (X * Y) <= S).
  { rewrite Rabs_mult. apply Rle_trans with (1 * S); [apply Rmult_le_compat; auto using Rabs_pos|lra]. }
  assert (Bv : Rabs (sfR f * sfR g) <= 11 / 10 * S) by (apply abs_le in Ev', BXY; apply abs_le; lra).
  destruct (op_err _ _ (mul_rounds f g Gx Gy)) as [F E].
  { apply Rle_trans with (1 := Bv). apply Rle_trans with (bp 901); [|apply bp_le; lia]. change 901%Z with (900 + 1)%Z. rewrite bp_double. lra. }
  split; [exact F|]. change (nmul (PFlt f) (PFlt g)) with (PFlt (SFmul f64 e64 f g)).
  assert (Hh : h75 <= 1 / 10 * (u53 * S)).
  { unfold h75, u53. apply Rle_trans with (1 / 10 * (bp (-53) * bp (-900))).
    - rewrite <- bp_add. change (-53 + -900)%Z with (-953)%Z. apply Rle_trans with (bp (-953 + - (4))); [apply bp_le; lia|].
      rewrite bp_add, <- bp_inv, (bp_Z 4) by lia. change (2 ^ 4)%Z with 16%Z. pose proof (bp_pos (-953)). lra.
    - apply Rmult_le_compat_l; [lra|]. apply Rmult_le_compat_l; [left; apply bp_pos|apply HS]. }
  assert (u53 * Rabs (sfR f * sfR g) <= u53 * (11 / 10 * S)) by (apply Rmult_le_compat_l; lra).
  apply abs_le in E, Ev'. apply abs_le. lra.
Qed.

(** ** Real facts *)
Lemma root_diff a b : 0 <= a -> 0 <= b -> Rabs (sqrt a - sqrt b) <= sqrt (Rabs (a - b)).
Proof.
  assert (W : forall a b, 0 <= a <= b -> Rabs (sqrt a - sqrt b) <= sqrt (Rabs (a - b))).
  { clear. intros a b H. pose proof (sqrt_le_1_alt a b ltac:(lra)) as L. rewrite Rabs_left1 by lra. rewrite Rabs_left1 by lra.
    pose proof (sqrt_pos a) as P1. pose proof (sqrt_pos b) as P2. pose proof (sqrt_sqrt a ltac:(lra)) as Q1. pose proof (sqrt_sqrt b ltac:(lra)) as Q2.
    rewrite <- (sqrt_square (- (sqrt a - sqrt b))) by lra. apply sqrt_le_1_alt.
    replace (- (sqrt a - sqrt b) * - (sqrt a - sqrt b)) with (sqrt a * sqrt a + sqrt b * sqrt b - 2 * (sqrt a * sqrt b)) by ring.
    rewrite Q1, Q2. assert (sqrt a * sqrt a <= sqrt a * sqrt b) by (apply Rmult_le_compat_l; lra). lra. }
  intros Ha Hb. destruct (Rle_lt_dec a b).
  - apply W. lra.
  - rewrite Rabs_minus_sym, (Rabs_minus_sym a b). apply W. lra.
Qed.

Lemma root_diff_sep a b c : 0 <= a -> 0 < c -> c * c <= b -> Rabs (sqrt a - sqrt b) <= Rabs (a - b) / c.
Proof.
  intros Ha Hc Hb. assert (0 < c * c) by (apply Rmult_lt_0_compat; lra).
  assert (Sb : c <= sqrt b) by (rewrite <- (sqrt_square c) by lra; now apply sqrt_le_1_alt).
  pose proof (sqrt_pos a) as Sa.
  replace (sqrt a - sqrt b) with ((a - b) * / (sqrt a + sqrt b)).
  - rewrite Rabs_mult, (Rabs_right (/ _)) by (apply Rle_ge, Rlt_le, Rinv_0_lt_compat; lra).
    unfold Rdiv. apply Rmult_le_compat_l; [apply Rabs_pos|]. apply Rinv_le_contravar; lra.
  - rewrite <- (sqrt_sqrt a) at 1 by lra. rewrite <- (sqrt_sqrt b) at 1 by lra. field. lra.
Qed.

Lemma u53_low : 11 / 100000000000000000 <= u53.
Proof.
  unfold u53. change (-53)%Z with (- (53))%Z. rewrite <- bp_inv, bp_Z by lia. change (2 ^ 53)%Z with 9007199254740992%Z.
  apply Rmult_le_reg_r with 9007199254740992; [lra|]. rewrite Rinv_l by lra. lra.
Qed.

(** The square root of the error of the discriminant. *)
Lemma root_of_error S : 0 <= S -> sqrt (214 * u53 * (S * S)) <= 1600000000 * u53 * S.
Proof.
  intros HS. pose proof u53_small as U. pose proof u53_low as L. rewrite <- (sqrt_square (1600000000 * u53 * S)) by (repeat apply Rmult_le_pos; lra).
  apply sqrt_le_1_alt. replace (1600000000 * u53 * S * (1600000000 * u53 * S)) with (2560000000000000000 * u53 * u53 * (S * S)) by ring.
  apply Rmult_le_compat_r; [apply Rmult_le_pos; lra|]. apply Rmult_le_compat_r; lra.
Qed.

Lemma disc_bounds B FX FZ : 1 / 2 <= B <= 1 -> 0 < FX -> 0 < FZ ->
  let S := FX + FZ in let D := S ^ 2 - 4 * B * FX * FZ in
  (FX - FZ) * (FX - FZ) <= D <= S * S /\ 0 <= 4 * B * FX * FZ <= S * S.
Proof.
  intros HB P Q S D. assert (P2 : 0 < FX * FZ) by (apply Rmult_lt_0_compat; lra).
  assert (B1 : 0 <= B * (FX * FZ) <= FX * FZ).
  { split; [apply Rmult_le_pos; lra|]. rewrite <- (Rmult_1_l (FX * FZ)) at 2. apply Rmult_le_compat_r; lra. }
  pose proof (Rle_0_sqr (FX - FZ)) as Q2. unfold Rsqr in Q2. unfold D, S.
  replace (4 * B * FX * FZ) with (4 * (B * (FX * FZ))) by ring. repeat split; lra.
Qed.

Section Pow.
Variable pw : pynum -> pynum -> res pynum.
Hypothesis full : full_pow pw.
Let good := full_good pw full.

Lemma foxz_core fx fz b FX FZ B :
  close 32 200 fx FX -> close 32 200 fz FZ -> finite_double b -> Rabs (val b - B) <= 23 * u53 -> 1 / 2 <= B <= 1 ->
  exists h, pydiv (nint 1) (nmul (nint 2) b) = Ok h /\
  exists s2, pw (nadd fx fz) (nint 2) = Ok s2 /\
  let d := nsub s2 (nmul (nmul (nmul (nint 4) b) fx) fz) in
  (pw d (nflt 1 2) = Err EComplex /\ Rabs (FX - FZ) < (FX + FZ) / 1024) \/
  (exists rt, pw d (nflt 1 2) = Ok rt /\ let r := nmul h (nsub (nadd fx fz) rt) in
    finite_double r /\ Rabs (val r - coupled_stress B FX FZ) <= bp (-21) * (FX + FZ) /\
    ((FX + FZ) / 1024 <= Rabs (FX - FZ) -> Rabs (val r - coupled_stress B FX FZ) <= bp (-35) * (FX + FZ))).
Proof.
  intros Cx Cz Fb Eb HB. pose proof u53_small as U. pose proof u53_val as U'.
  pose proof (close_pos _ _ _ _ Cx) as Px. pose proof (close_pos _ _ _ _ Cz) as Pz.
  assert (Cb : close 46 1 b B).
  { split; [exact Fb|]. split.
    - apply Rle_trans with (1 := Eb). replace (46 * u53 * B) with (23 * u53 * (2 * B)) by ring. rewrite <- (Rmult_1_r (23 * u53)) at 1.
      apply Rmult_le_compat_l; lra.
    - change (- (1))%Z with (-1)%Z. rewrite bp_1. replace (bp (-1)) with (/ 2) by (rewrite <- bp_1; apply (bp_inv 1)). lra. }
  change (nint 1) with (PInt 1). change (nint 2) with (PInt 2). change (nint 4) with (PInt 4).
  rewrite idiv, (imul 2 b Fb), (imul 4 b Fb).
  pose proof (cmul _ _ _ _ _ _ _ _ (cint 2 ltac:(lia)) Cb ltac:(lra) ltac:(lra) ltac:(lia) ltac:(lia) ltac:(lia)) as C2.
  destruct (cdiv _ _ _ _ _ _ _ _ (cint 1 ltac:(lia)) C2) as [Eh Ch]; try (lra || lia).
  eexists. split; [exact Eh|]. clear Eh. set (h := ndiv _ _) in *.
  pose proof (cadd _ _ _ _ _ _ Cx Cz ltac:(lra) ltac:(lia)) as Cs.
  destruct (csquare pw good _ _ _ _ Cs) as (s2 & E2 & Cq); try (lra || lia).
  exists s2. split; [exact E2|]. clear E2. set (s := nadd fx fz) in *.
  pose proof (cmul _ _ _ _ _ _ _ _ (cint 4 ltac:(lia)) Cb ltac:(lra) ltac:(lra) ltac:(lia) ltac:(lia) ltac:(lia)) as C4.
  pose proof (cmul _ _ _ _ _ _ _ _ C4 Cx ltac:(lra) ltac:(lra) ltac:(lia) ltac:(lia) ltac:(lia)) as C5.
  pose proof (cmul _ _ _ _ _ _ _ _ C5 Cz ltac:(lra) ltac:(lra) ltac:(lia) ltac:(lia) ltac:(lia)) as C6.
  set (p := nmul (nmul (nmul (PFlt (sf_of_Z 4)) b) fx) fz) in *. cbv zeta. set (d := nsub s2 p).
  pose proof (disc_bounds B FX FZ HB Px Pz) as DB. cbv zeta in DB. set (S := FX + FZ) in *. set (D := S ^ 2 - 4 * B * FX * FZ) in *.
  destruct DB as ((D1 & D2) & P1 & P2).
  assert (PS : 0 < S) by (unfold S; lra). assert (PSS : 0 < S * S) by (apply Rmult_lt_0_compat; lra).
  assert (BS : bp (- (201)) <= S <= bp 201) by (destruct Cs as (_ & _ & H); exact H).
  assert (BSS : bp (- (402)) <= S * S <= bp 402) by (destruct Cq as (_ & _ & H); exact H).
  assert (RD : forall e, (0 <= e <= 900)%Z -> bp (-900) <= bp (- e) /\ bp e <= bp 900) by (intros e He; split; apply bp_le; lia).
  destruct (RD 201%Z ltac:(lia)) as (R1 & R2). destruct (RD 402%Z ltac:(lia)) as (R3 & R4).
  (* the discriminant *)
  destruct (sub_scale 71 141 s2 p (S * S) (4 * B * FX * FZ) (S * S)) as (Fd & Ed); try lra.
  { apply Cq. } { apply C6. }
  { destruct Cq as (_ & H & _). apply Rle_trans with (1 := H). apply Rmult_le_compat_r; [lra|]. apply Rmult_le_compat_r; lra. }
  { destruct C6 as (_ & H & _). apply Rle_trans with (1 := H). apply Rle_trans with (141 * u53 * (4 * B * FX * FZ)).
    - apply Rmult_le_compat_r; [lra|]. apply Rmult_le_compat_r; lra.
    - apply Rmult_le_compat_l; [apply Rmult_le_pos; lra|exact P2]. }
  { apply abs_le. lra. }
  replace (S * S - 4 * B * FX * FZ) with D in Ed by (unfold D; ring).
  fold d in Fd, Ed. replace (71 + 141 + 2) with 214 in Ed by lra.
  assert (SM : 214 * u53 * (S * S) <= 1 / 4194304 * (S * S)) by (apply Rmult_le_compat_r; [lra|]; lra).
  assert (D0 : 0 <= D) by (pose proof (Rle_0_sqr (FX - FZ)) as H; unfold Rsqr in H; lra).
  assert (Sep : S / 1024 <= Rabs (FX - FZ) -> S / 1024 * (S / 1024) <= D).
  { intros H. apply Rle_trans with (2 := D1). replace ((FX - FZ) * (FX - FZ)) with (Rabs (FX - FZ) * Rabs (FX - FZ)).
    - apply Rmult_le_compat; lra.
    - rewrite <- Rabs_mult. apply Rabs_right. apply Rle_ge. apply (Rle_0_sqr (FX - FZ)). }
  destruct (Rlt_le_dec (val d) 0) as [Neg|Pos].
  { left. split; [exact (full_complex pw full d Fd Neg)|]. apply Rnot_le_lt. intros H. specialize (Sep H). apply abs_le in Ed.
    replace (S / 1024 * (S / 1024)) with (1 / 1048576 * (S * S)) in Sep by field. lra. }
  right. assert (Bd : val d <= bp 403).
  { change 403%Z with (402 + 1)%Z. rewrite bp_double. apply abs_le in Ed. lra. }
  destruct (full_root pw full d Fd) as (rt & Er & Fr & Ert).
  { split; [exact Pos|]. change (powerRZ 2 1000) with (bp 1000). apply Rle_trans with (1 := Bd). apply bp_le. lia. }
  change (powerRZ 2 (-51)) with (bp (-51)) in Ert. change (powerRZ 2 (-500)) with (bp (-500)) in Ert. rewrite bp51 in Ert.
  exists rt. split; [exact Er|]. clear Er.
  assert (SD : sqrt D <= S) by (rewrite <- (sqrt_square S) by lra; apply sqrt_le_1_alt; lra).
  pose proof (sqrt_pos D) as SD0.
  assert (Sv : sqrt (val d) <= 2 * S).
  { rewrite <- (sqrt_square (2 * S)) by lra. apply sqrt_le_1_alt. apply abs_le in Ed. replace (2 * S * (2 * S)) with (4 * (S * S)) by ring. lra. }
  assert (H500 : bp (-500) <= u53 * S).
  { apply Rle_trans with (u53 * bp (- (201))); [|apply Rmult_le_compat_l; lra]. unfold u53. rewrite <- bp_add. apply bp_le. lia. }
  assert (S4 : 4 * u53 * sqrt (val d) <= 4 * u53 * (2 * S)) by (apply Rmult_le_compat_l; lra).
  (* from an error of the root to an error of the stress *)
  assert (Fin : forall j, 0 <= j <= 2000000000 -> Rabs (sqrt (val d) - sqrt D) <= j * u53 * S ->
    finite_double (nmul h (nsub s rt)) /\ Rabs (val (nmul h (nsub s rt)) - coupled_stress B FX FZ) <= (j + 100) * u53 * S).
  { intros j Hj Ej.
    assert (Er : Rabs (val rt - sqrt D) <= (j + 9) * u53 * S) by (apply abs_le in Ert, Ej; apply abs_le; lra).
    destruct Cs as (Fs & Es & _).
    assert (Es' : Rabs (val s - S) <= 34 * u53 * S).
    { apply Rle_trans with (1 := Es). apply Rmult_le_compat_r; [lra|]. apply Rmult_le_compat_r; lra. }
    destruct (sub_scale 34 (j + 9) s rt S (sqrt D) S Fs Fr) as (F1 & E1); try lra.
    { apply abs_le. lra. }
    destruct Ch as (Fh & Ehh & _). set (H := 1 / (2 * B)) in *.
    assert (HH : 1 / 2 <= H <= 1).
    { unfold H. split; (apply Rmult_le_reg_r with (2 * B); [lra|]; unfold Rdiv; rewrite ?Rmult_1_l, Rinv_l by lra; lra). }
    assert (Eh : Rabs (val h - H) <= 50 * u53).
    { apply Rle_trans with (1 := Ehh). rewrite <- (Rmult_1_r (50 * u53)). apply Rmult_le_compat; lra. }
    destruct (mul_scale 50 (34 + (j + 9) + 2) h (nsub s rt) H (S - sqrt D) S Fh F1) as (F2 & E3); try lra.
    { apply abs_le. lra. } { apply abs_le. lra. }
    split; [exact F2|]. replace (coupled_stress B FX FZ) with (H * (S - sqrt D)).
    - apply Rle_trans with (1 := E3). apply Rmult_le_compat_r; [lra|]. apply Rmult_le_compat_r; lra.
    - unfold coupled_stress, H. fold S. fold D. field. lra. }
  assert (Conv : forall j n, j <= 2 ^ n -> j * u53 * S <= bp (Z.of_nat n - 53) * S).
  { intros j n Hj. apply Rmult_le_compat_r; [lra|]. unfold Z.sub. rewrite bp_add. change (bp (Z.opp 53)) with u53.
    apply Rmult_le_compat_r; [lra|]. rewrite bp_Z by lia. rewrite <- pow_IZR. exact Hj. }
  cbv zeta. split; [|split].
  - destruct (Fin 1600000000 ltac:(lra)) as (F & _); [|exact F].
    apply Rle_trans with (1 := root_diff _ _ Pos D0). apply Rle_trans with (2 := root_of_error S ltac:(lra)). now apply sqrt_le_1_alt.
  - destruct (Fin 1600000000 ltac:(lra)) as (_ & E).
    { apply Rle_trans with (1 := root_diff _ _ Pos D0). apply Rle_trans with (2 := root_of_error S ltac:(lra)). now apply sqrt_le_1_alt. }
    apply Rle_trans with (1 := E). apply (Conv _ 32%nat). lra.
  - intros Hs. specialize (Sep Hs). destruct (Fin 219136 ltac:(lra)) as (_ & E).
    { apply Rle_trans with (1 := root_diff_sep _ _ (S / 1024) Pos ltac:(lra) Sep).
      apply Rle_trans with (214 * u53 * (S * S) / (S / 1024)).
      - unfold Rdiv at 1 3. apply Rmult_le_compat_r; [apply Rlt_le, Rinv_0_lt_compat; lra|exact Ed].
      - apply Req_le. field. lra. }
    apply Rle_trans with (1 := E). apply (Conv _ 18%nat). lra.
Qed.

Lemma beta_near rx ry xo yo : moderate rx -> moderate ry -> tame xo -> tame yo ->
  exists r q q2, nr_ol pw rx ry xo yo = Ok r /\ pydiv xo r = Ok q /\ pw q (nint 2) = Ok q2 /\
  finite_double (nsub (nint 1) q2) /\
  Rabs (val (nsub (nint 1) q2) - (1 - val xo ^ 2 / (val rx ^ 2 + val ry ^ 2 + val xo ^ 2 + val yo ^ 2))) <= 23 * u53.
Proof.
  intros Mx My Tx Ty. destruct (r_ol_close pw good rx ry xo yo Mx My Tx Ty) as (r & Er & Cr).
  pose proof u53_small as U. pose proof u53_val as U'. pose proof h_small as Hh.
  set (V := val rx ^ 2 + val ry ^ 2 + val xo ^ 2 + val yo ^ 2) in *.
  assert (PV : 0 < V /\ val xo ^ 2 <= V).
  { unfold V. pose proof (pow_lt _ 2 (moderate_pos _ Mx)). pose proof (pow_lt _ 2 (moderate_pos _ My)).
    pose proof (pow2_ge_0 (val xo)). pose proof (pow2_ge_0 (val yo)). lra. }
  destruct PV as [PV XV]. pose proof (sqrt_lt_R0 V PV) as PR. pose proof (sqrt_sqrt V ltac:(lra)) as RR.
  assert (Q1 : Rabs (val xo / sqrt V) <= 1).
  { unfold Rdiv. rewrite Rabs_mult, (Rabs_right (/ _)) by (apply Rle_ge, Rlt_le, Rinv_0_lt_compat; lra).
    apply Rmult_le_reg_r with (sqrt V); [lra|]. rewrite Rmult_assoc, Rinv_l, Rmult_1_r, Rmult_1_l by lra.
    rewrite <- (sqrt_Rsqr_abs (val xo)). apply sqrt_le_1_alt. unfold Rsqr. replace (val xo * val xo) with (val xo ^ 2) by ring. exact XV. }
  destruct (n_div 0 (7 * u53 * sqrt V) (83 / 10 * u53) (sqrt V) 1 xo r (val xo) (sqrt V)) as (Eq & Nq).
  { apply nr_exact, Tx. } { exact (close_nr _ _ _ _ Cr). } { lra. }
  { replace (sqrt V / 1000) with (1 / 1000 * sqrt V) by field. apply Rmult_le_compat_r; lra. }
  { exact Q1. }
  { replace ((0 + 1 * (7 * u53 * sqrt V)) * (1002 / 1000 / sqrt V)) with (7014 / 1000 * u53) by (field; lra). lra. }
  { replace ((0 + 1 * (7 * u53 * sqrt V)) * (1002 / 1000 / sqrt V)) with (7014 / 1000 * u53) by (field; lra).
    assert (u53 * (1 + 7014 / 1000 * u53) <= u53 * (11 / 10)) by (apply Rmult_le_compat_l; lra). lra. }
  set (q := ndiv xo r) in *. set (Q := val xo / sqrt V) in *. destruct Nq as (Fq & Bq).
  assert (Aq : Rabs (val q) <= 11 / 10) by (apply abs_le in Bq, Q1; apply abs_le; lra).
  destruct (full_square pw full q Fq) as (q2 & E2 & F2 & B2).
  { change (powerRZ 2 500) with (bp 500). apply Rle_trans with (1 := Aq). apply Rle_trans with (bp 1); [rewrite bp_1; lra|apply bp_le; lia]. }
  change (powerRZ 2 (-51)) with (bp (-51)) in B2. change (powerRZ 2 (-1000)) with (bp (-1000)) in B2. rewrite bp51 in B2.
  assert (T0 : bp (-1000) <= 1 / 10 * u53).
  { unfold u53. apply Rle_trans with (bp (-53 + - (4))); [apply bp_le; lia|]. rewrite bp_add, <- bp_inv, (bp_Z 4) by lia.
    change (2 ^ 4)%Z with 16%Z. pose proof (bp_pos (-53)). lra. }
  assert (S1 : 0 <= val q ^ 2 <= 121 / 100).
  { split; [apply pow2_ge_0|]. rewrite <- (pow2_abs (val q)). replace (121 / 100) with ((11 / 10) ^ 2) by lra.
    apply pow_incr. split; [apply Rabs_pos|exact Aq]. }
  assert (S2 : 0 <= Q ^ 2 <= 1).
  { split; [apply pow2_ge_0|]. rewrite <- (pow2_abs Q). replace 1 with (1 ^ 2) by lra. apply pow_incr. split; [apply Rabs_pos|exact Q1]. }
  assert (Dq : Rabs (val q ^ 2 - Q ^ 2) <= 167 / 10 * u53).
  { pose proof (mul_err _ _ _ _ _ _ _ _ Bq Bq Q1 Q1) as H. replace (val q ^ 2 - Q ^ 2) with (val q * val q - Q * Q) by ring.
    apply Rle_trans with (1 := H). replace (83 / 10 * u53 * (83 / 10 * u53)) with (u53 * (6889 / 100 * u53)) by field.
    assert (u53 * (6889 / 100 * u53) <= u53 * (1 / 100)) by (apply Rmult_le_compat_l; lra). lra. }
  assert (Dq2 : Rabs (val q2 - Q ^ 2) <= 217 / 10 * u53).
  { assert (4 * u53 * val q ^ 2 <= 4 * u53 * (121 / 100)) by (apply Rmult_le_compat_l; lra). apply abs_le in Dq, B2. apply abs_le. lra. }
  exists r, q, q2. split; [exact Er|]. split; [exact Eq|]. split; [exact E2|].
  change (nint 1) with (PInt 1). rewrite (isub 1 q2 F2).
  replace (val xo ^ 2 / V) with (Q ^ 2).
  2:{ unfold Q. rewrite <- RR at 2. field. lra. }
  destruct (n_sub 0 (217 / 10 * u53) (23 * u53) 1 (PFlt (sf_of_Z 1)) q2 1 (Q ^ 2)) as (F & E).
  { apply (nint_exact 1). lia. } { split; assumption. } { apply abs_le. lra. } { lra. }
  { assert (u53 * (1 + (0 + 217 / 10 * u53)) <= u53 * (11 / 10)) by (apply Rmult_le_compat_l; lra). lra. }
  split; assumption.
Qed.

(** [f_oxz] for lengths that may be computed products. *)
Lemma foxz_gen A lx lz LX LZ rx ry xo yo J Iw E G :
  moderate A -> close (11 / 10) 120 lx LX -> close (11 / 10) 120 lz LZ -> moderate rx -> moderate ry -> tame xo -> tame yo ->
  moderate J -> tame Iw -> 0 <= val Iw -> moderate E -> moderate G ->
  let r2 := val rx ^ 2 + val ry ^ 2 + val xo ^ 2 + val yo ^ 2 in
  let FX := euler_stress (val E) LX (val rx) in
  let FZ := torsion_stress (val A) LZ r2 (val J) (val Iw) (val E) (val G) in
  let B := 1 - val xo ^ 2 / r2 in
  bp (-200) <= FX <= bp 200 -> bp (-200) <= FZ <= bp 200 -> 2 * val xo ^ 2 <= r2 ->
  exists fz, nf_euler_torsion pw A lz rx ry xo yo J Iw E G = Ok fz /\ close 32 200 fz FZ /\
  ((nf_oxz pw A lx lz rx ry xo yo J Iw E G = Err EComplex /\ Rabs (FX - FZ) < (FX + FZ) / 1024) \/
   (exists b fx ro f, nf_oxz pw A lx lz rx ry xo yo J Iw E G = Ok [b; fx; fz; ro; f] /\ close 11 200 fx FX /\
      finite_double b /\ Rabs (val b - B) <= 23 * u53 /\ close 7 62 ro (sqrt r2) /\
      finite_double f /\ Rabs (val f - coupled_stress B FX FZ) <= bp (-21) * (FX + FZ) /\
      ((FX + FZ) / 1024 <= Rabs (FX - FZ) -> Rabs (val f - coupled_stress B FX FZ) <= bp (-35) * (FX + FZ)))).
Proof.
  intros MA Cx Cz Mx My Tx Ty MJ TW PW ME MG r2 FX FZ B BX BZ HB.
  destruct (f_euler_cl E lx LX rx ME Cx Mx) as (fx & Ex & Cfx).
  destruct (f_euler_torsion_cl pw good A lz LZ rx ry xo yo J Iw E G MA Cz Mx My Tx Ty MJ TW PW ME MG) as (fz & Ez & Cfz).
  destruct (beta_near rx ry xo yo Mx My Tx Ty) as (r & q & q2 & Er & Eq & E2 & Fb & Eb).
  destruct (r_ol_close pw good rx ry xo yo Mx My Tx Ty) as (r' & Er' & Cr). rewrite Er in Er'. injection Er' as <-.
  fold r2 in Eb, Cr. fold B in Eb. change (close 32 850 fz FZ) in Cfz. change (close 11 430 fx FX) in Cfx.
  assert (Cz2 : close 32 200 fz FZ) by (destruct Cfz as (F & H & _); split; [exact F|split; [exact H|exact BZ]]).
  assert (Cx2 : close 11 200 fx FX) by (destruct Cfx as (F & H & _); split; [exact F|split; [exact H|exact BX]]).
  exists fz. split; [exact Ez|]. split; [exact Cz2|].
  assert (P2 : 0 < r2).
  { unfold r2. pose proof (pow_lt _ 2 (moderate_pos _ Mx)). pose proof (pow_lt _ 2 (moderate_pos _ My)).
    pose proof (pow2_ge_0 (val xo)). pose proof (pow2_ge_0 (val yo)). lra. }
  assert (HB' : 1 / 2 <= B <= 1).
  { assert (0 <= val xo ^ 2 / r2 <= 1 / 2); [|unfold B; lra]. pose proof (pow2_ge_0 (val xo)). split.
    - apply Rmult_le_pos; [assumption|]. apply Rlt_le, Rinv_0_lt_compat. exact P2.
    - apply Rmult_le_reg_r with r2; [exact P2|]. unfold Rdiv at 1. rewrite Rmult_assoc, Rinv_l by lra. lra. }
  assert (Cx3 : close 32 200 fx FX) by (apply close_weak with (3 := Cx2); [lra|lia]).
  destruct (foxz_core fx fz (nsub (nint 1) q2) FX FZ B Cx3 Cz2 Fb Eb HB') as (h & Eh & s2 & Es & H).
  unfold nf_oxz. rewrite Er. cbn [bind]. rewrite Eq. cbn [bind]. rewrite E2. cbn [bind]. rewrite Ex. cbn [bind]. rewrite Ez. cbn [bind].
  rewrite Eh. cbn [bind]. rewrite Es. cbn [bind]. cbv zeta in H. destruct H as [(Hr & Hs)|(rt & Hr & Hf & H1 & H2)].
  - left. rewrite Hr. split; [reflexivity|exact Hs].
  - right. rewrite Hr. cbn [bind]. do 4 eexists. split; [reflexivity|]. repeat (split; [assumption|]). assumption.
Qed.
End Pow.
