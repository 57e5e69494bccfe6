(** Rules for the rounding error of expressions in positive doubles. *)

From Coq Require Import ZArith Reals List Bool Lia Lra Floats.SpecFloat.
From Verif Require Import Base Num PyNum FloatSpec FloatValSpec FloatRound FloatOps FloatFacts FloatError FloatUtil
  FloatUtilSpec FloatCheck FloatLocs FloatCapacity FloatRoot FloatFormulaSpec.
Import ListNotations.
Open Scope R_scope.
Local Opaque SFadd SFsub SFmul SFdiv SFsqrt.

Lemma close_pos k e x X : close k e x X -> 0 < X.
Proof. intros (_ & _ & B & _). apply Rlt_le_trans with (2 := B). apply bp_pos. Qed.

(** The ratio of the computed to the exact value. *)
Lemma close_ratio k e x X : close k e x X -> exists a, val x = a * X /\ Rabs (a - 1) <= k * u53.
Proof.
  intros C. pose proof (close_pos _ _ _ _ C) as P. destruct C as (_ & E & _). exists (val x / X). split; [field; lra|].
  replace (val x / X - 1) with ((val x - X) * / X) by (field; lra).
  rewrite Rabs_mult, (Rabs_right (/ X)) by (apply Rle_ge, Rlt_le, Rinv_0_lt_compat; lra).
  apply Rmult_le_reg_r with X; [lra|]. rewrite Rmult_assoc, Rinv_l by lra. lra.
Qed.

Lemma ku_small k : 0 <= k <= 4000 -> 0 <= k * u53 <= 1 / 2000000.
Proof.
  intros H. pose proof u53_small as U. pose proof u53_val as U'. split; [apply Rmult_le_pos; lra|].
  apply Rle_trans with (4000 * u53); [apply Rmult_le_compat_r; lra|lra].
Qed.

Lemma bp_double e : bp (e + 1) = bp e * 2.
Proof. now rewrite bp_add, bp_1. Qed.

(** The last rounding of an operation whose exact result [v] on the computed operands is within [k] of [V]. *)
Lemma c_op k V v f e : rounds v f -> 0 <= k <= 4000 -> Rabs (v - V) <= k * u53 * V -> bp (- e) <= V <= bp e ->
  (0 <= e <= 1020)%Z -> close (k + 101 / 100) e (PFlt f) V.
Proof.
  intros R K E B He. pose proof (ku_small k K) as S. pose proof u53_small as U.
  assert (P : 0 < V) by (apply Rlt_le_trans with (2 := proj1 B); apply bp_pos).
  assert (E' : Rabs (v - V) <= 1 / 2000000 * V).
  { apply Rle_trans with (1 := E). apply Rmult_le_compat_r; lra. }
  assert (L1 : bp (-1022) * 2 <= V).
  { rewrite <- bp_double. apply Rle_trans with (2 := proj1 B). apply bp_le. lia. }
  assert (L2 : V * 2 <= bp 1022).
  { replace (bp 1022) with (bp (1021 + 1)) by (f_equal; lia). rewrite bp_double.
    apply Rmult_le_compat_r; [lra|]. apply Rle_trans with (1 := proj2 B). apply bp_le. lia. }
  assert (Vr : Rabs v <= 2 * V /\ V / 2 <= v) by (apply abs_le in E'; split; [apply abs_le|]; lra).
  destruct (rounds_normal v f R) as (F & d & Hd & Ed).
  { rewrite Rabs_right by lra. apply abs_le in E'. lra. }
  split; [now apply fin_double|]. split; [|exact B]. rewrite val_sfR, Ed.
  replace (v * (1 + d) - V) with ((v - V) + (v - V) * d + V * d) by ring.
  assert (D1 : Rabs ((v - V) * d) <= (1 / 2000000 * V) * u53) by (rewrite Rabs_mult; apply Rmult_le_compat; try apply Rabs_pos; auto).
  assert (D2 : Rabs (V * d) <= V * u53) by (rewrite Rabs_mult, (Rabs_right V) by lra; apply Rmult_le_compat_l; lra).
  apply abs_le in D1, D2, E. apply abs_le. pose proof (Rmult_lt_0_compat _ _ P (proj1 U)). lra.
Qed.

Lemma close_fin k e x X : close k e x X -> exists f, x = PFlt f /\ fin64 f /\ val x = sfR f.
Proof. intros (F & _). apply finite_double_fin in F. destruct F as (f & -> & F). exists f. now rewrite val_sfR. Qed.

Lemma prod_ratio k j a b : 0 <= k <= 1990 -> 0 <= j <= 1990 -> Rabs (a - 1) <= k * u53 -> Rabs (b - 1) <= j * u53 ->
  Rabs (a * b - 1) <= (k + j + 1 / 100) * u53.
Proof.
  intros K J A B. pose proof u53_small as U. pose proof u53_val as U'. destruct (ku_small k) as [S1 S2]; [lra|].
  replace (a * b - 1) with ((a - 1) + (b - 1) + (a - 1) * (b - 1)) by ring.
  assert (M : Rabs ((a - 1) * (b - 1)) <= (1 / 2000000) * (4000 * u53)).
  { rewrite Rabs_mult. apply Rmult_le_compat; try apply Rabs_pos; [lra|]. apply Rle_trans with (1 := B). apply Rmult_le_compat_r; lra. }
  apply abs_le in A, B, M. apply abs_le. lra.
Qed.

Lemma inv_ratio j b : 0 <= j <= 1990 -> Rabs (b - 1) <= j * u53 -> 0 < b /\ Rabs (/ b - 1) <= (j + 1 / 100) * u53.
Proof.
  intros J B. pose proof u53_small as U. pose proof u53_val as U'. destruct (ku_small j) as [S1 S2]; [lra|].
  assert (P : 1 / 2 <= b) by (apply abs_le in B; lra). split; [lra|].
  replace (/ b - 1) with ((1 - b) + (b - 1) * (b - 1) * / b) by (field; lra).
  assert (I : 0 < / b <= 2).
  { split; [apply Rinv_0_lt_compat; lra|]. replace 2 with (/ (1 / 2)) by field. apply Rinv_le_contravar; lra. }
  assert (M : Rabs ((b - 1) * (b - 1) * / b) <= (1 / 2000000) * (4000 * u53) * 2).
  { rewrite !Rabs_mult, (Rabs_right (/ b)) by lra.
    apply Rmult_le_compat; try lra; [apply Rmult_le_pos; apply Rabs_pos|]. apply Rmult_le_compat; try apply Rabs_pos; [lra|].
    apply Rle_trans with (1 := B). apply Rmult_le_compat_r; lra. }
  apply abs_le in B, M. apply abs_le. lra.
Qed.

Lemma scaled a X k : 0 < X -> Rabs (a - 1) <= k -> Rabs (a * X - X) <= k * X.
Proof.
  intros P A. replace (a * X - X) with ((a - 1) * X) by ring. rewrite Rabs_mult, (Rabs_right X) by lra.
  apply Rmult_le_compat_r; lra.
Qed.

Lemma bounds_mul e g X Y : bp (- e) <= X <= bp e -> bp (- g) <= Y <= bp g -> bp (- (e + g)) <= X * Y <= bp (e + g).
Proof.
  intros Bx By. pose proof (bp_pos (- e)). pose proof (bp_pos (- g)).
  replace (- (e + g))%Z with (- e + - g)%Z by lia. rewrite !bp_add. split; apply Rmult_le_compat; lra.
Qed.

Lemma bp_inv e : / bp e = bp (- e).
Proof.
  pose proof (bp_pos e). apply Rmult_eq_reg_l with (bp e); [|lra]. rewrite Rinv_r by lra. rewrite <- bp_add.
  replace (e + - e)%Z with 0%Z by lia. now rewrite bp_0.
Qed.

Lemma bounds_inv g Y : bp (- g) <= Y <= bp g -> bp (- g) <= / Y <= bp g.
Proof.
  intros By. pose proof (bp_pos (- g)). split.
  - rewrite <- bp_inv. apply Rinv_le_contravar; lra.
  - replace (bp g) with (/ bp (- g)) by (rewrite bp_inv; f_equal; lia). apply Rinv_le_contravar; lra.
Qed.

Lemma cmul k j e g x y X Y : close k e x X -> close j g y Y -> 0 <= k <= 1990 -> 0 <= j <= 1990 ->
  (0 <= e)%Z -> (0 <= g)%Z -> (e + g <= 1000)%Z -> close (k + j + 11 / 10) (e + g) (nmul x y) (X * Y).
Proof.
  intros Cx Cy K J He Hg Hs. destruct (close_ratio _ _ _ _ Cx) as (a & Ea & Ha), (close_ratio _ _ _ _ Cy) as (b & Eb & Hb).
  destruct (close_fin _ _ _ _ Cx) as (f & -> & Fx & Vx), (close_fin _ _ _ _ Cy) as (h & -> & Fy & Vy).
  pose proof (close_pos _ _ _ _ Cx). pose proof (close_pos _ _ _ _ Cy).
  pose proof (prod_ratio k j a b K J Ha Hb) as Hab. assert (P : 0 < X * Y) by now apply Rmult_lt_0_compat.
  apply close_weak with (k + j + 1 / 100 + 101 / 100) (e + g)%Z; [lra|lia|].
  apply (c_op _ _ _ _ _ (mul_rounds f h Fx Fy)); try lra; try lia.
  - rewrite <- Vx, <- Vy, Ea, Eb. replace (a * X * (b * Y)) with (a * b * (X * Y)) by ring. now apply scaled.
  - apply bounds_mul; [apply Cx|apply Cy].
Qed.

Lemma fin_nonzero y : finite_double y -> val y <> 0 -> neqb y (nint 0) = false.
Proof. intros F N. change (@neqb pynum PNum) with py_eqb. apply eqb_f; [now apply finite_finp|exact I|exact N]. Qed.

Lemma close_nonzero k e x X : close k e x X -> 0 <= k <= 1990 -> 0 < val x.
Proof.
  intros C K. pose proof (close_pos _ _ _ _ C) as P. destruct C as (_ & E & _). destruct (ku_small k) as [S1 S2]; [lra|].
  assert (k * u53 * X <= 1 / 2000000 * X) by (apply Rmult_le_compat_r; lra). apply abs_le in E. lra.
Qed.

Lemma cdiv k j e g x y X Y : close k e x X -> close j g y Y -> 0 <= k <= 1990 -> 0 <= j <= 1990 ->
  (0 <= e)%Z -> (0 <= g)%Z -> (e + g <= 1000)%Z ->
  pydiv x y = Ok (ndiv x y) /\ close (k + j + 11 / 10) (e + g) (ndiv x y) (X / Y).
Proof.
  intros Cx Cy K J He Hg Hs. pose proof (close_nonzero _ _ _ _ Cy J) as Ny. split.
  - unfold pydiv. rewrite fin_nonzero; [reflexivity|apply Cy|lra].
  - destruct (close_ratio _ _ _ _ Cx) as (a & Ea & Ha), (close_ratio _ _ _ _ Cy) as (b & Eb & Hb).
    destruct (close_fin _ _ _ _ Cx) as (f & -> & Fx & Vx), (close_fin _ _ _ _ Cy) as (h & -> & Fy & Vy).
    pose proof (close_pos _ _ _ _ Cx) as Px. pose proof (close_pos _ _ _ _ Cy) as Py.
    destruct (inv_ratio j b J Hb) as [Pb Hi].
    assert (Hab : Rabs (a * / b - 1) <= (k + j + 2 / 100) * u53).
    { replace (k + j + 2 / 100) with (k + (j + 1 / 100) + 1 / 100) by lra.
      destruct (Rle_dec j 999); [apply prod_ratio; lra|].
      pose proof u53_small as U. pose proof u53_val as U'. destruct (ku_small k) as [S1 S2]; [lra|].
      replace (a * / b - 1) with ((a - 1) + (/ b - 1) + (a - 1) * (/ b - 1)) by ring.
      assert (M : Rabs ((a - 1) * (/ b - 1)) <= (1 / 2000000) * (1991 * u53)).
      { rewrite Rabs_mult. apply Rmult_le_compat; try apply Rabs_pos; [lra|]. apply Rle_trans with (1 := Hi). apply Rmult_le_compat_r; lra. }
      apply abs_le in Ha, Hi, M. apply abs_le. lra. }
    assert (Q : 0 < X / Y) by (apply Rmult_lt_0_compat; [lra|now apply Rinv_0_lt_compat]).
    apply close_weak with (k + j + 2 / 100 + 101 / 100) (e + g)%Z; [lra|lia|].
    apply (c_op _ _ _ _ _ (div_rounds f h Fx Fy ltac:(lra))); try lra; try lia.
    + rewrite <- Vx, <- Vy, Ea, Eb. replace (a * X / (b * Y)) with (a * / b * (X / Y)) by (field; lra). now apply scaled.
    + apply bounds_mul; [apply Cx|]. apply bounds_inv. apply Cy.
Qed.

Lemma cadd k e x y X Y : close k e x X -> close k e y Y -> 0 <= k <= 1990 -> (0 <= e <= 1000)%Z ->
  close (k + 11 / 10) (e + 1) (nadd x y) (X + Y).
Proof.
  intros Cx Cy K He.
  destruct (close_fin _ _ _ _ Cx) as (f & -> & Fx & Vx), (close_fin _ _ _ _ Cy) as (h & -> & Fy & Vy).
  apply close_weak with (k + 101 / 100) (e + 1)%Z; [lra|lia|].
  destruct Cx as (_ & Ex & Bx), Cy as (_ & Ey & By).
  apply (c_op _ _ _ _ _ (add_rounds f h Fx Fy)); try lra; try lia.
  - rewrite <- Vx, <- Vy. apply abs_le in Ex, Ey. apply abs_le. lra.
  - rewrite bp_double. split; [|lra]. apply Rle_trans with (bp (- e)); [apply bp_le; lia|]. pose proof (bp_pos (- e)). lra.
Qed.

Lemma accurate_ratio k x X : accurate k x X -> 0 < X -> exists b, val x = b * X /\ Rabs (b - 1) <= bp (- k).
Proof.
  intros (F & E) P. exists (val x / X). split; [field; lra|]. change (powerRZ 2 (- k)) with (bp (- k)) in E.
  replace (val x / X - 1) with ((val x - X) * / X) by (field; lra).
  rewrite Rabs_mult, (Rabs_right (/ X)) by (apply Rle_ge, Rlt_le, Rinv_0_lt_compat; lra). rewrite (Rabs_right X) in E by lra.
  apply Rmult_le_reg_r with X; [lra|]. rewrite Rmult_assoc, Rinv_l by lra. lra.
Qed.

Lemma bp51 : bp (-51) = 4 * u53.
Proof. unfold u53. change (-51)%Z with (-53 + 1 + 1)%Z. rewrite !bp_double. ring. Qed.

(** A power whose exact value on the computed operand is [a] times the exact one. *)
Lemma c_pow k e r a V : 0 <= k <= 4000 -> Rabs (a - 1) <= k * u53 -> bp (- e) <= V <= bp e -> accurate 51 r (a * V) ->
  close (k + 41 / 10) e r V.
Proof.
  intros K A B C. pose proof (ku_small k K) as S. pose proof u53_small as U.
  assert (P : 0 < V) by (apply Rlt_le_trans with (2 := proj1 B); apply bp_pos).
  assert (Pa : 0 < a) by (apply abs_le in A; lra).
  destruct (accurate_ratio 51 r (a * V) C) as (b & Eb & Hb); [now apply Rmult_lt_0_compat|].
  change (- (51))%Z with (-51)%Z in Hb. rewrite bp51 in Hb.
  split; [apply C|]. split; [|exact B]. rewrite Eb. replace (b * (a * V)) with (b * a * V) by ring. apply scaled; [exact P|].
  replace (b * a - 1) with ((a - 1) + (b - 1) + (a - 1) * (b - 1)) by ring.
  assert (M : Rabs ((a - 1) * (b - 1)) <= (1 / 2000000) * (4 * u53)).
  { rewrite Rabs_mult. apply Rmult_le_compat; try apply Rabs_pos; lra. }
  apply abs_le in A, Hb, M. apply abs_le. lra.
Qed.

Section Pow.
Variable pw : pynum -> pynum -> res pynum.
Hypothesis good : good_pow pw.

Lemma close_range k e x X : close k e x X -> 0 <= k <= 1990 -> bp (- (e + 1)) <= val x <= bp (e + 1).
Proof.
  intros C K. pose proof (close_pos _ _ _ _ C) as P. destruct C as (_ & E & B). destruct (ku_small k) as [S1 S2]; [lra|].
  assert (k * u53 * X <= 1 / 2000000 * X) by (apply Rmult_le_compat_r; lra). apply abs_le in E.
  rewrite bp_double. replace (- (e + 1))%Z with (- e - 1)%Z by lia.
  assert (bp (- e) = bp (- e - 1) * 2) by (rewrite <- bp_double; f_equal; lia). lra.
Qed.

Lemma croot k e g x X : close k e x X -> 0 <= k <= 1990 -> (0 <= e <= 900)%Z -> (e <= 2 * g)%Z ->
  exists r, pw x (nflt 1 2) = Ok r /\ close (k * (51 / 100) + 42 / 10) g r (sqrt X).
Proof.
  intros C K He Hg. pose proof (close_pos _ _ _ _ C) as P. pose proof (close_range _ _ _ _ C K) as R.
  destruct (close_ratio _ _ _ _ C) as (a & Ea & Ha). destruct (ku_small k) as [S1 S2]; [lra|].
  destruct (good_root pw good x) as (r & Er & Ar); [apply C| |].
  { change (powerRZ 2 (-1000)) with (bp (-1000)). change (powerRZ 2 1000) with (bp 1000).
    split; [apply Rle_trans with (2 := proj1 R)|apply Rle_trans with (1 := proj2 R)]; apply bp_le; lia. }
  exists r. split; [exact Er|]. rewrite Ea in Ar.
  assert (Pa : 1 / 2 <= a) by (apply abs_le in Ha; lra). rewrite sqrt_mult in Ar by lra.
  assert (Q : 98 / 100 <= sqrt a).
  { rewrite <- (sqrt_square (98 / 100)) by lra. apply sqrt_le_1_alt. apply abs_le in Ha. lra. }
  apply close_weak with (k * (51 / 100) + 41 / 10) g; [lra|lia|].
  apply c_pow with (sqrt a); [lra| | |exact Ar].
  - pose proof (sqrt_sqrt a ltac:(lra)) as SS.
    replace (sqrt a - 1) with ((a - 1) * / (sqrt a + 1)) by (rewrite <- SS at 1; field; lra).
    assert (I : 0 < / (sqrt a + 1) <= 51 / 100).
    { split; [apply Rinv_0_lt_compat; lra|]. replace (51 / 100) with (/ (100 / 51)) by field. apply Rinv_le_contravar; lra. }
    rewrite Rabs_mult, (Rabs_right (/ _)) by lra.
    replace (k * (51 / 100) * u53) with (k * u53 * (51 / 100)) by ring. apply Rmult_le_compat; try lra. apply Rabs_pos.
  - destruct C as (_ & _ & B). split.
    + rewrite <- bp_sqrt. apply sqrt_le_1_alt. apply Rle_trans with (2 := proj1 B). apply bp_le. lia.
    + rewrite <- bp_sqrt. apply sqrt_le_1_alt. apply Rle_trans with (1 := proj2 B). apply bp_le. lia.
Qed.

Lemma csquare k e x X : close k e x X -> 0 <= k <= 1990 -> (0 <= e <= 480)%Z ->
  exists r, pw x (nint 2) = Ok r /\ close (2 * k + 42 / 10) (2 * e) r (X * X).
Proof.
  intros C K He. pose proof (close_pos _ _ _ _ C) as P. pose proof (close_range _ _ _ _ C K) as R.
  destruct (close_ratio _ _ _ _ C) as (a & Ea & Ha).
  destruct (good_square pw good x) as (r & Er & Ar); [apply C| |].
  { change (powerRZ 2 (-500)) with (bp (-500)). change (powerRZ 2 500) with (bp 500).
    split; [apply Rle_trans with (2 := proj1 R)|apply Rle_trans with (1 := proj2 R)]; apply bp_le; lia. }
  exists r. split; [exact Er|]. rewrite Ea in Ar. replace ((a * X) ^ 2) with (a * a * (X * X)) in Ar by ring.
  apply close_weak with (2 * k + 1 / 100 + 41 / 10) (2 * e)%Z; [lra|lia|].
  apply c_pow with (a * a); [lra| | |exact Ar].
  - replace (2 * k + 1 / 100) with (k + k + 1 / 100) by ring. apply prod_ratio; lra.
  - replace (2 * e)%Z with (e + e)%Z by lia. apply bounds_mul; apply C.
Qed.

Lemma ccube k e x X : close k e x X -> 0 <= k <= 400 -> (0 <= e <= 320)%Z ->
  exists r, pw x (nint 3) = Ok r /\ close (3 * k + 43 / 10) (3 * e) r (X * X * X).
Proof.
  intros C K He. pose proof (close_pos _ _ _ _ C) as P. pose proof (close_range _ _ _ _ C ltac:(lra)) as R.
  destruct (close_ratio _ _ _ _ C) as (a & Ea & Ha).
  destruct (good_cube pw good x) as (r & Er & Ar); [apply C| |].
  { change (powerRZ 2 (-330)) with (bp (-330)). change (powerRZ 2 330) with (bp 330).
    split; [apply Rle_trans with (2 := proj1 R)|apply Rle_trans with (1 := proj2 R)]; apply bp_le; lia. }
  exists r. split; [exact Er|]. rewrite Ea in Ar. replace ((a * X) ^ 3) with (a * a * a * (X * X * X)) in Ar by ring.
  apply close_weak with (3 * k + 2 / 100 + 41 / 10) (3 * e)%Z; [lra|lia|].
  apply c_pow with (a * a * a); [lra| | |exact Ar].
  - replace (3 * k + 2 / 100) with ((k + k + 1 / 100) + k + 1 / 100) by lra.
    apply prod_ratio; try lra. apply prod_ratio; lra.
  - replace (3 * e)%Z with (e + e + e)%Z by lia. apply bounds_mul; [apply bounds_mul|]; apply C.
Qed.
End Pow.

(** Literals. *)
Lemma cint z : (1 <= z <= 2 ^ 20)%Z -> close 0 20 (PFlt (sf_of_Z z)) (IZR z).
Proof.
  intros Hz. destruct (small_int z) as [F V]; [lia|]. split; [now apply fin_double|]. rewrite val_sfR, V. split.
  - rewrite Rminus_eq_0, Rabs_R0. lra.
  - split; [apply Rle_trans with 1; [rewrite <- bp_0; apply bp_le; lia|apply IZR_le; lia]|].
    rewrite bp_Z by lia. apply IZR_le. lia.
Qed.

Lemma clit n d : (1 <= n <= 2 ^ 20)%Z -> (1 <= Z.pos d <= 2 ^ 20)%Z -> close (11 / 10) 40 (nflt n d) (IZR n / IZR (Z.pos d)).
Proof.
  intros Hn Hd. destruct (cdiv _ _ _ _ _ _ _ _ (cint n Hn) (cint (Z.pos d) Hd)) as [_ C]; try lra; try lia.
  replace (0 + 0 + 11 / 10) with (11 / 10) in C by lra. exact C.
Qed.

Lemma imul z x : finite_double x -> nmul (PInt z) x = nmul (PFlt (sf_of_Z z)) x.
Proof. intros F. apply finite_double_fin in F. destruct F as (f & -> & _). reflexivity. Qed.
Lemma iadd z x : finite_double x -> nadd (PInt z) x = nadd (PFlt (sf_of_Z z)) x.
Proof. intros F. apply finite_double_fin in F. destruct F as (f & -> & _). reflexivity. Qed.
Lemma addi z x : finite_double x -> nadd x (PInt z) = nadd x (PFlt (sf_of_Z z)).
Proof. intros F. apply finite_double_fin in F. destruct F as (f & -> & _). reflexivity. Qed.
Lemma isub z x : finite_double x -> nsub (PInt z) x = nsub (PFlt (sf_of_Z z)) x.
Proof. intros F. apply finite_double_fin in F. destruct F as (f & -> & _). reflexivity. Qed.
Lemma idiv z x : pydiv (PInt z) x = pydiv (PFlt (sf_of_Z z)) x.
Proof. reflexivity. Qed.
Lemma divi_ok z x : z <> 0%Z -> pydiv x (PInt z) = Ok (ndiv x (PFlt (sf_of_Z z))).
Proof.
  intros H. unfold pydiv. change (@neqb pynum PNum) with py_eqb. rewrite eqb_f; [reflexivity|exact I|exact I|].
  cbn [val nint PNum]. now apply not_0_IZR.
Qed.

(** The lesser and the greater of two. *)
Lemma cmin k e x y X Y : close k e x X -> close k e y Y -> 0 <= k <= 1990 -> close k e (pymin x y) (Rmin X Y).
Proof.
  intros Cx Cy K. pose proof (close_pos _ _ _ _ Cx) as Px. pose proof (close_pos _ _ _ _ Cy) as Py.
  destruct (ku_small k) as [S1 S2]; [lra|].
  destruct Cx as (Fx & Ex & Bx), Cy as (Fy & Ey & By). unfold pymin. change (@nltb pynum PNum) with py_ltb.
  destruct (Rle_dec X Y) as [L|L].
  - rewrite Rmin_left by lra. assert (X * (1 - k * u53) <= Y * (1 - k * u53)) by (apply Rmult_le_compat_r; lra).
    destruct (Rlt_le_dec (val y) (val x)) as [M|M].
    + rewrite (ltb_t y x (finite_finp _ Fy) (finite_finp _ Fx) M). split; [exact Fy|]. split; [|exact Bx].
      apply abs_le in Ex, Ey. apply abs_le. lra.
    + rewrite (ltb_f y x (finite_finp _ Fy) (finite_finp _ Fx) M). exact (conj Fx (conj Ex Bx)).
  - rewrite Rmin_right by lra. assert (Y * (1 - k * u53) <= X * (1 - k * u53)) by (apply Rmult_le_compat_r; lra).
    destruct (Rlt_le_dec (val y) (val x)) as [M|M].
    + rewrite (ltb_t y x (finite_finp _ Fy) (finite_finp _ Fx) M). exact (conj Fy (conj Ey By)).
    + rewrite (ltb_f y x (finite_finp _ Fy) (finite_finp _ Fx) M). split; [exact Fx|]. split; [|exact By].
      apply abs_le in Ex, Ey. apply abs_le. lra.
Qed.

Lemma cmax k e x y X Y : close k e x X -> close k e y Y -> 0 <= k <= 1990 -> close k e (pymax x y) (Rmax X Y).
Proof.
  intros Cx Cy K. pose proof (close_pos _ _ _ _ Cx) as Px. pose proof (close_pos _ _ _ _ Cy) as Py.
  destruct (ku_small k) as [S1 S2]; [lra|].
  destruct Cx as (Fx & Ex & Bx), Cy as (Fy & Ey & By). unfold pymax. change (@nltb pynum PNum) with py_ltb.
  destruct (Rle_dec Y X) as [L|L].
  - rewrite Rmax_left by lra. assert (Y * (1 + k * u53) <= X * (1 + k * u53)) by (apply Rmult_le_compat_r; lra).
    destruct (Rlt_le_dec (val x) (val y)) as [M|M].
    + rewrite (ltb_t x y (finite_finp _ Fx) (finite_finp _ Fy) M). split; [exact Fy|]. split; [|exact Bx].
      apply abs_le in Ex, Ey. apply abs_le. lra.
    + rewrite (ltb_f x y (finite_finp _ Fx) (finite_finp _ Fy) M). exact (conj Fx (conj Ex Bx)).
  - rewrite Rmax_right by lra. assert (X * (1 + k * u53) <= Y * (1 + k * u53)) by (apply Rmult_le_compat_r; lra).
    destruct (Rlt_le_dec (val x) (val y)) as [M|M].
    + rewrite (ltb_t x y (finite_finp _ Fx) (finite_finp _ Fy) M). exact (conj Fy (conj Ey By)).
    + rewrite (ltb_f x y (finite_finp _ Fx) (finite_finp _ Fy) M). split; [exact Fx|]. split; [|exact By].
      apply abs_le in Ex, Ey. apply abs_le. lra.
Qed.

(** From units to powers of two. *)
Lemma close_accurate k e n x X : close k e x X -> k * u53 <= bp (- n) -> accurate n x X.
Proof.
  intros C K. pose proof (close_pos _ _ _ _ C) as P. destruct C as (F & E & _). split; [exact F|].
  change (powerRZ 2 (- n)) with (bp (- n)). rewrite (Rabs_right X) by lra. apply Rle_trans with (1 := E). apply Rmult_le_compat_r; lra.
Qed.

Lemma units n : (0 <= n)%Z -> IZR (2 ^ n) * u53 = bp (- (53 - n)).
Proof. intros H. rewrite <- bp_Z by lia. unfold u53. rewrite <- bp_add. f_equal. lia. Qed.

Lemma close_units k e n x X : close k e x X -> (0 <= n)%Z -> k <= IZR (2 ^ n) -> accurate (53 - n) x X.
Proof.
  intros C N K. apply close_accurate with (1 := C). rewrite <- units by lia. pose proof u53_small. apply Rmult_le_compat_r; lra.
Qed.
