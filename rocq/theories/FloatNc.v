(** Rounding error of the compression capacity [s6_1_1_Nc] (S6). *)

From Coq Require Import ZArith Reals List Bool String Lia Lra Psatz Floats.SpecFloat.
From Verif Require Import Base Num PyNum FloatSpec FloatValSpec FloatRound FloatOps FloatFacts FloatError FloatUtil
  FloatUtilSpec FloatCheck FloatLocs FloatCapacity FloatRoot FloatFormulaSpec FloatS6Spec FloatCalc FloatFormulas FloatNear
  FloatAlphaC FloatPow FloatFormulaFinal FloatTorsion FloatPow6 FloatColumn Symmetry NumFormulas NumS6.
Import ListNotations.
Open Scope R_scope.
Local Opaque SFadd SFsub SFmul SFdiv SFsqrt.

(** ** How the nominal stress depends on the elastic one *)
Lemma quotient_sens fy fo fo' d : 0 < fy -> 0 < fo -> 0 <= d <= 1 / 10000000 -> Rabs (fo' - fo) <= d * fo ->
  0 < fo' /\ Rabs (fy / fo' - fy / fo) <= 1001 / 1000 * d * (fy / fo).
Proof.
  intros Py Po Hd H. assert (d * fo <= 1 / 10000000 * fo) by (apply Rmult_le_compat_r; lra).
  assert (Q : 9999 / 10000 * fo <= fo') by (apply abs_le in H; lra). assert (Po' : 0 < fo') by lra. split; [exact Po'|].
  replace (fy / fo' - fy / fo) with ((fy / fo) * ((fo - fo') * / fo')) by (field; lra).
  assert (PQ : 0 < fy / fo) by (apply Rdiv_lt_0_compat; assumption).
  rewrite Rabs_mult, (Rabs_right (fy / fo)) by lra. rewrite Rmult_comm. apply Rmult_le_compat_r; [lra|].
  rewrite Rabs_mult, (Rabs_right (/ fo')) by (apply Rle_ge, Rlt_le, Rinv_0_lt_compat; lra). rewrite Rabs_minus_sym.
  apply Rle_trans with (d * fo * / fo'); [apply Rmult_le_compat_r; [apply Rlt_le, Rinv_0_lt_compat; lra|exact H]|].
  rewrite Rmult_assoc, (Rmult_comm (1001 / 1000)). apply Rmult_le_compat_l; [lra|].
  apply Rmult_le_reg_r with fo'; [lra|]. rewrite Rmult_assoc, Rinv_l by lra. lra.
Qed.

Lemma sqrt_sens Y Y' d : 0 < Y -> 0 <= d <= 1 / 1000 -> Rabs (Y' - Y) <= d * Y -> Rabs (sqrt Y' - sqrt Y) <= d * sqrt Y.
Proof.
  intros P Hd H. assert (d * Y <= 1 / 1000 * Y) by (apply Rmult_le_compat_r; lra).
  assert (P' : 0 < Y') by (apply abs_le in H; lra).
  pose proof (sqrt_lt_R0 _ P) as S. pose proof (sqrt_lt_R0 _ P') as S'.
  pose proof (sqrt_sqrt Y ltac:(lra)) as E. pose proof (sqrt_sqrt Y' ltac:(lra)) as E'.
  set (a := sqrt Y) in *. set (b := sqrt Y') in *.
  apply Rmult_le_reg_r with (b + a); [lra|]. rewrite <- (Rabs_right (b + a)) at 1 by lra. rewrite <- Rabs_mult.
  replace ((b - a) * (b + a)) with (Y' - Y) by (rewrite <- E, <- E'; ring). apply Rle_trans with (1 := H).
  rewrite <- E, Rmult_assoc. apply Rmult_le_compat_l; [lra|]. assert (0 < a * b) by (apply Rmult_lt_0_compat; lra). lra.
Qed.

Lemma switch_side Y : 0 <= Y -> sqrt Y <= 3 / 2 <-> Y <= 9 / 4.
Proof.
  intros P. pose proof (sqrt_pos Y) as S. pose proof (sqrt_sqrt Y P) as E. set (a := sqrt Y) in *. split; intros H.
  - assert (a * a <= 3 / 2 * (3 / 2)) by (apply Rmult_le_compat; lra). lra.
  - apply Rnot_lt_le. intros L. assert (3 / 2 * (3 / 2) < a * a) by (apply Rmult_le_0_lt_compat; lra). lra.
Qed.

Lemma near_switch Y : Rabs (Y - 9 / 4) <= 3 / 10000000 ->
  389939 / 1000000 <= Rpower (658 / 1000) Y <= 389961 / 1000000 /\ 389777 / 1000000 <= 877 / 1000 / Y <= 389779 / 1000000.
Proof.
  intros H. pose proof switch_base as B. set (p := Rpower (658 / 1000) Y). set (p0 := Rpower (658 / 1000) (9 / 4)) in *.
  pose proof (Rpower_near (658 / 1000) (658 / 1000) Y (9 / 4) 0 (3 / 10000000) ltac:(lra) ltac:(lra) ltac:(lra)
    ltac:(rewrite Rminus_eq_0, Rabs_R0; lra) H ltac:(lra) ltac:(lra) ltac:(lra)) as N. fold p p0 in N.
  assert (1002 / 1000 * (54 / 100 * (3 / 10000000) + 48 / 10 * 0) * p0 <= 2 / 10000000) by lra.
  apply abs_le in N. split; [lra|]. apply abs_le in H. set (k := 877 / 1000 / Y). assert (Ek : k * Y = 877 / 1000) by (unfold k; field; lra).
  split; (apply Rmult_le_reg_r with Y; [lra|]; rewrite Ek; lra).
Qed.

Lemma nominal_sens fy fo fo' d : 0 < fy -> 0 < fo -> 0 <= d <= 1 / 10000000 -> Rabs (fo' - fo) <= d * fo ->
  let N := nominal_stress fy fo in let N' := nominal_stress fy fo' in
  Rabs (N' - N) <= 48 / 100000 * N /\
  (9 / 10000000 <= Rabs (sqrt (fy / fo) - 3 / 2) -> Rabs (N' - N) <= 2 * d * N /\ 5 / 10000000 <= Rabs (sqrt (fy / fo') - 3 / 2)).
Proof.
  intros Py Po Hd H N N'. destruct (quotient_sens fy fo fo' d Py Po Hd H) as [Po' Q].
  assert (PY : 0 < fy / fo) by (apply Rdiv_lt_0_compat; assumption). assert (PY' : 0 < fy / fo') by (apply Rdiv_lt_0_compat; assumption).
  pose proof (sqrt_sens _ _ (1001 / 1000 * d) PY ltac:(lra) Q) as SQ.
  pose proof (switch_side (fy / fo) ltac:(lra)) as I. pose proof (switch_side (fy / fo') ltac:(lra)) as I'.
  unfold N, N'. rewrite !nominal_eq by assumption.
  set (Y := fy / fo) in *. set (Y' := fy / fo') in *.
  assert (SQ' : Rabs (sqrt Y' - sqrt Y) <= 1001 / 10000000000 * sqrt Y).
  { apply Rle_trans with (1 := SQ). apply Rmult_le_compat_r; [apply sqrt_pos|lra]. }
  assert (Q' : Rabs (Y' - Y) <= 1001 / 10000000000 * Y).
  { apply Rle_trans with (1 := Q). apply Rmult_le_compat_r; lra. }
  apply abs_le in SQ'. apply abs_le in Q'. pose proof (sqrt_pos Y) as SP.
  assert (Pw : forall x, 0 < Rpower (658 / 1000) x) by (intros; apply exp_pos).
  assert (Scale : forall a b k, Rabs (a - b) <= k * b -> Rabs (fy * a - fy * b) <= k * (fy * b)).
  { intros a b k K. rewrite <- Rmult_minus_distr_l, Rabs_mult, (Rabs_right fy) by lra.
    replace (k * (fy * b)) with (fy * (k * b)) by ring. apply Rmult_le_compat_l; [lra|exact K]. }
  destruct (Rle_dec (sqrt Y) (3 / 2)) as [L|L], (Rle_dec (sqrt Y') (3 / 2)) as [L'|L'].
  - pose proof (proj1 I L) as B. pose proof (proj1 I' L') as B'.
    assert (E : Rabs (Rpower (658 / 1000) Y' - Rpower (658 / 1000) Y) <= 2 * d * Rpower (658 / 1000) Y).
    { apply Rle_trans with (1002 / 1000 * (54 / 100 * (1001 / 1000 * d * (9 / 4)) + 48 / 10 * 0) * Rpower (658 / 1000) Y).
      - apply Rpower_near; try lra; [rewrite Rminus_eq_0, Rabs_R0; lra|]. apply Rle_trans with (1 := Q). apply Rmult_le_compat_l; lra.
      - apply Rmult_le_compat_r; [apply Rlt_le, Pw|lra]. }
    split; [|intros S; split].
    + apply Scale. apply Rle_trans with (1 := E). apply Rmult_le_compat_r; [apply Rlt_le, Pw|lra].
    + apply Scale, E.
    + rewrite Rabs_left1 in S by lra. rewrite Rabs_left1 by lra. lra.
  - assert (BY : Y <= 9 / 4) by (apply I, L). assert (BY' : 9 / 4 < Y') by (apply Rnot_le_lt; intros B; apply L', I', B).
    destruct (near_switch Y) as [K1 _]; [apply abs_le; lra|]. destruct (near_switch Y') as [_ K2]; [apply abs_le; lra|]. split; [|intros S; exfalso].
    + apply Scale. apply abs_le. lra.
    + rewrite Rabs_left1 in S by lra. lra.
  - assert (BY' : Y' <= 9 / 4) by (apply I', L'). assert (BY : 9 / 4 < Y) by (apply Rnot_le_lt; intros B; apply L, I, B).
    destruct (near_switch Y) as [_ K1]; [apply abs_le; lra|]. destruct (near_switch Y') as [K2 _]; [apply abs_le; lra|]. split; [|intros S; exfalso].
    + apply Scale. apply abs_le. lra.
    + rewrite Rabs_right in S by lra. lra.
  - assert (E : Rabs (877 / 1000 / Y' - 877 / 1000 / Y) <= d * (877 / 1000 / Y)).
    { replace (877 / 1000 / Y' - 877 / 1000 / Y) with ((877 / 1000 / Y) * ((fo' - fo) * / fo)) by (unfold Y, Y'; field; lra).
      assert (PK : 0 < 877 / 1000 / Y) by (apply Rdiv_lt_0_compat; lra).
      rewrite Rabs_mult, (Rabs_right (877 / 1000 / Y)) by lra. rewrite Rmult_comm. apply Rmult_le_compat_r; [lra|].
      rewrite Rabs_mult, (Rabs_right (/ fo)) by (apply Rle_ge, Rlt_le, Rinv_0_lt_compat; lra).
      apply Rmult_le_reg_r with fo; [lra|]. rewrite Rmult_assoc, Rinv_l by lra. lra. }
    assert (PK : 0 < 877 / 1000 / Y) by (apply Rdiv_lt_0_compat; lra).
    split; [|intros S; split].
    + apply Scale. apply Rle_trans with (1 := E). apply Rmult_le_compat_r; lra.
    + apply Scale. apply Rle_trans with (1 := E). apply Rmult_le_compat_r; lra.
    + rewrite Rabs_right in S by lra. rewrite Rabs_right by lra. lra.
Qed.

(** ** Errors relative to a common size *)
Lemma within_weak d e S x X : (e <= d)%Z -> 0 <= S -> within d S x X -> within e S x X.
Proof.
  intros H P (F & E). split; [exact F|]. apply Rle_trans with (1 := E). apply Rmult_le_compat_r; [exact P|].
  change (bp (- d) <= bp (- e)). apply bp_le. lia.
Qed.

Lemma within_min d S x y X Y : within d S x X -> within d S y Y -> within d S (pymin x y) (Rmin X Y).
Proof.
  intros (Fx & Ex) (Fy & Ey). apply abs_le in Ex. apply abs_le in Ey. unfold pymin. change (@nltb pynum PNum) with py_ltb.
  unfold Rmin. destruct (Rlt_le_dec (val y) (val x)) as [M|M].
  - rewrite (ltb_t y x (finite_finp _ Fy) (finite_finp _ Fx) M). split; [exact Fy|]. apply abs_le. destruct (Rle_dec X Y); lra.
  - rewrite (ltb_f y x (finite_finp _ Fy) (finite_finp _ Fx) M). split; [exact Fx|]. apply abs_le. destruct (Rle_dec X Y); lra.
Qed.

Lemma within_mul d p x X S : moderate p -> (1 <= d <= 40)%Z -> bp (-200) <= S <= bp 200 -> Rabs X <= S -> within d S x X ->
  within (d - 1) (val p * S) (nmul p x) (val p * X).
Proof.
  intros Mp Hd BS BX (Fx & Ex). destruct (proj1 (finite_double_fin _) Fx) as (f & -> & Gf).
  pose proof (moderate_pos _ Mp) as Pp. destruct Mp as (Fp & Bp). change (powerRZ 2 (-60)) with (bp (-60)) in Bp. change (powerRZ 2 60) with (bp 60) in Bp.
  destruct (proj1 (finite_double_fin _) Fp) as (g & -> & Gg).
  rewrite val_sfR in *. change (powerRZ 2 (- d)) with (bp (- d)) in Ex. pose proof (bp_pos (-200)) as P2.
  assert (D1 : bp (- d) <= 1) by (rewrite <- bp_0; apply bp_le; lia).
  assert (D2 : 8192 * u53 <= bp (- d)).
  { replace 8192 with (bp 13) by (rewrite bp_Z by lia; reflexivity). unfold u53. rewrite <- bp_add. apply bp_le. lia. }
  assert (D3 : bp (- (d - 1)) = 2 * bp (- d)) by (replace (- (d - 1))%Z with (- d + 1)%Z by lia; rewrite bp_double; ring).
  assert (DS : bp (- d) * S <= 1 * S) by (apply Rmult_le_compat_r; lra).
  assert (Bx : Rabs (sfR f) <= 2 * S) by (apply abs_le in Ex; apply abs_le in BX; apply abs_le; lra).
  assert (Bm : Rabs (sfR g * sfR f) <= sfR g * (2 * S)).
  { rewrite Rabs_mult, (Rabs_right (sfR g)) by lra. apply Rmult_le_compat_l; lra. }
  assert (PS : 0 < sfR g * S) by (apply Rmult_lt_0_compat; lra).
  destruct (rounds_err _ _ (mul_rounds g f Gg Gf)) as [F K].
  { apply Rle_trans with (1 := Bm). apply Rle_trans with (bp 60 * (2 * bp 200)); [apply Rmult_le_compat; lra|].
    rewrite <- bp_1, <- !bp_add. apply bp_le. lia. }
  split; [now apply fin_double|]. change (nmul (PFlt g) (PFlt f)) with (PFlt (SFmul f64 e64 g f)). rewrite val_sfR.
  change (powerRZ 2 (- (d - 1))) with (bp (- (d - 1))). rewrite D3.
  assert (T : bp (-1075) <= u53 * (sfR g * S)).
  { apply Rle_trans with (u53 * (bp (-60) * bp (-200))).
    - unfold u53. rewrite <- !bp_add. apply bp_le. lia.
    - pose proof u53_small. apply Rmult_le_compat_l; [lra|]. pose proof (bp_pos (-60)). apply Rmult_le_compat; lra. }
  assert (K2 : Rabs (sfR (SFmul f64 e64 g f) - sfR g * sfR f) <= 3 * u53 * (sfR g * S)).
  { apply Rle_trans with (1 := K). assert (u53 * Rabs (sfR g * sfR f) <= u53 * (sfR g * (2 * S))) by (pose proof u53_small; apply Rmult_le_compat_l; lra).
    replace (u53 * (sfR g * (2 * S))) with (2 * (u53 * (sfR g * S))) in * by ring. lra. }
  assert (K3 : Rabs (sfR g * sfR f - sfR g * X) <= bp (- d) * (sfR g * S)).
  { rewrite <- Rmult_minus_distr_l, Rabs_mult, (Rabs_right (sfR g)) by lra. replace (bp (- d) * (sfR g * S)) with (sfR g * (bp (- d) * S)) by ring.
    apply Rmult_le_compat_l; lra. }
  assert (K4 : 3 * u53 * (sfR g * S) <= bp (- d) * (sfR g * S)) by (pose proof u53_small; apply Rmult_le_compat_r; lra).
  apply abs_le in K2. apply abs_le in K3. apply abs_le. lra.
Qed.

Lemma within_close d k e x X : close k e x X -> 0 <= k <= 1000 -> (d <= 42)%Z -> within d X x X.
Proof.
  intros (F & E & B) K Hd. split; [exact F|]. apply Rle_trans with (1 := E). pose proof (bp_pos (- e)).
  apply Rmult_le_compat_r; [lra|]. change (powerRZ 2 (- d)) with (bp (- d)). pose proof u53_small as U.
  apply Rle_trans with (1024 * u53); [apply Rmult_le_compat_r; lra|]. replace 1024 with (bp 10) by (rewrite bp_Z by lia; reflexivity).
  unfold u53. rewrite <- bp_add. apply bp_le. lia.
Qed.

Lemma Rmin_size X S : 0 <= X -> 0 <= S -> Rabs (Rmin S X) <= S.
Proof. intros PX PS. rewrite Rabs_right by (apply Rle_ge; apply Rmin_glb; lra). apply Rmin_l. Qed.

Lemma bp_num d : (0 <= d)%Z -> bp (- d) * IZR (2 ^ d) = 1.
Proof. intros H. rewrite <- bp_Z by exact H. rewrite <- bp_add. replace (- d + d)%Z with 0%Z by lia. apply bp_0. Qed.

Section Pow.
Variable pw : pynum -> pynum -> res pynum.
Hypothesis full : full_pow pw.
Let good := full_good pw full.

(** One flexural capacity, capped by the section capacity. *)
Lemma flexural A kf l k r fy ref ab : moderate A -> moderate kf -> moderate l -> moderate k -> moderate r -> moderate fy -> moderate ref ->
  finite_double ab -> -1 <= val ab <= 1 ->
  let ln := slenderness (val l * val k) (val r) (val kf) (val fy) (val ref) in
  usual_slenderness ln (val ab) ->
  exists n, ns6_3_3_N_c pw A kf (ns6_3_2_l_e l k) r fy ref ab = Ok n /\
    let S := val A * val kf * val fy in within 36 S n (S * member_factor ln (val ab)).
Proof.
  intros MA Mk Ml Me Mr My Mf Fa Ha ln Hl.
  pose proof (cmul _ _ _ _ _ _ _ _ (moderate_close _ Ml) (moderate_close _ Me) ltac:(lra) ltac:(lra) ltac:(lia) ltac:(lia) ltac:(lia)) as C.
  change (60 + 60)%Z with 120%Z in C. apply close_weak with (k' := 11 / 10) (e' := 120%Z) in C; [|lra|lia].
  destruct (N_c_cl pw good A kf (nmul l k) (val l * val k) r fy ref ab MA Mk C Mr My Mf Fa Ha Hl) as (n & En & F & B).
  exists n. split; [exact En|]. split; [exact F|exact B].
Qed.

(** The torsional capacity for an elastic stress computed to within [2^-24]. *)
Lemma torsional Ae AE fy fo FO un : close (11 / 10) 120 Ae AE -> moderate fy -> moderate un -> val un <= 1 ->
  finite_double fo -> bp (-199) <= FO <= bp 199 -> Rabs (val fo - FO) <= bp (-24) * FO ->
  let S := AE * val fy in let Z := val un * AE * nominal_stress (val fy) FO in
  exists n lc fn, nn_cz_of pw Ae fy fo un = Ok [n; fo; lc; fn] /\ 0 <= Z <= S /\ within 10 S n Z /\
    (bp (-20) <= Rabs (sqrt (val fy / FO) - 3 / 2) -> within 22 S n Z).
Proof.
  intros CA My Mu Hu Ff BO E S Z. pose proof (bp_num 24 ltac:(lia)) as B24. change (2 ^ 24)%Z with 16777216%Z in B24; change (- (24))%Z with (-24)%Z in B24.
  assert (PO : 0 < FO) by (pose proof (bp_pos (-199)); lra). pose proof (moderate_pos _ My) as Py. pose proof (moderate_pos _ Mu) as Pu.
  pose proof (close_pos _ _ _ _ CA) as PA.
  assert (BF : bp (-24) * FO <= 1 / 2 * FO) by (apply Rmult_le_compat_r; lra).
  assert (Cf : close 0 200 fo (val fo)).
  { split; [exact Ff|]. split; [rewrite Rminus_eq_0, Rabs_R0; lra|]. apply abs_le in E.
    assert (H1 : bp (-199) = 2 * bp (-200)) by (change (-199)%Z with (-200 + 1)%Z; rewrite bp_double; ring).
    assert (H2 : bp 200 = 2 * bp 199) by (change 200%Z with (199 + 1)%Z; rewrite bp_double; ring). change (- (200))%Z with (-200)%Z. lra. }
  destruct (n_cz_float pw full Ae AE fy fo un CA My Mu Cf) as (n & lc & fn & En & Cl & NB & Fn & Fc & B1 & B2 & B3).
  exists n, lc, fn. split; [exact En|].
  destruct (nominal_sens (val fy) FO (val fo) (bp (-24)) Py PO ltac:(lra) E) as [S1 S2].
  set (N := nominal_stress (val fy) FO) in *. set (N' := nominal_stress (val fy) (val fo)) in *.
  assert (NF : 0 < N <= val fy).
  { unfold N. rewrite nominal_eq by assumption. assert (PY : 0 < val fy / FO) by (apply Rdiv_lt_0_compat; assumption).
    assert (G : 0 < (if Rle_dec (sqrt (val fy / FO)) (3 / 2) then Rpower (658 / 1000) (val fy / FO) else 877 / 1000 / (val fy / FO)) <= 1).
    { destruct (Rle_dec _ _) as [L|L].
      - split; [apply exp_pos|]. unfold Rpower. rewrite <- exp_0. pose proof (ln_nonpos (658 / 1000) ltac:(lra)) as LN.
        assert (H : val fy / FO * ln (658 / 1000) <= 0).
        { rewrite <- (Rmult_0_r (val fy / FO)). apply Rmult_le_compat_l; lra. }
        destruct H as [H|H]; [left; now apply exp_increasing|right; now rewrite H].
      - assert (Y9 : 9 / 4 < val fy / FO) by (apply Rnot_le_lt; intros B; apply L, switch_side; lra).
        split; [apply Rdiv_lt_0_compat; lra|]. apply Rmult_le_reg_r with (val fy / FO); [lra|]. unfold Rdiv at 1. rewrite Rmult_assoc, Rinv_l by lra. lra. }
    set (t := if Rle_dec _ _ then _ else _) in *. split; [apply Rmult_lt_0_compat; lra|]. rewrite <- (Rmult_1_r (val fy)) at 2. apply Rmult_le_compat_l; lra. }
  assert (PUA : 0 < val un * AE) by (apply Rmult_lt_0_compat; lra).
  assert (HZ : 0 <= Z <= S).
  { unfold Z, S. split; [apply Rmult_le_pos; lra|]. apply Rmult_le_compat; try lra. rewrite <- (Rmult_1_l AE) at 2. apply Rmult_le_compat_r; lra. }
  assert (PS : 0 < S) by (apply Rmult_lt_0_compat; lra).
  assert (Sc : forall k, Rabs (N' - N) <= k * N -> Rabs (val un * AE * N' - Z) <= k * Z).
  { intros k K. unfold Z. rewrite <- Rmult_minus_distr_l, Rabs_mult, (Rabs_right (val un * AE)) by lra.
    replace (k * (val un * AE * N)) with (val un * AE * (k * N)) by ring. apply Rmult_le_compat_l; lra. }
  split; [exact HZ|]. split.
  - split; [exact Fc|]. specialize (Sc _ S1). set (Z' := val un * AE * N') in *. change (powerRZ 2 (- (10))%Z) with (bp (-10)).
    pose proof (bp_num 10 ltac:(lia)) as B10. change (2 ^ 10)%Z with 1024%Z in B10; change (- (10))%Z with (-10)%Z in B10. assert (Eb : bp (-10) = / 1024) by lra. rewrite Eb.
    apply abs_le in Sc. apply abs_le in B2. apply abs_le. lra.
  - intros Sep. assert (Eb20 : bp (-20) = / 1048576) by (pose proof (bp_num 20 ltac:(lia)) as B20; change (2 ^ 20)%Z with 1048576%Z in B20; change (- (20))%Z with (-20)%Z in B20; lra).
    destruct (S2 ltac:(lra)) as [S3 S4]. pose proof u53_val as U. pose proof u53_small as U0.
    destruct (B3 ltac:(lra)) as [_ (_ & B4 & _)]. split; [exact Fc|]. specialize (Sc _ S3). set (Z' := val un * AE * N') in *.
    change (powerRZ 2 (- (22))%Z) with (bp (-22)). pose proof (bp_num 22 ltac:(lia)) as B22. change (2 ^ 22)%Z with 4194304%Z in B22; change (- (22))%Z with (-22)%Z in B22.
    assert (Eb : bp (-22) = / 4194304) by lra. rewrite Eb. assert (E24 : bp (-24) = / 16777216) by lra. rewrite E24 in Sc.
    assert (30 * u53 * Z' <= 1 / 1000000000 * Z').
    { apply Rmult_le_compat_r; [|lra]. apply abs_le in Sc. lra. }
    apply abs_le in Sc. apply abs_le in B4. apply abs_le. lra.
Qed.

(** ** [s6_1_1_Nc] *)
Lemma Rmin_scale p a b : 0 <= p -> p * Rmin a b = Rmin (p * a) (p * b).
Proof.
  intros P. unfold Rmin at 1. destruct (Rle_dec a b) as [L|L].
  - rewrite Rmin_left; [reflexivity|]. apply Rmult_le_compat_l; lra.
  - rewrite Rmin_right; [reflexivity|]. apply Rmult_le_compat_l; lra.
Qed.

Lemma squash_close q : moderate (w_A_n q) -> moderate (w_k_f q) -> moderate (w_f_y q) ->
  close (11 / 10) 120 (ns6_2_A_e (w_A_n q) (w_k_f q)) (val (w_A_n q) * val (w_k_f q)) /\
  close 3 180 (ns6_2_N_s (ns6_2_A_e (w_A_n q) (w_k_f q)) (w_f_y q)) (squash_load q).
Proof.
  intros MA Mk My.
  pose proof (cmul _ _ _ _ _ _ _ _ (moderate_close _ MA) (moderate_close _ Mk) ltac:(lra) ltac:(lra) ltac:(lia) ltac:(lia) ltac:(lia)) as C1.
  pose proof (cmul _ _ _ _ _ _ _ _ C1 (moderate_close _ My) ltac:(lra) ltac:(lra) ltac:(lia) ltac:(lia) ltac:(lia)) as C2.
  split; [apply close_weak with (3 := C1)|apply close_weak with (3 := C2)]; try lra; lia.
Qed.

Lemma within_50 e x X : close 3 e x X -> within 50 X x X.
Proof.
  intros (F & E & B). split; [exact F|]. apply Rle_trans with (1 := E). pose proof (bp_pos (- e)).
  apply Rmult_le_compat_r; [lra|]. change (powerRZ 2 (- (50))%Z) with (bp (-51 + 1)). rewrite bp_double, bp51. pose proof u53_small. lra.
Qed.

Section Column.
Variable roots : pynum -> pynum -> pynum -> pynum -> list (pynum * pynum).
Variables (q : nsect pynum) (l kx ky kz : pynum) (sym : symmetry_t) (ref ab un phi : pynum).
Hypothesis ins : column_inputs q l kx ky ref ab phi.
Hypothesis rx : usual_slenderness (axis_slenderness q l kx (w_r_x q) ref) (val ab).
Hypothesis ry : usual_slenderness (axis_slenderness q l ky (w_r_y q) ref) (val ab).
Let S := squash_load q.
Let X := flexural_capacity q l kx (w_r_x q) ref ab.
Let Y := flexural_capacity q l ky (w_r_y q) ref ab.

Lemma inputs_split : moderate (w_A_n q) /\ moderate (w_k_f q) /\ moderate (w_r_x q) /\ moderate (w_r_y q) /\ moderate (w_f_y q) /\
  moderate l /\ moderate kx /\ moderate ky /\ moderate ref /\ moderate phi /\ finite_double ab /\ -1 <= val ab <= 1.
Proof using ins.
  destruct ins as (F & I). clear rx ry. repeat (apply Forall_cons_iff in F; destruct F as (? & F)). destruct I as (I1 & I2). repeat (split; [assumption|]). assumption.
Qed.

Lemma S_bounds : bp (-180) <= S <= bp 180 /\ 0 < S.
Proof.
  destruct inputs_split as (MA & Mk & _ & _ & My & _). destruct (squash_close q MA Mk My) as [_ C]. split; [apply C|exact (close_pos _ _ _ _ C)].
Qed.

Lemma capacity_bounds : 0 <= X <= S /\ 0 <= Y <= S.
Proof.
  destruct S_bounds as [_ P]. destruct inputs_split as (_ & _ & _ & _ & _ & _ & _ & _ & _ & _ & _ & Ha).
  assert (forall m, 1 / 10000 <= m -> 0 <= Rmin S (S * m) <= S).
  { intros m M. split; [apply Rmin_glb; [lra|apply Rmult_le_pos; lra]|apply Rmin_l]. }
  split; apply H, factor_bounds; auto; lra.
Qed.

Lemma nc_parts : exists bx b_y,
  ns6_3_3_N_c pw (w_A_n q) (w_k_f q) (ns6_3_2_l_e l kx) (w_r_x q) (w_f_y q) ref ab = Ok bx /\
  ns6_3_3_N_c pw (w_A_n q) (w_k_f q) (ns6_3_2_l_e l ky) (w_r_y q) (w_f_y q) ref ab = Ok b_y /\
  let s := ns6_2_N_s (ns6_2_A_e (w_A_n q) (w_k_f q)) (w_f_y q) in
  within 50 S s S /\ within 36 S (pymin bx s) X /\ within 36 S (pymin b_y s) Y.
Proof.
  destruct inputs_split as (MA & Mk & Mx & My & Mf & Ml & Mkx & Mky & Mr & Mp & Fa & Ha).
  destruct (flexural _ _ _ _ _ _ _ _ MA Mk Ml Mkx Mx Mf Mr Fa Ha rx) as (bx & Ex & Bx).
  destruct (flexural _ _ _ _ _ _ _ _ MA Mk Ml Mky My Mf Mr Fa Ha ry) as (b_y & Ey & By).
  destruct S_bounds as [_ P]. exists bx, b_y. split; [exact Ex|]. split; [exact Ey|].
  destruct (squash_close q MA Mk Mf) as [_ C]. pose proof (within_50 _ _ _ C) as W. cbv zeta. split; [exact W|].
  apply within_weak with (e := 36%Z) in W; [|lia|fold S; lra]. fold S in W.
  unfold X, Y, flexural_capacity. rewrite (Rmin_comm (squash_load q)), (Rmin_comm (squash_load q)). fold S. split; apply within_min; assumption.
Qed.

(** Without torsion. *)
Lemma nc_flexural : exists s ps x px y py c pc,
  ns6_1_1_Nc pw roots q l kx ky kz sym ref ab un phi true false =
    Ok [Some s; Some ps; Some x; Some px; Some y; Some py; None; None; Some c; Some pc] /\
  within 50 S s S /\ within 36 S x X /\ within 36 S y Y /\ within 36 S c (Rmin X Y) /\
  within 35 (val phi * S) ps (val phi * S) /\ within 35 (val phi * S) px (val phi * X) /\ within 35 (val phi * S) py (val phi * Y) /\
  within 35 (val phi * S) pc (val phi * Rmin X Y).
Proof.
  destruct inputs_split as (MA & Mk & Mx & My & Mf & Ml & Mkx & Mky & Mr & Mp & Fa & Ha).
  destruct nc_parts as (bx & b_y & Ex & Ey & W & Wx & Wy). unfold ns6_1_1_Nc. rewrite Ex, Ey. cbn [bind].
  set (s := ns6_2_N_s _ _) in *. destruct S_bounds as [BS P]. destruct capacity_bounds as [HX HY].
  assert (BS' : bp (-200) <= S <= bp 200).
  { pose proof (bp_le (-200) (-180) ltac:(lia)). pose proof (bp_le 180 200 ltac:(lia)). lra. }
  pose proof (within_weak 50 36 S _ _ ltac:(lia) ltac:(lra) W) as W'.
  pose proof (within_mul 36 phi s S S Mp ltac:(lia) BS' ltac:(rewrite Rabs_right; lra) W') as Ps.
  pose proof (within_mul 36 phi _ X S Mp ltac:(lia) BS' ltac:(rewrite Rabs_right; lra) Wx) as Px.
  pose proof (within_mul 36 phi _ Y S Mp ltac:(lia) BS' ltac:(rewrite Rabs_right; lra) Wy) as Py.
  change (36 - 1)%Z with 35%Z in Ps, Px, Py. pose proof (moderate_pos _ Mp) as PP.
  assert (E1 : Rmin (Rmin S X) Y = Rmin X Y) by (rewrite (Rmin_right S X) by lra; reflexivity).
  assert (E2 : Rmin (Rmin (val phi * S) (val phi * X)) (val phi * Y) = val phi * Rmin X Y).
  { rewrite <- (Rmin_scale (val phi) S X) by lra. rewrite <- Rmin_scale by lra. now rewrite E1. }
  do 8 eexists. split; [reflexivity|]. split; [exact W|]. split; [exact Wx|]. split; [exact Wy|]. split.
  - rewrite <- E1. apply within_min; [apply within_min|]; assumption.
  - split; [exact Ps|]. split; [exact Px|]. split; [exact Py|]. rewrite <- E2. apply within_min; [apply within_min|]; assumption.
Qed.

(** With torsion, given the elastic stress. *)
Lemma nc_torsional fo FO : moderate un -> val un <= 1 ->
  nf_oc pw roots q (ns6_3_2_l_e l kx) (ns6_3_2_l_e l ky) (ns6_3_2_l_e l kz) sym = Ok fo ->
  finite_double fo -> bp (-199) <= FO <= bp 199 -> Rabs (val fo - FO) <= bp (-24) * FO ->
  let Z := torsional_capacity q un FO in
  exists s ps x px y py z pz c pc,
  ns6_1_1_Nc pw roots q l kx ky kz sym ref ab un phi true true =
    Ok [Some s; Some ps; Some x; Some px; Some y; Some py; Some z; Some pz; Some c; Some pc] /\
  within 50 S s S /\ within 36 S x X /\ within 36 S y Y /\
  forall d, d = 10%Z \/ d = 22%Z /\ bp (-20) <= Rabs (sqrt (val (w_f_y q) / FO) - 3 / 2) ->
    within d S z Z /\ within d S c (Rmin (Rmin X Y) Z) /\
    within (d - 1) (val phi * S) pz (val phi * Z) /\ within (d - 1) (val phi * S) pc (val phi * Rmin (Rmin X Y) Z).
Proof.
  intros Mu Hu Eo Fo BO HO Z.
  destruct inputs_split as (MA & Mk & Mx & My & Mf & Ml & Mkx & Mky & Mr & Mp & Fa & Ha).
  destruct nc_parts as (bx & b_y & Ex & Ey & W & Wx & Wy). unfold ns6_1_1_Nc, ns6_3_3_N_c_torsion. rewrite Ex, Ey. cbn [bind]. rewrite Eo. cbn [bind].
  destruct (squash_close q MA Mk Mf) as [CA _].
  destruct (torsional _ _ _ fo FO un CA Mf Mu Hu Fo BO HO) as (n & lc & fn & En & BZ & W10 & W22). rewrite En. cbn [bind nth].
  fold (squash_load q) in BZ, W10, W22. fold S in BZ, W10, W22. change (val un * (val (w_A_n q) * val (w_k_f q)) * nominal_stress (val (w_f_y q)) FO) with Z in *.
  set (s := ns6_2_N_s _ _) in *. destruct S_bounds as [BS P]. destruct capacity_bounds as [HX HY].
  assert (BS' : bp (-200) <= S <= bp 200).
  { pose proof (bp_le (-200) (-180) ltac:(lia)). pose proof (bp_le 180 200 ltac:(lia)). lra. }
  do 10 eexists. split; [reflexivity|]. split; [exact W|]. split; [exact Wx|]. split; [exact Wy|].
  intros d Hd.
  assert (Wn : within d S n Z) by (destruct Hd as [->|[-> Sep]]; auto).
  assert (Hd' : (1 <= d <= 40)%Z) by lia. assert (H36 : (d <= 36)%Z) by lia. clear Hd.
  pose proof (within_weak 50 d S _ _ ltac:(lia) ltac:(lra) W) as W'.
  pose proof (within_weak 36 d S _ _ ltac:(lia) ltac:(lra) Wx) as Wx'.
  pose proof (within_weak 36 d S _ _ ltac:(lia) ltac:(lra) Wy) as Wy'.
  assert (E1 : Rmin (Rmin S X) Y = Rmin X Y) by (rewrite (Rmin_right S X) by lra; reflexivity).
  assert (Ez : Rmin S Z = Z) by (apply Rmin_right; lra).
  assert (Wz : within d S (pymin s n) Z) by (rewrite <- Ez; apply within_min; assumption).
  assert (Wc : within d S (pymin (pymin (pymin s (pymin bx s)) (pymin b_y s)) (pymin s n)) (Rmin (Rmin X Y) Z)).
  { rewrite <- E1. apply within_min; [apply within_min; [apply within_min|]|]; assumption. }
  split; [exact Wz|]. split; [exact Wc|].
  assert (B0 : 0 <= Rmin (Rmin X Y) Z <= S).
  { split; [apply Rmin_glb; [apply Rmin_glb|]; lra|]. apply Rle_trans with Z; [apply Rmin_r|lra]. }
  split; apply within_mul; auto; rewrite Rabs_right; lra.
Qed.
End Column.


(** ** The elastic stress by symmetry class *)
Lemma coupled_bounds B FX FZ : 1 / 2 <= B <= 1 -> 0 < FX -> 0 < FZ ->
  let C := coupled_stress B FX FZ in FX * FZ <= C * (FX + FZ) /\ C <= FX /\ C <= FZ.
Proof.
  intros HB P Q C. destruct (disc_bounds B FX FZ HB P Q) as ((D1 & D2) & _). set (S := FX + FZ) in *. set (D := S ^ 2 - 4 * B * FX * FZ) in *.
  assert (D0 : 0 <= D) by (pose proof (Rle_0_sqr (FX - FZ)) as H; unfold Rsqr in H; lra).
  assert (PS : 0 < S) by (unfold S; lra).
  assert (R1 : sqrt D <= S) by (rewrite <- (sqrt_square S) by lra; apply sqrt_le_1_alt; lra).
  assert (R2 : Rabs (FX - FZ) <= sqrt D).
  { rewrite <- (sqrt_square (Rabs (FX - FZ))) by apply Rabs_pos. apply sqrt_le_1_alt. rewrite <- Rabs_mult, Rabs_right; [exact D1|].
    apply Rle_ge. pose proof (Rle_0_sqr (FX - FZ)) as H. exact H. }
  pose proof (sqrt_pos D) as R0. pose proof (sqrt_sqrt D D0) as RR.
  assert (EC : C * (S + sqrt D) = 2 * (FX * FZ)).
  { unfold C, coupled_stress. fold S. fold D. replace ((S - sqrt D) / (2 * B) * (S + sqrt D)) with ((S * S - sqrt D * sqrt D) / (2 * B)) by (field; lra).
    rewrite RR. unfold D. field. lra. }
  assert (PC : 0 < C).
  { apply Rmult_lt_reg_r with (S + sqrt D); [lra|]. rewrite EC. assert (0 < FX * FZ) by (apply Rmult_lt_0_compat; lra). lra. }
  split.
  - assert (C * (S + sqrt D) <= C * (2 * S)) by (apply Rmult_le_compat_l; lra). lra.
  - unfold Rabs in R2. assert (2 * FX <= S + sqrt D /\ 2 * FZ <= S + sqrt D) as [G1 G2] by (unfold S; destruct (Rcase_abs (FX - FZ)); lra).
    split; apply Rmult_le_reg_r with (S + sqrt D); try lra; rewrite EC.
    + assert (FX * (2 * FZ) <= FX * (S + sqrt D)) by (apply Rmult_le_compat_l; lra). lra.
    + assert (FZ * (2 * FX) <= FZ * (S + sqrt D)) by (apply Rmult_le_compat_l; lra). lra.
Qed.

Lemma separate_bounds B FX FZ : 1 / 2 <= B <= 1 -> separate FX FZ ->
  let C := coupled_stress B FX FZ in FX + FZ <= 1026 * C /\ C <= FX /\ C <= FZ /\ bp (-199) <= C <= bp 199.
Proof.
  intros HB ((A1 & A2) & (A3 & A4) & R1 & R2 & _) C. change (powerRZ 2 (-180)) with (bp (-180)) in *. change (powerRZ 2 180) with (bp 180) in *.
  pose proof (bp_pos (-180)) as P0. destruct (coupled_bounds B FX FZ HB ltac:(lra) ltac:(lra)) as (L & U1 & U2). fold C in L, U1, U2.
  assert (G : FX + FZ <= 1026 * C).
  { apply Rmult_le_reg_r with (FX + FZ); [lra|]. apply Rle_trans with (1026 * (FX * FZ)); [|lra].
    assert (0 < FX * FZ) by (apply Rmult_lt_0_compat; lra). destruct (Rle_dec FX FZ) as [K|K].
    - assert (FZ * FZ <= 512 * FX * FZ) by (apply Rmult_le_compat_r; lra). assert (FX * FX <= FX * FZ) by (apply Rmult_le_compat_l; lra). lra.
    - assert (FX * FX <= FX * (512 * FZ)) by (apply Rmult_le_compat_l; lra). assert (FZ * FZ <= FX * FZ) by (apply Rmult_le_compat_r; lra). lra. }
  assert (N9 : bp (-180) = 524288 * bp (-199)).
  { replace 524288 with (bp 19) by (rewrite bp_Z by lia; reflexivity). rewrite <- bp_add. reflexivity. }
  pose proof (bp_le 180 199 ltac:(lia)). pose proof (bp_pos (-199)). repeat split; lra.
Qed.

Lemma polar_half r o : 0 < r -> 2 * o ^ 2 <= r -> 1 / 2 <= 1 - o ^ 2 / r <= 1.
Proof.
  intros P H. assert (0 <= o ^ 2 / r <= 1 / 2); [|lra]. pose proof (pow2_ge_0 o). split.
  - apply Rmult_le_pos; [assumption|]. apply Rlt_le, Rinv_0_lt_compat. exact P.
  - apply Rmult_le_reg_r with r; [exact P|]. unfold Rdiv at 1. rewrite Rmult_assoc, Rinv_l by lra. lra.
Qed.

Lemma eff_close l k : moderate l -> moderate k -> close (11 / 10) 120 (ns6_3_2_l_e l k) (val l * val k).
Proof.
  intros Ml Me. pose proof (cmul _ _ _ _ _ _ _ _ (moderate_close _ Ml) (moderate_close _ Me) ltac:(lra) ltac:(lra) ltac:(lia) ltac:(lia) ltac:(lia)) as C.
  change (60 + 60)%Z with 120%Z in C. apply close_weak with (3 := C); [lra|lia].
Qed.

Lemma foxz_sep A l k kz rx ry xo yo J Iw E G :
  moderate A -> moderate l -> moderate k -> moderate kz -> moderate rx -> moderate ry -> tame xo -> tame yo ->
  moderate J -> tame Iw -> 0 <= val Iw -> moderate E -> moderate G ->
  let r2 := val rx ^ 2 + val ry ^ 2 + val xo ^ 2 + val yo ^ 2 in
  let FX := euler_stress (val E) (val l * val k) (val rx) in
  let FZ := torsion_stress (val A) (val l * val kz) r2 (val J) (val Iw) (val E) (val G) in
  let C := coupled_stress (1 - val xo ^ 2 / r2) FX FZ in
  2 * val xo ^ 2 <= r2 -> separate FX FZ ->
  exists b fx fz ro f, nf_oxz pw A (ns6_3_2_l_e l k) (ns6_3_2_l_e l kz) rx ry xo yo J Iw E G = Ok [b; fx; fz; ro; f] /\
    nf_euler_torsion pw A (ns6_3_2_l_e l kz) rx ry xo yo J Iw E G = Ok fz /\
    bp (-199) <= C <= bp 199 /\
    finite_double f /\ Rabs (val f - C) <= bp (-24) * C /\
    finite_double (pymin f fz) /\ Rabs (val (pymin f fz) - C) <= bp (-24) * C.
Proof.
  intros MA Ml Mk Mz Mx My Tx Ty MJ TW PW ME MG r2 FX FZ C H2 Sep.
  assert (P2 : 0 < r2).
  { unfold r2. pose proof (pow_lt _ 2 (moderate_pos _ Mx)). pose proof (pow_lt _ 2 (moderate_pos _ My)).
    pose proof (pow2_ge_0 (val xo)). pose proof (pow2_ge_0 (val yo)). lra. }
  pose proof (polar_half r2 (val xo) P2 H2) as HB.
  destruct (separate_bounds _ _ _ HB Sep) as (G1 & G2 & G3 & G4). fold C in G1, G2, G3, G4.
  destruct Sep as ((A1 & A2) & (A3 & A4) & R1 & R2 & SP). change (powerRZ 2 (-180)) with (bp (-180)) in *. change (powerRZ 2 180) with (bp 180) in *.
  pose proof (bp_le (-200) (-180) ltac:(lia)) as W1. pose proof (bp_le 180 200 ltac:(lia)) as W2.
  destruct (foxz_gen pw full A _ _ _ _ rx ry xo yo J Iw E G MA (eff_close l k Ml Mk) (eff_close l kz Ml Mz) Mx My Tx Ty MJ TW PW ME MG
    ltac:(fold FX; lra) ltac:(fold r2; fold FZ; lra) H2) as (fz & Ez & Cz & [[_ Bad]|(b & fx & ro & f & Ef & Cx & Fb & Eb & Cr & Ff & E1 & E2)]).
  - exfalso. fold r2 in Bad. fold FX FZ in Bad. lra.
  - fold r2 in E2. fold FX FZ in E2. fold C in E2. specialize (E2 SP). exists b, fx, fz, ro, f. split; [exact Ef|]. split; [exact Ez|]. split; [exact G4|].
    pose proof (bp_pos (-199)) as P9.
    assert (B24 : bp (-35) * (FX + FZ) <= bp (-24) * C).
    { apply Rle_trans with (bp (-35) * (1026 * C)); [apply Rmult_le_compat_l; [left; apply bp_pos|exact G1]|].
      rewrite <- Rmult_assoc. apply Rmult_le_compat_r; [lra|]. replace (bp (-24)) with (bp (-35) * bp 11) by (rewrite <- bp_add; reflexivity).
      apply Rmult_le_compat_l; [left; apply bp_pos|]. rewrite bp_Z by lia. apply IZR_le. cbn. lia. }
    assert (Wf : Rabs (val f - C) <= bp (-24) * C) by lra. split; [exact Ff|]. split; [exact Wf|].
    assert (W : within 24 C (pymin f fz) (Rmin C FZ)).
    { apply within_min; [split; [exact Ff|exact Wf]|]. split; [apply Cz|]. destruct Cz as (_ & E3 & _). apply Rle_trans with (1 := E3).
      change (powerRZ 2 (- (24))%Z) with (bp (-24)). fold r2. fold FZ. apply Rle_trans with (bp (-35) * (FX + FZ)); [|exact B24].
      apply Rle_trans with (32 * u53 * (FX + FZ)); [pose proof u53_small; apply Rmult_le_compat_l; lra|]. apply Rmult_le_compat_r; [lra|].
      replace 32 with (bp 5) by (rewrite bp_Z by lia; reflexivity). unfold u53. rewrite <- bp_add. apply bp_le. lia. }
    rewrite Rmin_left in W by lra. exact W.
Qed.

Lemma polar_swap q : polar_square q = val (w_r_y q) ^ 2 + val (w_r_x q) ^ 2 + val (w_y_o q) ^ 2 + val (w_x_o q) ^ 2.
Proof. unfold polar_square. ring. Qed.

Lemma oc_elastic roots q l kx ky kz ref ab phi sym un FO : column_inputs q l kx ky ref ab phi -> torsion_inputs q kz un ->
  elastic q l kx ky kz sym FO ->
  exists fo, nf_oc pw roots q (ns6_3_2_l_e l kx) (ns6_3_2_l_e l ky) (ns6_3_2_l_e l kz) sym = Ok fo /\
    finite_double fo /\ bp (-199) <= FO <= bp 199 /\ Rabs (val fo - FO) <= bp (-24) * FO.
Proof.
  intros In1 (F1 & F2 & PW & Hu) El. destruct (inputs_split q l kx ky ref ab phi In1) as (MA & Mk & Mx & My & Mf & Ml & Mkx & Mky & Mr & Mp & Fa & Ha).
  repeat (apply Forall_cons_iff in F1; destruct F1 as (? & F1)). repeat (apply Forall_cons_iff in F2; destruct F2 as (? & F2)).
  unfold nf_oc. destruct El as [sym Es Hp Sep|Hp Sep|Hp Sep|sym Es BZ].
  - rewrite Es. cbn [bind]. unfold nf_oc_double_symmetric.
    destruct (foxz_sep (w_A_n q) l kx kz (w_r_x q) (w_r_y q) (w_x_o q) (w_y_o q) (w_J q) (w_I_w q) (w_E q) (w_G q)) as (b & fx & fz & ro & f & Ef & Ez & B & _ & _ & F & E);
      auto. rewrite Ef. cbn [bind]. rewrite Ez. cbn [bind nth]. eexists. split; [reflexivity|]. split; [exact F|]. split; [exact B|exact E].
  - cbn [symmetry bind nf_oc_single_symmetric symcount axis_is axis_in existsb List.length Nat.eqb andb orb String.eqb Ascii.eqb Bool.eqb].
    destruct (foxz_sep (w_A_n q) l kx kz (w_r_x q) (w_r_y q) (w_x_o q) (w_y_o q) (w_J q) (w_I_w q) (w_E q) (w_G q)) as (b & fx & fz & ro & f & Ef & Ez & B & F & E & _);
      auto. rewrite Ef. cbn [bind nth]. eexists. split; [reflexivity|]. split; [exact F|]. split; [exact B|exact E].
  - cbn [symmetry bind nf_oc_single_symmetric symcount axis_is axis_in existsb List.length Nat.eqb andb orb String.eqb Ascii.eqb Bool.eqb].
    unfold twisting_stress, coupling in *. rewrite polar_swap in *.
    destruct (foxz_sep (w_A_n q) l ky kz (w_r_y q) (w_r_x q) (w_y_o q) (w_x_o q) (w_J q) (w_I_w q) (w_E q) (w_G q)) as (b & fx & fz & ro & f & Ef & Ez & B & F & E & _);
      auto. rewrite Ef. cbn [bind nth]. eexists. split; [reflexivity|]. split; [exact F|]. split; [exact B|exact E].
  - rewrite Es. cbn [bind]. unfold nf_oc_point_symmetric. change (powerRZ 2 (-180)) with (bp (-180)) in *. change (powerRZ 2 180) with (bp 180) in *.
    destruct (f_euler_torsion_cl pw good (w_A_n q) (ns6_3_2_l_e l kz) (val l * val kz) (w_r_x q) (w_r_y q) (w_x_o q) (w_y_o q) (w_J q) (w_I_w q) (w_E q) (w_G q)) as (fz & Ez & F & E & _);
      auto; [now apply eff_close|]. exists fz. split; [exact Ez|]. split; [exact F|].
    pose proof (bp_le (-199) (-180) ltac:(lia)). pose proof (bp_le 180 199 ltac:(lia)). pose proof (bp_pos (-180)). split; [lra|].
    apply Rle_trans with (1 := E). fold (polar_square q). fold (twisting_stress q l kz). change (32 * u53 * twisting_stress q l kz <= bp (-24) * twisting_stress q l kz). apply Rmult_le_compat_r; [lra|].
    replace 32 with (bp 5) by (rewrite bp_Z by lia; reflexivity). unfold u53. rewrite <- bp_add. apply bp_le. lia.
Qed.

End Pow.

Lemma moderate_sf m e : fin64 (S754_finite false m e) -> (2 ^ 52 <= Z.pos m < 2 ^ 53)%Z -> (-112 <= e <= 7)%Z ->
  moderate (PFlt (S754_finite false m e)).
Proof.
  intros F Hm He. split; [now apply fin_double|]. rewrite val_sfR. cbn [sfR signed].
  change (powerRZ 2 (-60)) with (bp (-60)). change (powerRZ 2 60) with (bp 60). pose proof (bp_pos e).
  split.
  - replace (bp (-60)) with (bp 52 * bp (-112)) by (rewrite <- bp_add; reflexivity).
    apply Rmult_le_compat; try (left; apply bp_pos); [rewrite bp_Z by lia; apply IZR_le; lia|apply bp_le; lia].
  - replace (bp 60) with (bp 53 * bp 7) by (rewrite <- bp_add; reflexivity).
    apply Rmult_le_compat; [apply IZR_le; lia|lra|rewrite bp_Z by lia; apply IZR_le; lia|apply bp_le; lia].
Qed.
Ltac mods := repeat match goal with
  | |- Forall _ _ => constructor
  | |- moderate ?x => let y := eval vm_compute in x in change x with y; apply moderate_sf; [vm_compute; reflexivity|lia|lia]
  end.
