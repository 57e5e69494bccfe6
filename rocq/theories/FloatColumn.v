(** Rounding error of the torsional buckling capacity (S6, [s6_3_3_N_c_torsion]) and of the compression
    capacity [s6_1_1_Nc]. *)

From Coq Require Import ZArith Reals List Bool Lia Lra Psatz Floats.SpecFloat.
From Verif Require Import Base Num PyNum FloatSpec FloatValSpec FloatRound FloatOps FloatFacts FloatError FloatUtil
  FloatUtilSpec FloatCheck FloatLocs FloatCapacity FloatRoot FloatFormulaSpec FloatS6Spec FloatCalc FloatFormulas FloatNear
  FloatAlphaC FloatPow FloatFormulaFinal FloatTorsion FloatPow6 NumFormulas NumS6.
Import ListNotations.
Open Scope R_scope.
Local Opaque SFadd SFsub SFmul SFdiv SFsqrt.

(** ** Exponentials *)
Lemma exp_near t : Rabs t <= 1 / 1000 -> Rabs (exp t - 1) <= 1002 / 1000 * Rabs t.
Proof.
  intros H. apply abs_le in H. pose proof (exp_ineq1_le t) as L. pose proof (exp_ineq1_le (- t)) as L'.
  rewrite exp_Ropp in L'. pose proof (exp_pos t) as P.
  assert (U : exp t <= / (1 - t)).
  { rewrite <- (Rinv_inv (exp t)). apply Rinv_le_contravar; lra. }
  assert (U' : / (1 - t) - 1 <= 1002 / 1000 * Rabs t).
  { replace (/ (1 - t) - 1) with (t * / (1 - t)) by (field; lra).
    destruct (Rle_lt_dec 0 t) as [T|T].
    - rewrite Rabs_right by lra. rewrite Rmult_comm. apply Rmult_le_compat_r; [lra|].
      apply Rmult_le_reg_r with (1 - t); [lra|]. rewrite Rinv_l by lra. lra.
    - rewrite Rabs_left by lra. assert (0 < / (1 - t)) by (apply Rinv_0_lt_compat; lra).
      assert (t * / (1 - t) <= 0) by (rewrite <- (Rmult_0_l (/ (1 - t))); apply Rmult_le_compat_r; lra). lra. }
  assert (t <= Rabs t /\ - t <= Rabs t) by (split; [apply Rle_abs|rewrite <- Rabs_Ropp; apply Rle_abs]).
  apply abs_le. lra.
Qed.

Lemma ln_low b : 0 < b -> 1 - / b <= ln b.
Proof.
  intros P. pose proof (exp_ineq1_le (- ln b)) as H. rewrite exp_Ropp, exp_ln in H by exact P. lra.
Qed.

Lemma ln_near b c : 65 / 100 <= b -> 65 / 100 <= c -> Rabs (ln b - ln c) <= 16 / 10 * Rabs (b - c).
Proof.
  assert (W : forall b c, 65 / 100 <= b -> 65 / 100 <= c -> ln b - ln c <= 16 / 10 * Rabs (b - c)).
  { clear. intros b c Hb Hc. pose proof (exp_ineq1_le (ln b - ln c)) as H.
    assert (E : exp (ln b - ln c) = b / c) by (unfold Rminus; rewrite exp_plus, exp_Ropp, !exp_ln by lra; reflexivity).
    rewrite E in H. apply Rle_trans with ((b - c) / c).
    - replace ((b - c) / c) with (b / c - 1) by (field; lra). lra.
    - apply Rle_trans with (Rabs (b - c) * / c); [apply Rmult_le_compat_r; [apply Rlt_le, Rinv_0_lt_compat; lra|apply Rle_abs]|].
      rewrite Rmult_comm. apply Rmult_le_compat_r; [apply Rabs_pos|]. apply Rmult_le_reg_r with c; [lra|]. rewrite Rinv_l by lra. lra. }
  intros Hb Hc. pose proof (W b c Hb Hc). pose proof (W c b Hc Hb) as H2. rewrite Rabs_minus_sym in H2. apply abs_le. lra.
Qed.

(** Change of base and of exponent. *)
Lemma Rpower_near b c x y d e : 65 / 100 <= b <= 7 / 10 -> 65 / 100 <= c <= 7 / 10 -> 0 <= y <= 3 -> Rabs (b - c) <= d -> Rabs (x - y) <= e ->
  0 <= d -> 0 <= e -> 54 / 100 * e + 48 / 10 * d <= 1 / 1000 ->
  Rabs (Rpower b x - Rpower c y) <= 1002 / 1000 * (54 / 100 * e + 48 / 10 * d) * Rpower c y.
Proof.
  intros Hb Hc Hy Hd He D0 E0 Sm. pose proof (ln_near b c ltac:(lra) ltac:(lra)) as Ln.
  assert (Lb : Rabs (ln b) <= 54 / 100).
  { pose proof (ln_low b ltac:(lra)). pose proof (ln_nonpos b ltac:(lra)).
    assert (/ b <= 154 / 100) by (apply Rmult_le_reg_r with b; [lra|]; rewrite Rinv_l by lra; lra). apply abs_le. lra. }
  set (t := x * ln b - y * ln c).
  assert (T : Rabs t <= 54 / 100 * e + 48 / 10 * d).
  { replace t with ((x - y) * ln b + y * (ln b - ln c)) by (unfold t; ring). apply Rle_trans with (1 := Rabs_triang _ _).
    rewrite !Rabs_mult. apply Rplus_le_compat.
    - rewrite Rmult_comm. apply Rmult_le_compat; auto using Rabs_pos.
    - apply Rle_trans with (3 * (16 / 10 * d)); [|lra]. rewrite (Rabs_right y) by lra. apply Rmult_le_compat; try lra; auto using Rabs_pos. }
  replace (Rpower b x - Rpower c y) with ((exp t - 1) * Rpower c y).
  - rewrite Rabs_mult. rewrite (Rabs_right (Rpower c y)) by (apply Rle_ge, Rlt_le, exp_pos).
    apply Rmult_le_compat_r; [apply Rlt_le, exp_pos|]. apply Rle_trans with (1 := exp_near t ltac:(lra)). apply Rmult_le_compat_l; lra.
  - unfold Rpower, t. unfold Rminus at 2. rewrite exp_plus, exp_Ropp. pose proof (exp_pos (y * ln c)). field. lra.
Qed.

Lemma Rpow_lt4 a b : 0 <= a < b -> a ^ 4 < b ^ 4.
Proof.
  intros H. assert (a * a < b * b) by (apply Rmult_le_0_lt_compat; lra). assert (0 <= a * a) by (apply Rmult_le_pos; lra).
  assert ((a * a) * (a * a) < (b * b) * (b * b)) by (apply Rmult_le_0_lt_compat; lra).
  replace (a ^ 4) with ((a * a) * (a * a)) by ring. replace (b ^ 4) with ((b * b) * (b * b)) by ring. assumption.
Qed.

(** The jump of the nominal stress where the formulas change. *)
Lemma switch_base : 38994 / 100000 <= Rpower (658 / 1000) (9 / 4) <= 38996 / 100000.
Proof.
  set (x := Rpower (658 / 1000) (9 / 4)). assert (P : 0 < x) by apply exp_pos.
  assert (E : x ^ 4 = (658 / 1000) ^ 9).
  { rewrite <- !Rpower_pow by (try exact P; lra). unfold x. rewrite Rpower_mult. f_equal. cbn. lra. }
  split; apply Rnot_lt_le; intros L.
  - assert (H : x ^ 4 < (38994 / 100000) ^ 4) by (apply Rpow_lt4; lra). lra.
  - assert (H : (38996 / 100000) ^ 4 < x ^ 4) by (apply Rpow_lt4; lra). lra.
Qed.

Lemma switch_jump Y : Rabs (Y - 9 / 4) <= 1 / 1000000000 ->
  let p := Rpower (658 / 1000) Y in let k := 877 / 1000 / Y in
  Rabs (p - k) <= 48 / 100000 * k /\ Rabs (p - k) <= 48 / 100000 * p /\ 1 / 4 <= p <= 1 /\ 1 / 4 <= k <= 1.
Proof.
  intros H p k. pose proof switch_base as B. set (p0 := Rpower (658 / 1000) (9 / 4)) in *.
  pose proof (Rpower_near (658 / 1000) (658 / 1000) Y (9 / 4) 0 (1 / 1000000000) ltac:(lra) ltac:(lra) ltac:(lra)
    ltac:(rewrite Rminus_eq_0, Rabs_R0; lra) H ltac:(lra) ltac:(lra) ltac:(lra)) as N. fold p p0 in N.
  assert (Hp : 389939 / 1000000 <= p <= 389961 / 1000000).
  { assert (1002 / 1000 * (54 / 100 * (1 / 1000000000) + 48 / 10 * 0) * p0 <= 1 / 1000000 * 1) by (apply Rmult_le_compat; lra).
    apply abs_le in N. lra. }
  apply abs_le in H. assert (Ek : k * Y = 877 / 1000) by (unfold k; field; lra).
  assert (Hk : 389777 / 1000000 <= k <= 389779 / 1000000).
  { split; (apply Rmult_le_reg_r with Y; [lra|]; rewrite Ek; lra). }
  repeat split; try lra; apply abs_le; lra.
Qed.

Lemma lit15 : finite_double (fl 15 10) /\ val (fl 15 10) = 3 / 2.
Proof.
  replace (fl 15 10) with (PFlt (S754_finite false 6755399441055744 (-52))) by (vm_compute; reflexivity). split.
  - apply fin_double. vm_compute. reflexivity.
  - rewrite val_sfR. cbn [sfR signed]. change (-52)%Z with (- (52))%Z. rewrite <- bp_inv, bp_Z by lia. change (2 ^ 52)%Z with 4503599627370496%Z. lra.
Qed.

Lemma nominal_eq fy fo : 0 < fy -> 0 < fo -> nominal_stress fy fo =
  fy * (if Rle_dec (sqrt (fy / fo)) (3 / 2) then Rpower (658 / 1000) (fy / fo) else 877 / 1000 / (fy / fo)).
Proof. intros P Q. unfold nominal_stress. destruct (Rle_dec _ _); [reflexivity|]. field. lra. Qed.

Section Pow.
Variable pw : pynum -> pynum -> res pynum.
Hypothesis full : full_pow pw.
Let good := full_good pw full.

Lemma f_n_float fy fo : moderate fy -> close 0 200 fo (val fo) ->
  let Y := val fy / val fo in let N := nominal_stress (val fy) (val fo) in
  exists q lc fn, pydiv fy fo = Ok q /\ pw q (nflt 1 2) = Ok lc /\ nf_n_of pw fy lc = Ok fn /\
    close 5 130 lc (sqrt Y) /\ bp (-202) <= N <= bp 202 /\ finite_double fn /\
    Rabs (val fn - N) <= 481 / 1000000 * N /\ (16 * u53 <= Rabs (sqrt Y - 3 / 2) -> close 25 202 fn N).
Proof.
  intros My Co Y N. pose proof (moderate_close fy My) as Cy. pose proof (close_pos _ _ _ _ Cy) as Py. pose proof (close_pos _ _ _ _ Co) as Po.
  pose proof u53_small as U. pose proof u53_val as U'.
  destruct (cdiv _ _ _ _ _ _ _ _ Cy Co) as [Eq Cq]; try (lra || lia). fold Y in Cq.
  destruct (croot pw good _ _ 130 _ _ Cq) as (lc & El & Cl); try (lra || lia).
  assert (PY : 0 < Y) by exact (close_pos _ _ _ _ Cq).
  pose proof (sqrt_lt_R0 Y PY) as PL. pose proof (sqrt_sqrt Y ltac:(lra)) as LL. set (L := sqrt Y) in *.
  apply close_weak with (k' := 5) (e' := 130%Z) in Cl; [|lra|lia].
  pose proof (cmul _ _ _ _ _ _ _ _ Cl Cl ltac:(lra) ltac:(lra) ltac:(lia) ltac:(lia) ltac:(lia)) as C2. rewrite LL in C2.
  assert (NE : N = val fy * (if Rle_dec L (3 / 2) then Rpower (658 / 1000) Y else 877 / 1000 / Y)) by exact (nominal_eq _ _ Py Po).
  assert (My' : bp (-60) <= val fy <= bp 60) by (destruct My as (_ & H); exact H).
  assert (Bo : bp (-200) <= val fo <= bp 200) by (destruct Co as (_ & _ & H); exact H).
  assert (NB : bp (-202) <= N <= bp 202).
  { rewrite NE. destruct (Rle_dec L (3 / 2)) as [Le|Gt].
    - assert (Y <= 9 / 4) by (rewrite <- LL; apply Rle_trans with (3 / 2 * (3 / 2)); [apply Rmult_le_compat; lra|lra]).
      pose proof (Rpower_range (658 / 1000) Y ltac:(lra) ltac:(lra)) as R. split.
      + apply Rle_trans with (bp (-60) * (1 / 4)); [|apply Rmult_le_compat; try lra; left; apply bp_pos].
        apply Rle_trans with (bp (-60 + - (2))); [apply bp_le; lia|]. rewrite bp_add, <- bp_inv, (bp_Z 2) by lia. change (2 ^ 2)%Z with 4%Z. lra.
      + apply Rle_trans with (bp 60 * 1); [apply Rmult_le_compat; lra|]. rewrite Rmult_1_r. apply bp_le. lia.
    - replace (val fy * (877 / 1000 / Y)) with (877 / 1000 * val fo) by (unfold Y; field; lra). split.
      + apply Rle_trans with (bp (-201)); [apply bp_le; lia|]. change (-201)%Z with (-200 + -1)%Z. rewrite bp_add.
        change (-1)%Z with (- (1))%Z. rewrite <- (bp_inv 1), bp_1. pose proof (bp_pos (-200)). lra.
      + apply Rle_trans with (bp 200); [pose proof (bp_pos (-200)); lra|apply bp_le; lia]. }
  assert (PN : 0 < N) by (pose proof (bp_pos (-202)); lra).
  destruct (close_ratio _ _ _ _ Cl) as (al & Eal & Hal).
  destruct lit15 as [F15 V15].
  assert (Fl : finite_double lc) by apply Cl.
  assert (Zone : Rabs (L - 3 / 2) <= 9 * u53 -> Rabs (Y - 9 / 4) <= 1 / 1000000000).
  { intros H. rewrite <- LL. replace (L * L - 9 / 4) with ((L - 3 / 2) * (L + 3 / 2)) by field. rewrite Rabs_mult.
    apply Rle_trans with (9 * u53 * 4); [|lra]. apply Rmult_le_compat; auto using Rabs_pos. apply abs_le in H. apply abs_le. lra. }
  set (P := Rpower (658 / 1000) Y) in *. set (K := 877 / 1000 / Y) in *.
  (* either formula, if it is the right one or the slenderness is at the switch *)
  assert (Fin : forall fn C, finite_double fn -> 0 < C -> Rabs (val fn - val fy * C) <= 25 * u53 * (val fy * C) ->
     C = (if Rle_dec L (3 / 2) then P else K) \/ (Rabs (L - 3 / 2) <= 9 * u53 /\ (C = P \/ C = K)) ->
     finite_double fn /\ Rabs (val fn - N) <= 481 / 1000000 * N /\ (16 * u53 <= Rabs (L - 3 / 2) -> close 25 202 fn N)).
  { intros fn C F PC E H. split; [exact F|]. destruct (Req_dec C (if Rle_dec L (3 / 2) then P else K)) as [EC|NC].
    - rewrite <- EC in NE. rewrite <- NE in E. split.
      + apply Rle_trans with (1 := E). apply Rmult_le_compat_r; lra.
      + intros _. split; [exact F|]. split; [exact E|exact NB].
    - destruct H as [H|(Z & H)]; [contradiction|]. split; [|intros Z'; lra].
      pose proof (switch_jump Y (Zone Z)) as J. cbv zeta in J. fold P K in J. destruct J as (J1 & J2 & J3 & J4).
      set (C' := if Rle_dec L (3 / 2) then P else K) in *.
      assert (J : Rabs (C - C') <= 48 / 100000 * C' /\ C <= 1 /\ 1 / 4 <= C').
      { unfold C' in *. destruct (Rle_dec L (3 / 2)), H as [-> | ->]; try (exfalso; now apply NC); (split; [|lra]);
          first [exact J1|rewrite Rabs_minus_sym; exact J2]. }
      rewrite NE. replace (val fn - val fy * C') with ((val fn - val fy * C) + val fy * (C - C')) by ring.
      apply Rle_trans with (1 := Rabs_triang _ _). rewrite (Rabs_mult (val fy)), (Rabs_right (val fy)) by lra.
      assert (val fy * Rabs (C - C') <= val fy * (48 / 100000 * C')) by (apply Rmult_le_compat_l; lra).
      assert (25 * u53 * (val fy * C) <= 1 / 1000000 * (val fy * C')).
      { apply Rle_trans with (25 * u53 * (val fy * (4 * C'))); [apply Rmult_le_compat_l; [lra|]; apply Rmult_le_compat_l; lra|].
        replace (25 * u53 * (val fy * (4 * C'))) with (100 * u53 * (val fy * C')) by ring.
        apply Rmult_le_compat_r; [apply Rmult_le_pos; lra|lra]. }
      lra. }
  exists (ndiv fy fo), lc.
  cut (exists fn, nf_n_of pw fy lc = Ok fn /\ finite_double fn /\ Rabs (val fn - N) <= 481 / 1000000 * N /\ (16 * u53 <= Rabs (L - 3 / 2) -> close 25 202 fn N)).
  { intros (fn & E & R). exists fn. split; [exact Eq|]. split; [exact El|]. split; [exact E|]. split; [exact Cl|]. split; [exact NB|exact R]. }
  unfold nf_n_of. change (@nleb pynum PNum) with py_leb. change (@nflt pynum PNum 15 10) with (fl 15 10).
  destruct (Rle_lt_dec (val lc) (3 / 2)) as [Le|Gt].
  - (* short *)
    rewrite (proj2 (leb_val lc (fl 15 10) (finite_finp _ Fl) (finite_finp _ F15))) by lra.
    assert (HL : L <= 3 / 2 * (1 + 6 * u53)).
    { rewrite Eal in Le. assert (H : (1 - 5 * u53) * L <= 3 / 2). { apply Rle_trans with (al * L); [|exact Le]. apply Rmult_le_compat_r; [lra|]. apply abs_le in Hal. lra. }
      apply Rmult_le_reg_l with (1 - 5 * u53); [lra|]. apply Rle_trans with (1 := H).
      replace ((1 - 5 * u53) * (3 / 2 * (1 + 6 * u53))) with (3 / 2 + 3 / 2 * u53 * (1 - 30 * u53)) by field.
      assert (0 <= 3 / 2 * u53 * (1 - 30 * u53)) by (apply Rmult_le_pos; lra). lra. }
    assert (HY : Y <= 9 / 4 + 30 * u53).
    { rewrite <- LL. apply Rle_trans with (3 / 2 * (1 + 6 * u53) * (3 / 2 * (1 + 6 * u53))); [apply Rmult_le_compat; lra|].
      replace (3 / 2 * (1 + 6 * u53) * (3 / 2 * (1 + 6 * u53))) with (9 / 4 + 27 * u53 + 81 * u53 * u53) by field.
      assert (81 * u53 * u53 <= 1 * u53) by (apply Rmult_le_compat_r; lra). lra. }
    destruct C2 as (F2 & E2 & _).
    assert (E2' : Rabs (val (nmul lc lc) - Y) <= 26 * u53).
    { apply Rle_trans with (1 := E2). replace ((5 + 5 + 11 / 10) * u53 * Y) with (u53 * ((5 + 5 + 11 / 10) * Y)) by ring.
      rewrite (Rmult_comm 26). apply Rmult_le_compat_l; lra. }
    assert (Hy : 0 <= val (nmul lc lc) <= 3).
    { split; [|apply abs_le in E2'; lra]. apply abs_le in E2. assert ((5 + 5 + 11 / 10) * u53 * Y <= 1 * Y) by (apply Rmult_le_compat_r; lra). lra. }
    destruct (full_exp pw full _ F2 Hy) as (r & Er & Ar). change (@nflt pynum PNum 658 1000) with (fl 658 1000). rewrite Er. cbn [bind].
    destruct base_val as [Fb Eb]. destruct Ar as (Fr & Ar). change (powerRZ 2 (- (51))) with (bp (-51)) in Ar. rewrite bp51 in Ar.
    pose proof (Rpower_near (val (fl 658 1000)) (658 / 1000) (val (nmul lc lc)) Y u53 (26 * u53)
      ltac:(apply abs_le in Eb; lra) ltac:(lra) ltac:(lra) Eb E2' ltac:(lra) ltac:(lra) ltac:(lra)) as Np. fold P in Np.
    assert (RP : 1 / 4 <= P <= 1) by (apply Rpower_range; lra).
    set (V := Rpower (val (fl 658 1000)) (val (nmul lc lc))) in *.
    assert (PV : 0 < V) by apply exp_pos. rewrite (Rabs_right V) in Ar by lra.
    assert (Np' : Rabs (V - P) <= 19 * u53 * P).
    { apply Rle_trans with (1 := Np). apply Rmult_le_compat_r; lra. }
    assert (Cr : close (231 / 10) 2 r P).
    { split; [exact Fr|]. split.
      - assert (19 * u53 * P <= 1 / 1000 * P) by (apply Rmult_le_compat_r; lra).
        assert (4 * u53 * V <= 4 * u53 * (1001 / 1000 * P)) by (apply Rmult_le_compat_l; [lra|]; apply abs_le in Np'; lra).
        assert (0 <= u53 * P) by (apply Rmult_le_pos; lra).
        apply abs_le in Np', Ar. apply abs_le. lra.
      - change (- (2))%Z with (-2)%Z. replace (bp (-2)) with (/ 4). 2:{ change (-2)%Z with (- (2))%Z. rewrite <- bp_inv, bp_Z by lia. reflexivity. }
        rewrite bp_Z by lia. change (2 ^ 2)%Z with 4%Z. lra. }
    pose proof (cmul _ _ _ _ _ _ _ _ Cy Cr ltac:(lra) ltac:(lra) ltac:(lia) ltac:(lia) ltac:(lia)) as (Ff & Ef & _).
    eexists. split; [reflexivity|]. apply (Fin _ P Ff ltac:(lra)).
    + apply Rle_trans with (1 := Ef). apply Rmult_le_compat_r; [apply Rmult_le_pos; lra|]. apply Rmult_le_compat_r; lra.
    + destruct (Rle_dec L (3 / 2)); [now left|]. right. split; [|now left]. apply abs_le. lra.
  - (* long *)
    rewrite (leb_f lc (fl 15 10) (finite_finp _ Fl) (finite_finp _ F15)) by lra.
    assert (HL : 3 / 2 * (1 - 6 * u53) <= L).
    { rewrite Eal in Gt. assert (H : 3 / 2 <= (1 + 5 * u53) * L). { left. apply Rlt_le_trans with (1 := Gt). apply Rmult_le_compat_r; [lra|]. apply abs_le in Hal. lra. }
      apply Rmult_le_reg_l with (1 + 5 * u53); [lra|]. apply Rle_trans with (2 := H).
      replace ((1 + 5 * u53) * (3 / 2 * (1 - 6 * u53))) with (3 / 2 - 3 / 2 * u53 * (1 + 30 * u53)) by field.
      assert (0 <= 3 / 2 * u53 * (1 + 30 * u53)) by (apply Rmult_le_pos; lra). lra. }
    change (@nflt pynum PNum 877 1000) with (fl 877 1000).
    destruct (cdiv _ _ _ _ _ _ _ _ (clit 877 1000 ltac:(lia) ltac:(lia)) C2) as [Ek Ck]; try (lra || lia).
    change (@nflt pynum PNum 877 1000) with (fl 877 1000) in Ek, Ck. rewrite Ek. cbn [bind]. change (IZR 877 / IZR 1000 / Y) with K in Ck.
    pose proof (cmul _ _ _ _ _ _ _ _ Cy Ck ltac:(lra) ltac:(lra) ltac:(lia) ltac:(lia) ltac:(lia)) as (Ff & Ef & _).
    pose proof (close_pos _ _ _ _ Ck) as PK.
    eexists. split; [reflexivity|]. apply (Fin _ K Ff PK).
    + apply Rle_trans with (1 := Ef). apply Rmult_le_compat_r; [apply Rmult_le_pos; lra|]. apply Rmult_le_compat_r; lra.
    + destruct (Rle_dec L (3 / 2)); [|now left]. right. split; [|now right]. apply abs_le. lra.
Qed.

(** A product with a factor known only to within [d]. *)
Lemma mul_loose k w W f N d e : close k e w W -> 0 <= k <= 100 -> finite_double f -> bp (-202) <= N <= bp 202 -> (0 <= e <= 400)%Z ->
  0 <= d <= 1 / 1000 -> Rabs (val f - N) <= d * N ->
  finite_double (nmul w f) /\ Rabs (val (nmul w f) - W * N) <= (d + (k + 3) * u53) * (W * N).
Proof.
  intros Cw K Ff BN He D E. pose proof u53_small as U. pose proof u53_val as U'. pose proof (close_pos _ _ _ _ Cw) as PW.
  destruct (close_ratio _ _ _ _ Cw) as (a & Ea & Ha). assert (PN : 0 < N) by (pose proof (bp_pos (-202)); lra).
  assert (BW : bp (- e) <= W <= bp e) by apply Cw.
  destruct (proj1 (finite_double_fin w)) as (fw & -> & Gw); [apply Cw|]. destruct (proj1 (finite_double_fin f) Ff) as (ff & -> & Gf).
  rewrite val_sfR in Ea, E. set (c := sfR ff / N). assert (Ec : sfR ff = c * N) by (unfold c; field; lra).
  assert (Hc : Rabs (c - 1) <= d).
  { apply Rmult_le_reg_r with N; [lra|]. replace (Rabs (c - 1) * N) with (Rabs (sfR ff - N)); [exact E|].
    rewrite Ec. replace (c * N - N) with ((c - 1) * N) by ring. rewrite Rabs_mult, (Rabs_right N) by lra. reflexivity. }
  destruct (ku_small k ltac:(lra)) as [K1 K2].
  assert (Hac : Rabs (a * c - 1) <= d + (k + 1 / 10 + 1 / 10) * u53).
  { replace (a * c - 1) with ((a - 1) + (c - 1) + (a - 1) * (c - 1)) by ring.
    apply Rle_trans with (1 := Rabs_triang _ _). apply Rle_trans with (Rabs (a - 1) + Rabs (c - 1) + Rabs (a - 1) * Rabs (c - 1)).
    - rewrite <- Rabs_mult. apply Rplus_le_compat_r. apply Rabs_triang.
    - assert (Rabs (a - 1) * Rabs (c - 1) <= k * u53 * (1 / 1000)) by (apply Rmult_le_compat; auto using Rabs_pos; lra).
      assert (k * u53 <= 100 * u53) by (apply Rmult_le_compat_r; lra). lra. }
  assert (Sm : d + (k + 1 / 10 + 1 / 10) * u53 <= 2 / 1000).
  { assert ((k + 1 / 10 + 1 / 10) * u53 <= 101 * u53) by (apply Rmult_le_compat_r; lra). lra. }
  assert (BWN : bp (-602) <= W * N <= bp 602).
  { split.
    - apply Rle_trans with (bp (- e) * bp (-202)); [rewrite <- bp_add; apply bp_le; lia|]. apply Rmult_le_compat; try lra; left; apply bp_pos.
    - apply Rle_trans with (bp e * bp 202); [apply Rmult_le_compat; lra|]. rewrite <- bp_add. apply bp_le. lia. }
  assert (PWN : 0 < W * N) by (apply Rmult_lt_0_compat; lra).
  assert (V : sfR fw * sfR ff = (a * c) * (W * N)) by (rewrite Ea, Ec; ring).
  assert (AV : Rabs (sfR fw * sfR ff) <= 2 * (W * N)).
  { rewrite V, Rabs_mult, (Rabs_right (W * N)) by lra. apply Rmult_le_compat_r; [lra|]. apply abs_le in Hac. apply abs_le. lra. }
  destruct (op_err _ _ (mul_rounds fw ff Gw Gf)) as [F R].
  { apply Rle_trans with (1 := AV). apply Rle_trans with (bp 603); [|apply bp_le; lia]. change 603%Z with (602 + 1)%Z. rewrite bp_double. lra. }
  split; [exact F|]. change (nmul (PFlt fw) (PFlt ff)) with (PFlt (SFmul f64 e64 fw ff)). set (r := val (PFlt (SFmul f64 e64 fw ff))) in *.
  assert (Hh : h75 <= 1 / 10 * u53 * (W * N)).
  { unfold h75. apply Rle_trans with (1 / 10 * u53 * bp (-602)); [|apply Rmult_le_compat_l; lra]. unfold u53.
    rewrite Rmult_assoc, <- bp_add. apply Rle_trans with (bp (-655 + - (4))); [apply bp_le; lia|]. rewrite bp_add, <- bp_inv, (bp_Z 4) by lia.
    change (2 ^ 4)%Z with 16%Z. change (-53 + -602)%Z with (-655)%Z. pose proof (bp_pos (-655)). lra. }
  assert (u53 * Rabs (sfR fw * sfR ff) <= u53 * (2 * (W * N))) by (apply Rmult_le_compat_l; lra).
  assert (Hd : Rabs (sfR fw * sfR ff - W * N) <= (d + (k + 1 / 10 + 1 / 10) * u53) * (W * N)).
  { rewrite V. replace (a * c * (W * N) - W * N) with ((a * c - 1) * (W * N)) by ring. rewrite Rabs_mult, (Rabs_right (W * N)) by lra.
    apply Rmult_le_compat_r; lra. }
  apply abs_le in Hd, R. apply abs_le. lra.
Qed.

Lemma n_cz_float Ae AE fy fo un : close (11 / 10) 120 Ae AE -> moderate fy -> moderate un -> close 0 200 fo (val fo) ->
  let Y := val fy / val fo in let N := nominal_stress (val fy) (val fo) in
  exists n lc fn, nn_cz_of pw Ae fy fo un = Ok [n; fo; lc; fn] /\ close 5 130 lc (sqrt Y) /\ bp (-202) <= N <= bp 202 /\
    finite_double fn /\ finite_double n /\
    Rabs (val fn - N) <= 481 / 1000000 * N /\ Rabs (val n - val un * AE * N) <= 482 / 1000000 * (val un * AE * N) /\
    (16 * u53 <= Rabs (sqrt Y - 3 / 2) -> close 25 202 fn N /\ close 30 390 n (val un * AE * N)).
Proof.
  intros CA My Mu Co Y N. pose proof u53_val as U'. pose proof u53_small as U.
  destruct (f_n_float fy fo My Co) as (q & lc & fn & Eq & El & En & Cl & NB & Ff & B1 & B2). fold Y N in Cl, NB, B1, B2.
  unfold nn_cz_of. rewrite Eq. cbn [bind]. rewrite El. cbn [bind]. rewrite En. cbn [bind].
  pose proof (cmul _ _ _ _ _ _ _ _ (moderate_close un Mu) CA ltac:(lra) ltac:(lra) ltac:(lia) ltac:(lia) ltac:(lia)) as Cw.
  pose proof (close_pos _ _ _ _ Cw) as PW. assert (PN : 0 < N) by (pose proof (bp_pos (-202)); lra).
  destruct (mul_loose _ _ _ fn N (481 / 1000000) _ Cw ltac:(lra) Ff NB ltac:(lia) ltac:(lra) B1) as (Fn & E1).
  exists (nmul (nmul un Ae) fn), lc, fn. split; [reflexivity|]. split; [exact Cl|]. split; [exact NB|]. split; [exact Ff|]. split; [exact Fn|].
  split; [exact B1|]. split.
  - apply Rle_trans with (1 := E1). apply Rmult_le_compat_r; [apply Rmult_le_pos; lra|]. lra.
  - intros Z. specialize (B2 Z). split; [exact B2|].
    pose proof (cmul _ _ _ _ _ _ _ _ Cw B2 ltac:(lra) ltac:(lra) ltac:(lia) ltac:(lia) ltac:(lia)) as C.
    apply close_weak with (3 := C); [lra|lia].
Qed.
End Pow.
