(** The secant method on doubles: the residual at its result, its outcomes and its limit. *)

From Coq Require Import ZArith Reals List Bool Lra Lia Floats.SpecFloat.
From Verif Require Import Base Num PyNum Solvers SolverSpec FloatSpec FloatValSpec FloatRound FloatOps FloatFacts FloatSolvers
  FloatError FloatUtil FloatBisectSpec FloatBisect ErrorsSecant FloatSecantSpec.
Open Scope R_scope.
Local Opaque SFadd SFsub SFmul SFdiv.

Lemma number_fin x : number x -> finp x /\ fin64 (tofl x) /\ sfR (tofl x) = val x.
Proof.
  intros [(z & -> & Z)|F].
  - destruct (int_double z Z) as (F & V). cbn [finp tofl val]. auto.
  - apply finite_double_fin in F. destruct F as (f & -> & F). cbn [finp tofl]. rewrite val_sfR. auto.
Qed.
Lemma number_noinf x : number x -> nisinf x = false /\ nisnan x = false.
Proof. intros [(z & -> & _)|(_ & I & N)]; auto. Qed.

Lemma fin_below f : fin64 f -> Rabs (sfR f) < bp 1024.
Proof.
  intros F. destruct f as [s| | |s c e]; try contradiction; cbn [sfR].
  - rewrite Rabs_R0. apply bp_pos.
  - pose proof (finite_small c e F). destruct s; cbn [signed]; [rewrite Rabs_Ropp|]; rewrite Rabs_right; lra.
Qed.
Lemma number_below x : number x -> Rabs (val x) < 4 * bp 1022.
Proof.
  intros N. destruct (number_fin x N) as (_ & F & V). pose proof (fin_below _ F) as B. rewrite V in B.
  replace (bp 1024) with (4 * bp 1022) in B; [exact B|].
  change 1024%Z with (1022 + 1 + 1)%Z. rewrite !bp_add, bp_1. ring.
Qed.

(** ** A result that is finite has the usual error *)

Lemma fin_err v f : rounds v f -> fin64 f -> Rabs (sfR f - v) <= u53 * Rabs v + bp (-1075).
Proof.
  pose proof u53_small as U. pose proof (bp_pos (-1075)).
  intros [s -> ->|w P N S|w P N S] F.
  - cbn [sfR]. rewrite Rminus_eq_0, !Rabs_R0. lra.
  - rewrite (Rabs_right v) in * by lra. pose proof (nearest_err v w N) as E.
    destruct S as [Z|c x B Z|Z]; cbn [fin64] in F; try contradiction; cbn [sfR signed].
    + rewrite Z in E. exact E.
    + rewrite <- Z. exact E.
  - rewrite (Rabs_left v) in * by lra. pose proof (nearest_err (- v) w N) as E.
    replace (w - - v) with (- (- w - v)) in E by ring. rewrite Rabs_Ropp in E.
    destruct S as [Z|c x B Z|Z]; cbn [fin64] in F; try contradiction; cbn [sfR signed].
    + rewrite Z, Ropp_0 in E. exact E.
    + rewrite <- Z. exact E.
Qed.

(** ** The loop condition, for numbers of any size *)

Lemma diff_num x y : number x -> number y -> Rabs (val y - val x) <= bp 1022 ->
  finp (nsub y x) /\ Rabs (val (nsub y x) - (val y - val x)) <= u53 * Rabs (val y - val x) /\
  forall t, fin64 t -> Rabs (val y - val x) <= sfR t -> Rabs (val (nsub y x)) <= sfR t.
Proof.
  intros Mx My B0. destruct (number_fin x Mx) as (Fx & Tx & Vx), (number_fin y My) as (Fy & Ty & Vy).
  assert (B : Rabs (sfR (tofl y) - sfR (tofl x)) <= bp 1022) by now rewrite Vx, Vy.
  assert (K : finp (PFlt (SFsub f64 e64 (tofl y) (tofl x))) /\
    Rabs (val (PFlt (SFsub f64 e64 (tofl y) (tofl x))) - (val y - val x)) <= u53 * Rabs (val y - val x) /\
    forall t, fin64 t -> Rabs (val y - val x) <= sfR t -> Rabs (val (PFlt (SFsub f64 e64 (tofl y) (tofl x)))) <= sfR t).
  { destruct (sub_rel _ _ Ty Tx B) as (e & He & F & E). split; [exact F|]. rewrite val_sfR, E, Vx, Vy. split.
    - replace ((val y - val x) * (1 + e) - (val y - val x)) with (e * (val y - val x)) by ring.
      rewrite Rabs_mult. apply Rmult_le_compat_r; [apply Rabs_pos|exact He].
    - intros t Ht L. rewrite <- Vx, <- Vy, <- E. pose proof (sub_rounds _ _ Ty Tx) as R.
      assert (Fo : fin64 (SFopp t)) by (destruct t; exact Ht).
      assert (Vo : sfR (SFopp t) = - sfR t) by (destruct t as [| | |[] ? ?]; cbn [SFopp sfR signed negb]; ring).
      apply abs_le in L. rewrite <- Vx, <- Vy in L.
      destruct (rounds_between _ _ (SFopp t) t R Fo Ht) as (_ & L1 & L2); [rewrite Vo; exact L|]. rewrite Vo in L1. now apply abs_le. }
  destruct x as [a|f], y as [b|g]; try exact K.
  cbn [nsub PNum arith2 val finp]. rewrite minus_IZR. split; [exact I|]. split.
  - replace (IZR b - IZR a - (IZR b - IZR a)) with 0 by ring. rewrite Rabs_R0. pose proof u_bounds.
    apply Rmult_le_pos; [lra|apply Rabs_pos].
  - auto.
Qed.

Lemma rel_num x : number x -> finp (nmul rel_tol x) /\
  Rabs (val (nmul rel_tol x) - sfR tol9 * val x) <= u53 * (sfR tol9 * Rabs (val x)) + bp (-1075).
Proof.
  intros M. destruct (number_fin x M) as (F & T & V). pose proof tol9_val as T9.
  assert (E : nmul rel_tol x = PFlt (SFmul f64 e64 tol9 (tofl x))).
  { rewrite (proj1 tol9_eq). destruct x; reflexivity. }
  rewrite E, val_sfR, <- V.
  assert (A : Rabs (sfR tol9 * sfR (tofl x)) = sfR tol9 * Rabs (sfR (tofl x))) by (rewrite Rabs_mult, (Rabs_right (sfR tol9)) by lra; reflexivity).
  assert (B : Rabs (sfR tol9 * sfR (tofl x)) <= bp 1022).
  { rewrite A, V. pose proof (number_below x M) as B. pose proof (Rabs_pos (val x)). pose proof tol9_tight. pose proof (bp_pos 1022). nra. }
  destruct (rounds_err _ _ (mul_rounds _ _ tol9_fin T) B) as (Fm & Em). rewrite A in Em. split; [exact Fm|exact Em].
Qed.

Lemma rel_small x : number x -> Rabs (val (nmul rel_tol x)) < bp 1022.
Proof.
  intros N. destruct (rel_num x N) as (_ & E). pose proof tol9_tight as T9. pose proof u_bounds as U.
  assert (Z : Rabs (sfR tol9 * val x) = sfR tol9 * Rabs (val x)) by (rewrite Rabs_mult, (Rabs_right (sfR tol9)) by lra; reflexivity).
  pose proof (Rabs_triang_inv (val (nmul rel_tol x)) (sfR tol9 * val x)) as I1. rewrite Z in I1.
  pose proof (number_below x N) as B. pose proof (Rabs_pos (val x)).
  assert (H1 : bp (-1075) <= bp 1000) by (apply bp_le; lia).
  assert (H2 : bp 1000 <= / 4 * bp 1022).
  { replace (bp 1022) with (4 * bp 1020); [pose proof (bp_le 1000 1020 ltac:(lia)); lra|].
    change 1022%Z with (1020 + 1 + 1)%Z. rewrite !bp_add, bp_1. ring. }
  assert (sfR tol9 * Rabs (val x) <= (1 + / 1000000000000) / 1000000000 * (4 * bp 1022)) by (apply Rmult_le_compat; lra).
  assert (u53 * (sfR tol9 * Rabs (val x)) <= 1 * (sfR tol9 * Rabs (val x))) by (apply Rmult_le_compat_r; [nra|lra]).
  pose proof (bp_pos 1022). lra.
Qed.

(** A difference above 2^1022, whether or not it overflows, compares as large. *)
Lemma wide_diff x y w : number x -> number y -> bp 1022 < Rabs (val y - val x) -> finp w -> Rabs (val w) < bp 1022 ->
  py_leb (nabs (nsub y x)) (nabs w) = false /\ py_leb (nabs (nsub y x)) w = false /\ py_ltb w (nabs (nsub y x)) = true.
Proof.
  intros Nx Ny B Fw Bw. destruct (number_fin x Nx) as (Fx & Tx & Vx), (number_fin y Ny) as (Fy & Ty & Vy).
  destruct (fin_abs w Fw) as (Faw & Vaw). apply Rabs_def2 in Bw as Bw'.
  destruct (bool_dec (py_isinf (nsub y x)) true) as [Inf|Inf].
  - assert (E : exists s, nsub y x = PFlt (S754_infinity s)).
    { clear - Inf. destruct (nsub y x) as [z|[| | |]]; try discriminate. eauto. }
    destruct E as (s & ->). cbn [nabs PNum SFabs]. clear - Fw. destruct w as [z|[| | |? ? ?]]; try contradiction; repeat split; reflexivity.
  - assert (L : finp (nsub y x) /\ bp 1022 <= Rabs (val (nsub y x))).
    { assert (K : forall f, rounds (val y - val x) f -> py_isinf (PFlt f) <> true -> fin64 f /\ bp 1022 <= Rabs (sfR f)).
      { intros f R NI. destruct (rounds_fin _ _ R) as [F|(s & ->)]; [|destruct s; exfalso; now apply NI]. split; auto.
        destruct (double_exists 1 1022) as (t & Ft & Vt); [lia|lia|rewrite Rmult_1_l, Rabs_right by (left; apply bp_pos); apply bp_lt; lia|].
        rewrite Rmult_1_l in Vt.
        assert (Fo : fin64 (SFopp t)) by (destruct t; exact Ft).
        assert (Vo : sfR (SFopp t) = - sfR t) by (destruct t as [| | |[] ? ?]; cbn [SFopp sfR signed negb]; ring).
        destruct (Rle_lt_dec 0 (val y - val x)) as [P|P].
        - rewrite (Rabs_right (val y - val x)) in B by lra.
          assert (Q : fle t f = true) by (eapply rounds_mono; [apply rounds_self; exact Ft|exact R|lra]).
          apply fle_R in Q; auto. rewrite <- Vt. apply Rle_trans with (1 := Q). apply Rle_abs.
        - rewrite (Rabs_left (val y - val x)) in B by lra.
          assert (Q : fle f (SFopp t) = true) by (eapply rounds_mono; [exact R|apply rounds_self; exact Fo|lra]).
          apply fle_R in Q; auto. rewrite Vo in Q. rewrite <- Vt. pose proof (Rle_abs (- sfR f)) as W. rewrite Rabs_Ropp in W. lra. }
      assert (R : rounds (val y - val x) (SFsub f64 e64 (tofl y) (tofl x))) by (rewrite <- Vx, <- Vy; now apply sub_rounds).
      assert (Q : py_isinf (PFlt (SFsub f64 e64 (tofl y) (tofl x))) <> true -> finp (PFlt (SFsub f64 e64 (tofl y) (tofl x))) /\ bp 1022 <= Rabs (val (PFlt (SFsub f64 e64 (tofl y) (tofl x))))).
      { intros NI. rewrite val_sfR. cbn [finp]. now apply K. }
      clear K R. destruct x as [a|f], y as [b|g]; try (apply Q; exact Inf).
      cbn [nsub PNum arith2 val finp] in *. rewrite minus_IZR. split; [exact I|lra]. }
    destruct L as (Fd & L). destruct (fin_abs _ Fd) as (Fa & Va). split; [|split].
    + apply leb_f; auto. rewrite Vaw, Va. lra.
    + apply leb_f; auto. rewrite Va. pose proof (Rle_abs (val w)). lra.
    + apply ltb_t; auto. rewrite Va. pose proof (Rle_abs (val w)). lra.
Qed.

(** Going on means: wider than the tolerance and than (nearly) 1e-9 of either number. *)
Lemma go_num x y tol : number x -> number y -> tol_ok tol -> val tol <= bp 1000 ->
  match keep_going x y tol (nsub y x) with
  | Ok true => val tol < Rabs (val y - val x) /\ Rabs (val x) <= 1010000000 * Rabs (val y - val x) /\
      Rabs (val y) <= 1010000000 * Rabs (val y - val x)
  | Ok false => close_enough (val tol) x y
  | Err _ => False
  end.
Proof.
  intros Mx My Ht Big. pose proof (tol_nonneg tol Ht) as Hn. destruct Ht as (t & -> & Ft & Bt). rewrite val_sfR in Big.
  destruct (tiny_tol _ Bt) as (Tt & Pt). pose proof u_bounds as U. pose proof tol9_tight as T9.
  destruct (rel_num x Mx) as (Frx & Erx), (rel_num y My) as (Fry & Ery).
  destruct (fin_abs _ Frx) as (Fax & Vax), (fin_abs _ Fry) as (Fay & Vay).
  destruct (number_fin x Mx) as (Fx & _), (number_fin y My) as (Fy & _).
  destruct (Rle_lt_dec (Rabs (val y - val x)) (bp 1022)) as [Narrow|Wide].
  2: { assert (Bt2 : sfR t < bp 1022) by (pose proof (bp_lt 1000 1022 ltac:(lia)); lra).
    assert (Bt3 : Rabs (val (PFlt t)) < bp 1022) by (rewrite val_sfR, Rabs_right; lra).
    destruct (wide_diff x y (PFlt t) Mx My Wide Ft Bt3) as (_ & W1 & W2).
    destruct (wide_diff x y _ Mx My Wide Frx (rel_small x Mx)) as (W3 & _).
    destruct (wide_diff x y _ Mx My Wide Fry (rel_small y My)) as (W4 & _).
    pose proof (number_below x Mx). pose proof (number_below y My).
    unfold keep_going, isclose. cbn [nltb PNum]. rewrite W2. change (py_ltb (PFlt t) (nflt 0 1)) with (nltb (PFlt t) (nflt 0 1)). rewrite Hn.
    cbn [neqb PNum]. rewrite (eqb_f x y Fx Fy).
    2: { intros E. rewrite E, Rminus_eq_0, Rabs_R0 in Wide. pose proof (bp_pos 1022). lra. }
    rewrite (proj1 (number_noinf x Mx)), (proj1 (number_noinf y My)). cbn [orb nleb PNum]. rewrite W3, W4, W1. cbn [orb bind negb].
    rewrite val_sfR. split; [lra|]. split; lra. }
  destruct (diff_num x y Mx My Narrow) as (Fd & Ed & Md). destruct (fin_abs _ Fd) as (Fa & Va).
  set (D := Rabs (val y - val x)) in *. assert (D0 : 0 <= D) by apply Rabs_pos.
  assert (A1 : (1 - u53) * D <= Rabs (val (nsub y x)) <= (1 + u53) * D).
  { pose proof (Rabs_triang_inv (val (nsub y x)) (val y - val x)) as I1. pose proof (Rabs_triang_inv (val y - val x) (val (nsub y x))) as I2.
    rewrite (Rabs_minus_sym (val y - val x)) in I2. fold D in I1, I2. lra. }
  assert (P : forall z, Rabs (val (nmul rel_tol z) - sfR tol9 * val z) <= u53 * (sfR tol9 * Rabs (val z)) + bp (-1075) ->
    (1 - u53) * (sfR tol9 * Rabs (val z)) - u53 * sfR t <= Rabs (val (nmul rel_tol z)) <= (1 + u53) * (sfR tol9 * Rabs (val z)) + u53 * sfR t).
  { intros z E. assert (Z : Rabs (sfR tol9 * val z) = sfR tol9 * Rabs (val z)) by (rewrite Rabs_mult, (Rabs_right (sfR tol9)) by lra; reflexivity).
    pose proof (Rabs_triang_inv (val (nmul rel_tol z)) (sfR tol9 * val z)) as I1.
    pose proof (Rabs_triang_inv (sfR tol9 * val z) (val (nmul rel_tol z))) as I2. rewrite (Rabs_minus_sym (sfR tol9 * val z)) in I2. lra. }
  pose proof (P x Erx) as Px. pose proof (P y Ery) as Py. clear P.
  pose proof (Rabs_pos (val x)) as X0. pose proof (Rabs_pos (val y)) as Y0.
  assert (CE : D <= (1 + / 1000000) * sfR t \/ D <= (1 + / 1000000) * (/ 1000000000 * Rabs (val x)) \/
     D <= (1 + / 1000000) * (/ 1000000000 * Rabs (val y)) -> close_enough (val (PFlt t)) x y).
  { intros H. unfold close_enough, slack. fold D. rewrite val_sfR. set (S := Rmax (sfR t) _).
    assert (sfR t <= S) by apply Rmax_l. assert (S1 : / 1000000000 * Rmax (Rabs (val x)) (Rabs (val y)) <= S) by apply Rmax_r.
    pose proof (Rmax_l (Rabs (val x)) (Rabs (val y))). pose proof (Rmax_r (Rabs (val x)) (Rabs (val y))). lra. }
  unfold keep_going, isclose. cbn [nltb PNum]. destruct (py_ltb (PFlt t) (nabs (nsub y x))) eqn:L1.
  - apply ltb_val in L1; [|exact Ft|exact Fa]. rewrite Va, val_sfR in L1.
    assert (Dt : sfR t < D).
    { destruct (Rlt_le_dec (sfR t) D) as [|G]; auto. pose proof (Md t Ft G). lra. }
    change (py_ltb (PFlt t) (nflt 0 1)) with (nltb (PFlt t) (nflt 0 1)). rewrite Hn. cbn [neqb PNum].
    rewrite (eqb_f x y Fx Fy).
    2: { intros E. unfold D in Dt. rewrite E, Rminus_eq_0, Rabs_R0 in Dt. lra. }
    rewrite (proj1 (number_noinf x Mx)), (proj1 (number_noinf y My)). cbn [orb nleb PNum].
    destruct (py_leb (nabs (nsub y x)) (nabs (nmul rel_tol y))) eqn:C1.
    + cbn [orb bind negb]. apply CE. right. right. apply (leb_val _ _ Fa Fay) in C1. rewrite Va, Vay in C1. nra.
    + destruct (py_leb (nabs (nsub y x)) (nabs (nmul rel_tol x))) eqn:C2.
      * cbn [orb bind negb]. apply CE. right. left. apply (leb_val _ _ Fa Fax) in C2. rewrite Va, Vax in C2. nra.
      * destruct (py_leb (nabs (nsub y x)) (PFlt t)) eqn:C3.
        { cbn [orb bind negb]. apply CE. left. apply (leb_val _ (PFlt t) Fa Ft) in C3. rewrite Va, val_sfR in C3. nra. }
        cbn [orb bind negb]. apply leb_f_val in C1; auto. apply leb_f_val in C2; auto. rewrite Va, Vay in C1. rewrite Va, Vax in C2.
        rewrite val_sfR. split; [exact Dt|]. split; nra.
  - assert (L2 : val (nabs (nsub y x)) <= val (PFlt t)).
    { destruct (Rle_lt_dec (val (nabs (nsub y x))) (val (PFlt t))) as [|G]; auto. apply (ltb_t (PFlt t) _ Ft Fa) in G. congruence. }
    rewrite Va, val_sfR in L2. apply CE. left. nra.
Qed.

(** ** The new point *)

Lemma step_algebra A B D e1 h1 e2 h2 e3 e4 e5 h5 x3 :
  Rabs e1 <= u53 -> Rabs e2 <= u53 -> Rabs e3 <= u53 -> Rabs e4 <= u53 -> Rabs e5 <= u53 ->
  Rabs h1 <= bp (-1075) -> Rabs h2 <= bp (-1075) -> Rabs h5 <= bp (-1075) -> D <> 0 ->
  x3 = ((A * (1 + e1) + h1) - (B * (1 + e2) + h2)) * (1 + e3) / (D * (1 + e4)) * (1 + e5) + h5 ->
  Rabs (x3 * D - (A - B)) <= 6 * u53 * (Rabs A + Rabs B) + 3 * bp (-1075) + bp (-1075) * Rabs D.
Proof.
  intros H1 H2 H3 H4 H5 K1 K2 K5 Dn ->. pose proof u_bounds as U. pose proof (bp_pos (-1075)) as Bp.
  assert (P4 : 1 + e4 <> 0) by (apply abs_le in H4; lra).
  set (g := (1 + e3) * (1 + e5) * / (1 + e4)). set (r := A * e1 + h1 - (B * e2 + h2)).
  replace ((A * (1 + e1) + h1 - (B * (1 + e2) + h2)) * (1 + e3) / (D * (1 + e4)) * (1 + e5) + h5) with ((A - B + r) * g / D + h5).
  2: { unfold r, g. field. auto. }
  replace (((A - B + r) * g / D + h5) * D - (A - B)) with ((A - B) * (g - 1) + r * g + h5 * D) by (field; auto).
  assert (G : Rabs (g - 1) <= 4 * u53).
  { unfold g. pose proof (near_mult (1 + e3) (1 + e5) u53 u53 (near_one e3 H3) (near_one e5 H5) ltac:(lra)) as N1.
    pose proof (near_mult ((1 + e3) * (1 + e5)) (/ (1 + e4)) _ _ N1 (near_inv e4 H4) ltac:(lra)) as N2. lra. }
  assert (Gb : Rabs g <= 101 / 100).
  { replace g with (1 + (g - 1)) by ring. apply Rle_trans with (1 := Rabs_triang _ _). rewrite Rabs_R1. lra. }
  assert (Rb : Rabs r <= u53 * (Rabs A + Rabs B) + 2 * bp (-1075)).
  { unfold r. replace (A * e1 + h1 - (B * e2 + h2)) with (A * e1 + (h1 + (- (B * e2) + - h2))) by ring.
    pose proof (Rabs_triang (A * e1) (h1 + (- (B * e2) + - h2))) as T1. pose proof (Rabs_triang h1 (- (B * e2) + - h2)) as T2.
    pose proof (Rabs_triang (- (B * e2)) (- h2)) as T3. rewrite !Rabs_Ropp in T3. rewrite Rabs_mult in T1, T3.
    assert (Rabs A * Rabs e1 <= Rabs A * u53) by (apply Rmult_le_compat_l; [apply Rabs_pos|auto]).
    assert (Rabs B * Rabs e2 <= Rabs B * u53) by (apply Rmult_le_compat_l; [apply Rabs_pos|auto]). lra. }
  pose proof (Rabs_triang ((A - B) * (g - 1) + r * g) (h5 * D)) as T1. pose proof (Rabs_triang ((A - B) * (g - 1)) (r * g)) as T2.
  rewrite Rabs_mult in T1. rewrite !Rabs_mult in T2.
  assert (Q : Rabs (A - B) <= Rabs A + Rabs B) by (unfold Rminus; apply Rle_trans with (1 := Rabs_triang _ _); rewrite Rabs_Ropp; lra).
  pose proof (Rabs_pos A) as A0. pose proof (Rabs_pos B) as B0.
  assert (M1 : Rabs (A - B) * Rabs (g - 1) <= (Rabs A + Rabs B) * (4 * u53)) by (apply Rmult_le_compat; auto using Rabs_pos).
  assert (M2 : Rabs r * Rabs g <= (u53 * (Rabs A + Rabs B) + 2 * bp (-1075)) * (101 / 100)) by (apply Rmult_le_compat; auto using Rabs_pos).
  assert (M3 : Rabs h5 * Rabs D <= bp (-1075) * Rabs D) by (apply Rmult_le_compat_r; auto using Rabs_pos).
  assert (0 <= u53 * (Rabs A + Rabs B)) by (apply Rmult_le_pos; lra). lra.
Qed.

Lemma fin_err_mult v f n : rounds v f -> fin64 f -> v = IZR n * bp (-1074) -> Rabs (sfR f - v) <= u53 * Rabs v.
Proof.
  pose proof u53_small as U.
  intros [s E0 ->|w P N S|w P N S] F En.
  - cbn [sfR]. rewrite E0, Rminus_eq_0, !Rabs_R0. lra.
  - rewrite (Rabs_right v) in * by lra. pose proof (nearest_err_mult v w n N En) as E.
    destruct S as [Z|c x B Z|Z]; cbn [fin64] in F; try contradiction; cbn [sfR signed].
    + rewrite Z in E. exact E.
    + rewrite <- Z. exact E.
  - rewrite (Rabs_left v) in * by lra.
    assert (En' : - v = IZR (- n) * bp (-1074)) by (rewrite En, opp_IZR; ring).
    pose proof (nearest_err_mult (- v) w (- n) N En') as E.
    replace (w - - v) with (- (- w - v)) in E by ring. rewrite Rabs_Ropp in E.
    destruct S as [Z|c x B Z|Z]; cbn [fin64] in F; try contradiction; cbn [sfR signed].
    + rewrite Z, Ropp_0 in E. exact E.
    + rewrite <- Z. exact E.
Qed.
Lemma sub_fin_rel x y : fin64 x -> fin64 y -> fin64 (SFsub f64 e64 x y) ->
  exists e, Rabs e <= u53 /\ sfR (SFsub f64 e64 x y) = (sfR x - sfR y) * (1 + e).
Proof.
  intros X Y F. destruct (fin_mult x X) as (a & Ea), (fin_mult y Y) as (b & Eb).
  apply rel_of. apply fin_err_mult with (a - b)%Z; auto using sub_rounds. rewrite Ea, Eb, minus_IZR. ring.
Qed.

Lemma div_inf s g : fin64 g -> py_isinf (PFlt (SFdiv f64 e64 (S754_infinity s) g)) = true.
Proof. destruct g; try contradiction; reflexivity. Qed.

Lemma mul_flt x f : nmul x (PFlt f) = PFlt (SFmul f64 e64 (tofl x) f).
Proof. destruct x; reflexivity. Qed.

Lemma noinf_fin v f : rounds v f -> py_isinf (PFlt f) = false -> fin64 f.
Proof. intros R I. destruct (rounds_fin v f R) as [F|(s & ->)]; [auto|discriminate]. Qed.

Lemma step_error x1 x2 f1 f2 : number x1 -> number x2 -> fin64 f1 -> fin64 f2 ->
  Rabs (sfR f1) <= bp 1000 -> Rabs (sfR f2) <= bp 1000 -> sfR f2 <> sfR f1 ->
  nisinf (nmul x1 (PFlt f2)) = false -> nisinf (nmul x2 (PFlt f1)) = false ->
  let x3 := ndiv (nsub (nmul x1 (PFlt f2)) (nmul x2 (PFlt f1))) (nsub (PFlt f2) (PFlt f1)) in
  nisinf x3 = false ->
  number x3 /\
  Rabs (val x3 * (sfR f2 - sfR f1) - (val x1 * sfR f2 - val x2 * sfR f1))
    <= 6 * u53 * (Rabs (val x1 * sfR f2) + Rabs (val x2 * sfR f1)) + 3 * bp (-1075) + bp (-1075) * Rabs (sfR f2 - sfR f1).
Proof.
  intros N1 N2 F1 F2 B1 B2 Df. rewrite !mul_flt. cbv zeta. cbn [nsub ndiv PNum arith2 tofl nisinf].
  destruct (number_fin x1 N1) as (_ & T1 & V1), (number_fin x2 N2) as (_ & T2 & V2).
  intros Ia Ib Ix. pose proof (mul_rounds _ _ T1 F2) as Ra. pose proof (mul_rounds _ _ T2 F1) as Rb.
  pose proof (noinf_fin _ _ Ra Ia) as Fa. pose proof (noinf_fin _ _ Rb Ib) as Fb.
  destruct (rel_abs_of _ _ (fin_err _ _ Ra Fa)) as (e1 & h1 & He1 & Hh1 & Ea).
  destruct (rel_abs_of _ _ (fin_err _ _ Rb Fb)) as (e2 & h2 & He2 & Hh2 & Eb).
  set (a := SFmul f64 e64 (tofl x1) f2) in *. set (b := SFmul f64 e64 (tofl x2) f1) in *.
  assert (Bd : Rabs (sfR f2 - sfR f1) <= bp 1022).
  { assert (bp 1000 + bp 1000 <= bp 1022).
    { replace (bp 1000 + bp 1000) with (bp (1000 + 1)) by (rewrite bp_add, bp_1; ring). apply bp_le. lia. }
    apply abs_le in B1, B2. apply abs_le. lra. }
  destruct (sub_rel f2 f1 F2 F1 Bd) as (e4 & He4 & Fd & Ed).
  set (den := SFsub f64 e64 f2 f1) in *.
  assert (Zd : sfR den <> 0).
  { rewrite Ed. apply abs_le in He4. pose proof u_bounds. apply Rmult_integral_contrapositive_currified; lra. }
  pose proof (sub_rounds a b Fa Fb) as Rn.
  assert (Fn : fin64 (SFsub f64 e64 a b)).
  { destruct (rounds_fin _ _ Rn) as [F|(s & E)]; [auto|]. rewrite E, div_inf in Ix by exact Fd. discriminate. }
  destruct (sub_fin_rel a b Fa Fb Fn) as (e3 & He3 & En). set (num := SFsub f64 e64 a b) in *.
  pose proof (div_rounds num den Fn Fd Zd) as R3. pose proof (noinf_fin _ _ R3 Ix) as F3.
  destruct (rel_abs_of _ _ (fin_err _ _ R3 F3)) as (e5 & h5 & He5 & Hh5 & E3).
  split; [right; now apply fin_double|]. rewrite val_sfR, E3, En, Ed, Ea, Eb, V1, V2.
  refine (step_algebra _ _ _ e1 h1 e2 h2 e3 e4 e5 h5 _ He1 He2 He3 He4 He5 Hh1 Hh2 Hh5 _ eq_refl). lra.
Qed.

(** ** The residual *)

Lemma residual_algebra x1 x2 x3 f1 f2 f3 L e tol :
  0 <= L -> 0 <= e -> bp (-500) <= tol -> tol < Rabs (x2 - x1) ->
  Rabs x1 <= 1010000000 * Rabs (x2 - x1) -> Rabs x2 <= 1010000000 * Rabs (x2 - x1) ->
  Rabs (x3 * (f2 - f1) - (x1 * f2 - x2 * f1)) <= 6 * u53 * (Rabs (x1 * f2) + Rabs (x2 * f1)) + 3 * bp (-1075) + bp (-1075) * Rabs (f2 - f1) ->
  Rabs (f2 - f1) <= L * Rabs (x2 - x1) + e -> Rabs (f3 - f2) <= L * Rabs (x3 - x2) + e ->
  Rabs (x3 - x2) <= (1 + / 1000000) * slack tol x2 x3 ->
  Rabs f3 <= (2 + / 1000) * (L * slack tol x2 x3) + 3 * e + bp (-570).
Proof.
  intros HL He Ht G1 G2 G3 St Lf L3 C. pose proof u_bounds as U. destruct (tiny_tol _ Ht) as (Tt & Pt).
  set (S := slack tol x2 x3) in *. set (d := Rabs (x2 - x1)) in *. set (s := Rabs (x3 - x2)) in *.
  set (D := Rabs (f2 - f1)) in *. set (h := bp (-1075)) in *. assert (Hh : 0 < h) by apply bp_pos.
  pose proof (Rabs_pos f2) as F20. pose proof (Rabs_pos f1) as F10. pose proof (Rabs_pos x1) as X10. pose proof (Rabs_pos x2) as X20.
  assert (S0 : 0 <= s) by apply Rabs_pos. assert (D0 : 0 <= D) by apply Rabs_pos.
  assert (St1 : tol <= S) by apply Rmax_l.
  assert (Sx2 : / 1000000000 * Rabs x2 <= S).
  { apply Rle_trans with (/ 1000000000 * Rmax (Rabs x2) (Rabs x3)); [|apply Rmax_r].
    apply Rmult_le_compat_l; [lra|apply Rmax_l]. }
  assert (X3 : Rabs x3 <= Rabs x2 + s).
  { replace x3 with (x2 + (x3 - x2)) at 1 by ring. apply Rabs_triang. }
  assert (Sd : S <= 102 / 100 * d).
  { unfold S at 1, slack. apply Rmax_lub; [lra|].
    assert (Rmax (Rabs x2) (Rabs x3) <= Rabs x2 + s) by (apply Rmax_lub; lra).
    assert (M : / 1000000000 * Rmax (Rabs x2) (Rabs x3) <= / 1000000000 * (1010000000 * d + s)) by (apply Rmult_le_compat_l; lra).
    assert (S = tol \/ S = / 1000000000 * Rmax (Rabs x2) (Rabs x3)) as [E|E].
    { unfold S, slack. destruct (Rmax_Rle tol (/ 1000000000 * Rmax (Rabs x2) (Rabs x3)) tol).
      unfold Rmax at 1 3. destruct (Rle_dec _ _); auto. }
    - rewrite E in C. lra.
    - rewrite <- E in *. lra. }
  assert (sd : s <= 103 / 100 * d) by lra.
  (* the exact identity *)
  assert (Id : Rabs f2 * d <= s * D + Rabs (x3 * (f2 - f1) - (x1 * f2 - x2 * f1))).
  { unfold d, s, D. rewrite <- !Rabs_mult.
    replace (f2 * (x2 - x1)) with (- ((x3 - x2) * (f2 - f1)) + (x3 * (f2 - f1) - (x1 * f2 - x2 * f1))) by ring.
    apply Rle_trans with (1 := Rabs_triang _ _). rewrite Rabs_Ropp. lra. }
  rewrite !Rabs_mult in St.
  assert (F1 : Rabs f1 <= Rabs f2 + D).
  { replace f1 with (f2 + - (f2 - f1)) at 1 by ring. apply Rle_trans with (1 := Rabs_triang _ _). rewrite Rabs_Ropp. unfold D. lra. }
  assert (dp : 0 < d) by lra.
  (* bounds of the terms *)
  assert (T1 : s * D <= d * ((1 + / 1000000) * (L * S) + 103 / 100 * e)).
  { apply Rle_trans with (s * (L * d + e)); [apply Rmult_le_compat_l; auto|].
    replace (s * (L * d + e)) with (d * (L * s) + s * e) by ring.
    assert (L * s <= (1 + / 1000000) * (L * S)).
    { replace ((1 + / 1000000) * (L * S)) with (L * ((1 + / 1000000) * S)) by ring. apply Rmult_le_compat_l; auto. }
    assert (s * e <= 103 / 100 * d * e) by (apply Rmult_le_compat_r; auto).
    assert (d * (L * s) <= d * ((1 + / 1000000) * (L * S))) by (apply Rmult_le_compat_l; lra). lra. }
  assert (K : 6 * u53 * 1010000000 <= / 1000000) by lra.
  assert (T2 : 6 * u53 * (Rabs x1 * Rabs f2) <= / 1000000 * (d * Rabs f2)).
  { apply Rle_trans with (6 * u53 * (1010000000 * d * Rabs f2)).
    - apply Rmult_le_compat_l; [lra|]. apply Rmult_le_compat_r; auto.
    - replace (6 * u53 * (1010000000 * d * Rabs f2)) with (6 * u53 * 1010000000 * (d * Rabs f2)) by ring.
      apply Rmult_le_compat_r; auto. apply Rmult_le_pos; lra. }
  assert (T3 : 6 * u53 * (Rabs x2 * Rabs f1) <= / 1000000 * (d * Rabs f2) + d * (/ 1000000 * (L * S)) + d * (/ 1000000 * e)).
  { apply Rle_trans with (6 * u53 * (Rabs x2 * (Rabs f2 + (L * d + e)))).
    { apply Rmult_le_compat_l; [lra|]. apply Rmult_le_compat_l; lra. }
    replace (6 * u53 * (Rabs x2 * (Rabs f2 + (L * d + e)))) with (6 * u53 * Rabs x2 * (Rabs f2 + e) + 6 * u53 * Rabs x2 * (L * d)) by ring.
    assert (A1 : 6 * u53 * Rabs x2 <= / 1000000 * d).
    { apply Rle_trans with (6 * u53 * (1010000000 * d)); [apply Rmult_le_compat_l; lra|].
      replace (6 * u53 * (1010000000 * d)) with (6 * u53 * 1010000000 * d) by ring. apply Rmult_le_compat_r; lra. }
    assert (A2 : 6 * u53 * Rabs x2 <= / 1000000 * S).
    { apply Rle_trans with (6 * u53 * (1010000000 * S)); [apply Rmult_le_compat_l; lra|].
      replace (6 * u53 * (1010000000 * S)) with (6 * u53 * 1010000000 * S) by ring. apply Rmult_le_compat_r; lra. }
    assert (A3 : 6 * u53 * Rabs x2 * (Rabs f2 + e) <= / 1000000 * d * (Rabs f2 + e)) by (apply Rmult_le_compat_r; lra).
    assert (A4 : 6 * u53 * Rabs x2 * (L * d) <= / 1000000 * S * (L * d)) by (apply Rmult_le_compat_r; [apply Rmult_le_pos; lra|lra]).
    lra. }
  assert (T4 : 3 * h <= d * (3 * bp (-575))).
  { unfold h. replace (-1075)%Z with (-500 + -575)%Z by reflexivity. rewrite bp_add.
    replace (3 * (bp (-500) * bp (-575))) with (bp (-500) * (3 * bp (-575))) by ring.
    apply Rmult_le_compat_r; [pose proof (bp_pos (-575)); lra|lra]. }
  assert (Hu : h <= u53 * S) by (apply Rle_trans with (1 := Tt); apply Rmult_le_compat_l; lra).
  assert (Hd : h <= u53 * d) by (apply Rle_trans with (1 := Tt); apply Rmult_le_compat_l; lra).
  assert (T5 : h * D <= d * (u53 * (L * S)) + d * (u53 * e)).
  { apply Rle_trans with (h * (L * d + e)); [apply Rmult_le_compat_l; lra|].
    assert (h * (L * d) <= u53 * S * (L * d)) by (apply Rmult_le_compat_r; [apply Rmult_le_pos; lra|lra]).
    assert (h * e <= u53 * d * e) by (apply Rmult_le_compat_r; lra). lra. }
  assert (LS : 0 <= L * S) by (apply Rmult_le_pos; lra).
  assert (Fin : Rabs f2 * (1 - 2 * / 1000000) <= (1 + 3 * / 1000000) * (L * S) + 104 / 100 * e + 3 * bp (-575)).
  { apply Rmult_le_reg_l with d; [exact dp|].
    assert (u53 * (L * S) <= / 1000000 * (L * S)) by (apply Rmult_le_compat_r; lra).
    assert (u53 * e <= / 1000000 * e) by (apply Rmult_le_compat_r; lra).
    assert (d * (u53 * (L * S)) <= d * (/ 1000000 * (L * S))) by (apply Rmult_le_compat_l; lra).
    assert (d * (u53 * e) <= d * (/ 1000000 * e)) by (apply Rmult_le_compat_l; lra).
    assert (0 <= d * (L * S)) by (apply Rmult_le_pos; lra). assert (0 <= d * e) by (apply Rmult_le_pos; lra). lra. }
  assert (B5 : 4 * bp (-575) <= bp (-570)).
  { replace (4 * bp (-575)) with (bp (-575 + 1 + 1)) by (rewrite !bp_add, bp_1; ring). apply bp_le. lia. }
  assert (F3 : Rabs f3 <= Rabs f2 + Rabs (f3 - f2)).
  { replace f3 with (f2 + (f3 - f2)) at 1 by ring. apply Rabs_triang. }
  assert (Ls : L * s <= (1 + / 1000000) * (L * S)).
  { replace ((1 + / 1000000) * (L * S)) with (L * ((1 + / 1000000) * S)) by ring. apply Rmult_le_compat_l; auto. }
  pose proof (bp_pos (-575)). lra.
Qed.

Section Residual.
Variable func : pynum -> res pynum.
Variables L e : R.
Hypothesis bounded_f : bounded_valued (bp 1000) func.
Hypothesis lip : nearly_lipschitz L e func.
Hypothesis L0 : 0 <= L.
Hypothesis e0 : 0 <= e.
Variable tol : pynum.
Hypothesis tol_f : tol_ok tol.
Hypothesis tol_b : val tol <= bp 1000.

Definition found (prev x : pynum) : Prop :=
  forall y, func x = Ok y -> Rabs (val y) <= (2 + / 1000) * (L * slack (val tol) (val prev) (val x)) + 3 * e + bp (-570).

Lemma sec_found lo hi max_its fallback nargs fuel : forall x1 x2 x3 i x n, number x1 -> number x2 ->
  match x3 with
  | None => keep_going x1 x2 tol (nsub x2 x1) = Ok true
  | Some x => x = x2 /\ finite_double x /\ (close_enough (val tol) x1 x2 -> found x1 x2)
  end ->
  sec_loop func fuel lo hi tol max_its fallback nargs x1 x2 x3 i = Ok (x, n, false) ->
  finite_double x /\ exists prev, number prev /\ close_enough (val tol) prev x /\ found prev x.
Proof.
  induction fuel as [|fuel IH]; intros x1 x2 x3 i x n N1 N2 J E; cbn [sec_loop] in E;
    pose proof (go_num x1 x2 tol N1 N2 tol_f tol_b) as G; destruct (keep_going x1 x2 tol (nsub x2 x1)) as [[|]|] eqn:K;
    try contradiction; cbn [bind negb] in E; try discriminate.
  1, 3: destruct x3 as [z|]; [|discriminate]; destruct J as (-> & Fx & J); injection E as -> _; split; [exact Fx|]; exists x1; auto.
  destruct G as (G1 & G2 & G3).
  destruct (func x2) as [f2|] eqn:E2; cbn [bind] in E; [|discriminate].
  destruct (func x1) as [f1|] eqn:E1; cbn [bind] in E; [|discriminate].
  destruct (bounded_f x2 f2 E2) as (D2 & B2), (bounded_f x1 f1 E1) as (D1 & B1).
  pose proof (lip x2 x1 f2 f1 N2 N1 E2 E1) as L12.
  apply finite_double_fin in D1, D2. destruct D1 as (g1 & -> & F1), D2 as (g2 & -> & F2).
  destruct (nisinf _ || nisinf _ || _ || _) eqn:Inf in E; [discriminate|]. apply orb_false_iff in Inf. destruct Inf as (Inf & _).
  apply orb_false_iff in Inf. destruct Inf as (Inf & _). apply orb_false_iff in Inf. destruct Inf as (Ia & Ib).
  destruct (isclose (PFlt g2) (PFlt g1) tol) as [[|]|] eqn:Cl; cbn [bind] in E; try discriminate.
  assert (Nf : sfR g2 <> sfR g1).
  { intros Q. unfold isclose in Cl. rewrite (tol_nonneg tol tol_f) in Cl. cbn [neqb PNum] in Cl.
    replace (py_eqb (PFlt g2) (PFlt g1)) with true in Cl; [discriminate|].
    symmetry. unfold py_eqb. apply andb_true_iff. split; apply leb_val; auto; rewrite !val_sfR; lra. }
  unfold pydiv in E. destruct (neqb _ _) in E; cbn [bind] in E; [discriminate|].
  destruct (nisnan _ || nisinf _) eqn:Ix in E; [discriminate|]. apply orb_false_iff in Ix. destruct Ix as (_ & Ix).
  rewrite !val_sfR in B1, B2, L12.
  destruct (step_error x1 x2 g1 g2 N1 N2 F1 F2 B1 B2 Nf Ia Ib Ix) as (N3 & St).
  set (y3 := ndiv (nsub (nmul x1 (PFlt g2)) (nmul x2 (PFlt g1))) (nsub (PFlt g2) (PFlt g1))) in *.
  destruct (match max_its with Some m => (m <=? i + 1)%Z | None => false end).
  { destruct fallback; [|discriminate]. destruct nargs; [|discriminate]. destruct (bisection _ _ _ _ _ _ _) as [r|]; cbn [bind] in E; discriminate. }
  apply IH in E; auto. split; [reflexivity|]. split.
  { destruct N3 as [(z & Z & _)|F]; [|exact F]. exfalso. unfold y3 in Z. rewrite !mul_flt in Z. cbn [nsub ndiv PNum arith2] in Z. discriminate. }
  intros C y Ey. destruct (bounded_f y3 y Ey) as (Dy & _). pose proof (lip y3 x2 y (PFlt g2) N3 N2 Ey E2) as L23.
  rewrite val_sfR in L23.
  apply (residual_algebra (val x1) (val x2) (val y3) (sfR g1) (sfR g2) (val y) L e (val tol)); auto.
  - destruct tol_f as (t & -> & _ & Bt). now rewrite val_sfR.
  - now rewrite val_sfR in L12.
Qed.
End Residual.

(** ** The start *)

Lemma starting_number x : starting x -> number x.
Proof. intros ([A|(F & _)] & _); [left; exact A|right; exact F]. Qed.

Lemma starts lo hi t : starting lo -> starting hi -> fin64 t -> 0 <= sfR t -> isclose hi lo (PFlt t) = Ok false ->
  keep_going lo hi (PFlt t) (nsub hi lo) = Ok true.
Proof.
  intros Sl Sh Ft Pt E. apply starting_mild in Sl, Sh. rename Sl into Ml, Sh into Mh.
  assert (Hn : nltb (PFlt t) (nflt 0 1) = false).
  { apply ltb_f; [exact Ft|reflexivity|]. change (nflt 0 1) with (fl 0 1). rewrite fl_zero, !val_sfR. exact Pt. }
  destruct (diff_val lo hi Ml Mh) as (Fd & _), (diff_val hi lo Mh Ml) as (Fd' & _).
  destruct (fin_abs _ Fd) as (Fa & Va), (fin_abs _ Fd') as (Fa' & Va').
  assert (Sym : forall w, finp w -> py_leb (nabs (nsub lo hi)) w = false -> py_leb (nabs (nsub hi lo)) w = false).
  { intros w Fw Hw. apply leb_f_val in Hw; auto. apply leb_f; auto. rewrite Va. rewrite Va', (diff_sym lo hi Ml Mh) in Hw. exact Hw. }
  destruct (rel_val lo Ml) as (Fl & _), (rel_val hi Mh) as (Fh & _). destruct (fin_abs _ Fl) as (Fl' & _), (fin_abs _ Fh) as (Fh' & _).
  unfold keep_going, isclose in *. rewrite Hn in *. cbn [neqb PNum nleb nltb] in *.
  assert (Q : py_eqb lo hi = py_eqb hi lo) by (unfold py_eqb; apply andb_comm). rewrite Q. destruct (py_eqb hi lo); [discriminate|].
  rewrite (proj1 (mild_noinf lo Ml)), (proj1 (mild_noinf hi Mh)) in *. cbn [orb] in *. injection E as E.
  apply orb_false_iff in E. destruct E as (E & E3). apply orb_false_iff in E. destruct E as (E1 & E2).
  rewrite (Sym _ Fl' E1), (Sym _ Fh' E2), (Sym (PFlt t) Ft E3). cbn [orb bind negb].
  apply Sym in E3; [|exact Ft]. apply leb_f_val in E3; [|exact Fa|exact Ft]. rewrite (ltb_t (PFlt t) _ Ft Fa E3). reflexivity.
Qed.

Theorem secant_found func L e lo hi tol max_its fallback nargs fuel x n :
  bounded_valued (powerRZ 2 1000) func -> nearly_lipschitz L e func -> 0 <= L -> 0 <= e ->
  starting lo -> starting hi -> tolerance tol -> val tol <= powerRZ 2 1000 ->
  secant func fuel lo hi tol max_its fallback nargs = Ok (x, n, false) ->
  finite_double x /\ exists prev, number prev /\ close_enough (val tol) prev x /\
    forall y, func x = Ok y ->
      Rabs (val y) <= (2 + / 1000) * (L * slack (val tol) (val prev) (val x)) + 3 * e + powerRZ 2 (-570).
Proof.
  intros Bf Lf HL He Sl Sh Ht Bt E. apply tolerance_ok in Ht. unfold secant in E.
  destruct (_ || _); [discriminate|]. destruct (_ || _); [discriminate|].
  destruct (isclose hi lo tol) as [[|]|] eqn:C; cbn [bind] in E; try discriminate.
  refine (sec_found func L e Bf Lf HL He tol Ht Bt lo hi max_its fallback nargs fuel lo hi None 0 x n _ _ _ E); auto using starting_number.
  destruct Ht as (t & -> & Ft & B). destruct (tiny_tol _ B). apply starts; auto. lra.
Qed.

(** ** Outcomes *)

Lemma nan_mul f : SFmul f64 e64 f S754_nan = S754_nan.
Proof. destruct f; reflexivity. Qed.
Lemma nan_sub f : SFsub f64 e64 f S754_nan = S754_nan.
Proof. destruct f; reflexivity. Qed.
Lemma nan_div f : SFdiv f64 e64 S754_nan f = S754_nan.
Proof. destruct f; reflexivity. Qed.
Lemma nan_sub_l f : SFsub f64 e64 S754_nan f = S754_nan.
Proof. destruct f; reflexivity. Qed.
Lemma div_by_inf f s : fin64 f -> fin64 (SFdiv f64 e64 f (S754_infinity s)).
Proof. destruct f; try contradiction; reflexivity. Qed.

Lemma step_double x1 x2 f1 f2 : number x1 -> number x2 -> double f1 -> double f2 ->
  nisinf (nmul x1 f2) = false -> nisinf (nmul x2 f1) = false -> nisinf f2 = false -> nisinf f1 = false ->
  neqb (nsub f2 f1) (nint 0) = false ->
  let x3 := ndiv (nsub (nmul x1 f2) (nmul x2 f1)) (nsub f2 f1) in
  nisnan x3 = false -> nisinf x3 = false -> finite_double x3.
Proof.
  intros N1 N2 D1 D2. destruct (number_fin x1 N1) as (_ & T1 & _), (number_fin x2 N2) as (_ & T2 & _). clear N1 N2.
  destruct D1 as (g1 & -> & V1), D2 as (g2 & -> & V2). rewrite !mul_flt. cbv zeta. cbn [nsub ndiv PNum arith2 tofl nisinf nisnan].
  intros Ia Ib I2 I1 Z Nx Ix.
  destruct (valid_cases g2 V2) as [F2|[(s & ->)| ->]]; [|discriminate|rewrite nan_mul, nan_sub_l, nan_div in Nx; discriminate].
  destruct (valid_cases g1 V1) as [F1|[(s & ->)| ->]]; [|discriminate|rewrite nan_mul, nan_sub, nan_div in Nx; discriminate].
  pose proof (noinf_fin _ _ (mul_rounds _ _ T1 F2) Ia) as Fa. pose proof (noinf_fin _ _ (mul_rounds _ _ T2 F1) Ib) as Fb.
  set (a := SFmul f64 e64 (tofl x1) g2) in *. set (b := SFmul f64 e64 (tofl x2) g1) in *.
  assert (F3 : fin64 (SFdiv f64 e64 (SFsub f64 e64 a b) (SFsub f64 e64 g2 g1))).
  { destruct (rounds_fin _ _ (sub_rounds a b Fa Fb)) as [Fn|(s & En)].
    - destruct (rounds_fin _ _ (sub_rounds g2 g1 F2 F1)) as [Fd|(s & Ed)].
      + assert (Zd : sfR (SFsub f64 e64 g2 g1) <> 0).
        { intros Q. cbn [neqb PNum] in Z. unfold py_eqb in Z. apply andb_false_iff in Z.
          assert (Fp : finp (PFlt (SFsub f64 e64 g2 g1))) by exact Fd. assert (F0 : finp (nint 0)) by exact I.
          rewrite (proj2 (leb_val _ (nint 0) Fp F0)), (proj2 (leb_val (nint 0) _ F0 Fp)) in Z by (rewrite val_sfR, Q; right; reflexivity).
          destruct Z; discriminate. }
        exact (noinf_fin _ _ (div_rounds _ _ Fn Fd Zd) Ix).
      + rewrite Ed. now apply div_by_inf.
    - exfalso. rewrite En in Nx, Ix. destruct (SFsub f64 e64 g2 g1); destruct s; discriminate. }
  now apply fin_double.
Qed.

Section Outcome.
Variable func : pynum -> res pynum.
Hypothesis doubles : double_valued func.
Variable t : spec_float.
Hypothesis Ft : fin64 t.
Hypothesis Pt : 0 <= sfR t.

Lemma tol_pos : nltb (PFlt t) (nflt 0 1) = false.
Proof. apply ltb_f; [exact Ft|reflexivity|]. change (nflt 0 1) with (fl 0 1). rewrite fl_zero, !val_sfR. exact Pt. Qed.
Lemma close_some a b : exists c, isclose a b (PFlt t) = Ok c.
Proof. unfold isclose. rewrite tol_pos. destruct (neqb a b); [eauto|]. destruct (_ || _); eauto. Qed.
Lemma go_some a b d : exists g, keep_going a b (PFlt t) d = Ok g.
Proof. unfold keep_going. destruct (nltb _ _); [|eauto]. destruct (close_some a b) as (c & ->). cbn. eauto. Qed.

Lemma sec_outcome lo hi max_its nargs fuel : forall x1 x2 x3 i, number x1 -> number x2 -> (0 <= i)%Z ->
  (forall m, max_its = Some m -> (m <= i + Z.of_nat fuel)%Z) -> (1 <= fuel)%nat \/ (exists m, max_its = Some m /\ (i < m)%Z) ->
  match x3 with
  | None => keep_going x1 x2 (PFlt t) (nsub x2 x1) = Ok true
  | Some x => finite_double x /\ (1 <= i)%Z /\ forall m, max_its = Some m -> (i < m)%Z
  end ->
  match sec_loop func fuel lo hi (PFlt t) max_its false nargs x1 x2 x3 i with
  | Ok (x, n, b) => b = false /\ finite_double x /\ (1 <= n)%Z /\ forall m, max_its = Some m -> (n < m)%Z
  | Err e => e = ValueError \/ (exists x, func x = Err e) \/ (max_its = None /\ e = Diverges)
  end.
Proof.
  induction fuel as [|fuel IH]; intros x1 x2 x3 i N1 N2 Hi Hm Hf J; cbn [sec_loop];
    destruct (go_some x1 x2 (nsub x2 x1)) as (g & Eg); rewrite Eg in *; cbn [bind]; destruct g; cbn [negb].
  - destruct max_its as [m|]; [|auto]. exfalso. destruct Hf as [|(m' & Em & Lm)]; [lia|]. injection Em as <-. specialize (Hm m eq_refl). lia.
  - destruct x3 as [x|]; [|congruence]. destruct J as (F & I1 & I2). auto.
  - destruct (func x2) as [f2|e] eqn:E2; cbn [bind]; [|right; left; eauto].
    destruct (func x1) as [f1|e] eqn:E1; cbn [bind]; [|right; left; eauto].
    pose proof (doubles x2 f2 E2) as D2. pose proof (doubles x1 f1 E1) as D1.
    destruct (_ || _ || _ || _) eqn:Inf; [now left|]. apply orb_false_iff in Inf. destruct Inf as (Inf & I1).
    apply orb_false_iff in Inf. destruct Inf as (Inf & I2). apply orb_false_iff in Inf. destruct Inf as (Ia & Ib).
    destruct (close_some f2 f1) as (c & Ec). rewrite Ec. cbn [bind]. destruct c; [now left|].
    unfold pydiv. destruct (neqb (nsub f2 f1) (nint 0)) eqn:Z.
    { apply zero_diff in Z; auto. unfold isclose in Ec. rewrite tol_pos, Z in Ec. discriminate. }
    cbn [bind]. destruct (nisnan _ || nisinf _) eqn:Ix; [now left|]. apply orb_false_iff in Ix. destruct Ix as (Nx & Ix).
    assert (F3 : finite_double (ndiv (nsub (nmul x1 f2) (nmul x2 f1)) (nsub f2 f1))) by (apply step_double; auto).
    assert (N3 : number (ndiv (nsub (nmul x1 f2) (nmul x2 f1)) (nsub f2 f1))) by (right; exact F3).
    destruct max_its as [m|].
    + destruct (m <=? i + 1)%Z eqn:S; [now left|]. apply Z.leb_gt in S.
      apply IH; auto; [lia|intros m' Em; injection Em as <-; specialize (Hm m eq_refl); lia|right; exists m; auto|].
      split; [exact F3|]. split; [lia|]. intros m' Em. injection Em as <-. exact S.
    + destruct fuel as [|fuel']; [|apply IH; auto; [lia|discriminate|left; lia|split; [exact F3|split; [lia|discriminate]]]].
      clear IH. cbn [sec_loop]. match goal with |- context [keep_going ?a ?b _ ?d] => destruct (go_some a b d) as (g & Eg') end.
      rewrite Eg'. cbn [bind]. destruct g; cbn [negb]; [auto|]. split; auto. split; auto. split; [lia|discriminate].
  - destruct x3 as [x|]; [|congruence]. destruct J as (F & I1 & I2). auto.
Qed.
End Outcome.

Theorem secant_outcomes func lo hi tol max_its nargs fuel :
  double_valued func -> starting lo -> starting hi -> finite_double tol -> 0 <= val tol ->
  (1 <= fuel)%nat -> (forall m, max_its = Some m -> (m <= Z.of_nat fuel)%Z) ->
  match secant func fuel lo hi tol max_its false nargs with
  | Ok (x, n, b) => b = false /\ finite_double x /\ (1 <= n)%Z /\ forall m, max_its = Some m -> (n < m)%Z
  | Err e => e = ValueError \/ (exists x, func x = Err e) \/ (max_its = None /\ e = Diverges)
  end.
Proof.
  intros Df Sl Sh Dt Pt Hf Hm. apply finite_double_fin in Dt. destruct Dt as (t & -> & Ft). rewrite val_sfR in Pt. unfold secant.
  destruct (_ || _); [now left|]. destruct (_ || _); [now left|].
  destruct (close_some t Ft Pt hi lo) as (c & Ec). rewrite Ec. cbn [bind]. destruct c; [now left|].
  apply sec_outcome; auto using starting_number; [lia|]. now apply starts.
Qed.

(** ** The limit *)

Lemma limit_loop (func : pynum -> res pynum) lo hi tol m lo' hi' max_its fallback nargs nargs' fuel : forall fuel' x1 x2 x3 i x n,
  (fuel <= fuel')%nat -> (forall m', max_its = Some m' -> (m <= m')%Z) ->
  sec_loop func fuel lo hi tol (Some m) false nargs x1 x2 x3 i = Ok (x, n, false) ->
  sec_loop func fuel' lo' hi' tol max_its fallback nargs' x1 x2 x3 i = Ok (x, n, false).
Proof.
  induction fuel as [|fuel IH]; intros fuel' x1 x2 x3 i x n Hf Hm E.
  - cbn [sec_loop] in E. destruct (keep_going _ _ _ _) as [g|] eqn:G in E; cbn [bind] in E; [|discriminate].
    destruct g; cbn [negb] in E; [discriminate|]. destruct fuel'; cbn [sec_loop]; rewrite G; exact E.
  - destruct fuel' as [|fuel']; [lia|]. cbn [sec_loop] in *.
    destruct (keep_going _ _ _ _) as [g|] in *; cbn [bind] in *; [|discriminate]. destruct g; cbn [negb] in *; [|exact E].
    destruct (func x2) as [f2|]; cbn [bind] in *; [|discriminate]. destruct (func x1) as [f1|]; cbn [bind] in *; [|discriminate].
    destruct (_ || _ || _ || _); [discriminate|]. destruct (isclose f2 f1 tol) as [c|]; cbn [bind] in *; [|discriminate].
    destruct c; [discriminate|]. destruct (pydiv _ _) as [y|]; cbn [bind] in *; [|discriminate].
    destruct (_ || _); [discriminate|]. destruct (m <=? i + 1)%Z eqn:S; [discriminate|]. apply Z.leb_gt in S.
    destruct max_its as [m'|].
    + replace (m' <=? i + 1)%Z with false by (symmetry; apply Z.leb_gt; specialize (Hm m' eq_refl); lia). apply IH; auto. lia.
    + apply IH; auto. lia.
Qed.

Theorem secant_limit (func : pynum -> res pynum) lo hi tol m max_its fallback nargs nargs' fuel fuel' x n :
  (fuel <= fuel')%nat -> (forall m', max_its = Some m' -> (m <= m')%Z) ->
  secant func fuel lo hi tol (Some m) false nargs = Ok (x, n, false) ->
  secant func fuel' lo hi tol max_its fallback nargs' = Ok (x, n, false).
Proof.
  intros Hf Hm E. unfold secant in *. destruct (_ || _); [discriminate|]. destruct (_ || _); [discriminate|].
  destruct (isclose hi lo tol) as [c|]; cbn [bind] in *; [|discriminate]. destruct c; [discriminate|].
  exact (limit_loop func lo hi tol m lo hi max_its fallback nargs nargs' fuel fuel' lo hi None 0 x n Hf Hm E).
Qed.
