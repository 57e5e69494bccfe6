(** Bisection on doubles: it ends, and it ends at a sign change. *)

From Coq Require Import ZArith Reals List Bool Lra Lia Floats.SpecFloat.
From Verif Require Import Base Num PyNum Solvers SolverSpec FloatSpec FloatValSpec FloatRound FloatOps FloatFacts FloatSolvers
  FloatError FloatUtil FloatBisectSpec.
Open Scope R_scope.
Local Opaque SFadd SFsub SFmul SFdiv.

Lemma val_num x : fin_num x -> val x = numR x.
Proof. destruct x; [reflexivity|]. intros _. apply val_sfR. Qed.

Definition mild (x : pynum) : Prop := safe x /\ Rabs (val x) <= bp 1020.

Lemma mild_fin x : mild x -> finp x /\ fin64 (tofl x) /\ sfR (tofl x) = val x.
Proof.
  intros ((F & q & e & _ & _ & _ & _ & Ft & Vt) & _). split; [exact F|]. split; auto. now rewrite val_num by exact F.
Qed.

Lemma starting_mild x : starting x -> mild x.
Proof. intros (G & B). split; [now apply guess_safe|exact B]. Qed.

Lemma mild_noinf x : mild x -> nisinf x = false /\ nisnan x = false.
Proof. intros M. destruct (mild_fin x M) as (F & _). destruct x as [z|f]; [split; reflexivity|]. now apply fin_noinf. Qed.

Lemma u_bounds : 0 < u53 /\ u53 <= 112 / 1000000000000000000.
Proof. split; [apply u53_small|apply u53_val]. Qed.

(** ** The computed difference *)

Lemma bp_sum : bp 1020 + bp 1020 <= bp 1022.
Proof. replace (bp 1020 + bp 1020) with (bp (1020 + 1)) by (rewrite bp_add, bp_1; ring). apply bp_le. lia. Qed.

Lemma diff_val x y : mild x -> mild y ->
  finp (nsub y x) /\ Rabs (val (nsub y x) - (val y - val x)) <= u53 * Rabs (val y - val x) /\
  forall t, fin64 t -> Rabs (val y - val x) <= sfR t -> Rabs (val (nsub y x)) <= sfR t.
Proof.
  intros Mx My. destruct (mild_fin x Mx) as (Fx & Tx & Vx), (mild_fin y My) as (Fy & Ty & Vy).
  assert (B : Rabs (sfR (tofl y) - sfR (tofl x)) <= bp 1022).
  { rewrite Vx, Vy. destruct Mx as (_ & Bx), My as (_ & By). pose proof bp_sum. apply abs_le in Bx, By. apply abs_le. lra. }
  assert (K : finp (PFlt (SFsub f64 e64 (tofl y) (tofl x))) /\
    Rabs (val (PFlt (SFsub f64 e64 (tofl y) (tofl x))) - (val y - val x)) <= u53 * Rabs (val y - val x) /\
    forall t, fin64 t -> Rabs (val y - val x) <= sfR t -> Rabs (val (PFlt (SFsub f64 e64 (tofl y) (tofl x)))) <= sfR t).
  { destruct (sub_rel _ _ Ty Tx B) as (e & He & F & E). split; [exact F|]. rewrite val_sfR, E, Vx, Vy. split.
    - replace ((val y - val x) * (1 + e) - (val y - val x)) with (e * (val y - val x)) by ring.
      rewrite Rabs_mult. apply Rmult_le_compat_r; [apply Rabs_pos|exact He].
    - intros t Ht L. rewrite <- Vx, <- Vy, <- E. pose proof (sub_rounds _ _ Ty Tx) as R.
      assert (Fo : fin64 (SFopp t)) by (destruct t; exact Ht).
      assert (Vo : sfR (SFopp t) = - sfR t) by (destruct t as [| | |[] ? ?]; cbn [SFopp sfR signed negb]; ring).
      apply abs_le in L. rewrite <- Vx, <- Vy in L.
      destruct (rounds_between _ _ (SFopp t) t R Fo Ht) as (_ & L1 & L2); [rewrite Vo; exact L|]. rewrite Vo in L1. now apply abs_le. }
  destruct x as [a|f], y as [b|g]; try exact K.
  cbn [nsub PNum arith2 val finp]. rewrite minus_IZR. split; [exact I|]. split.
  - replace (IZR b - IZR a - (IZR b - IZR a)) with 0 by ring. rewrite Rabs_R0. pose proof u_bounds.
    apply Rmult_le_pos; [lra|apply Rabs_pos].
  - auto.
Qed.

Lemma tol9_tight : (1 - / 1000000000000) / 1000000000 <= sfR tol9 <= (1 + / 1000000000000) / 1000000000.
Proof.
  unfold tol9. cbn [sfR signed]. assert (E : bp (-82) * bp 82 = 1) by (rewrite <- bp_add; apply bp_0).
  rewrite (bp_Z 82) in E by lia. change (2 ^ 82)%Z with 4835703278458516698824704%Z in E. lra.
Qed.

Lemma rel_val x : mild x -> finp (nmul rel_tol x) /\
  Rabs (val (nmul rel_tol x) - sfR tol9 * val x) <= u53 * (sfR tol9 * Rabs (val x)) + bp (-1075).
Proof.
  intros M. destruct (mild_fin x M) as (F & T & V). pose proof tol9_val as T9.
  assert (E : nmul rel_tol x = PFlt (SFmul f64 e64 tol9 (tofl x))).
  { rewrite (proj1 tol9_eq). destruct x; reflexivity. }
  rewrite E, val_sfR, <- V.
  assert (A : Rabs (sfR tol9 * sfR (tofl x)) = sfR tol9 * Rabs (sfR (tofl x))) by (rewrite Rabs_mult, (Rabs_right (sfR tol9)) by lra; reflexivity).
  assert (B : Rabs (sfR tol9 * sfR (tofl x)) <= bp 1022).
  { rewrite A, V. destruct M as (_ & B). apply Rle_trans with (1 * Rabs (val x)).
    - apply Rmult_le_compat_r; [apply Rabs_pos|lra].
    - rewrite Rmult_1_l. apply Rle_trans with (1 := B). apply bp_le. lia. }
  destruct (rounds_err _ _ (mul_rounds _ _ tol9_fin T) B) as (Fm & Em). rewrite A in Em. split; [exact Fm|exact Em].
Qed.

(** ** The loop condition *)

Lemma leb_f_val x y : finp x -> finp y -> py_leb x y = false -> val y < val x.
Proof. intros F G L. destruct (Rle_lt_dec (val x) (val y)) as [H|H]; auto. apply leb_val in H; auto. congruence. Qed.
Lemma ltb_val x y : finp x -> finp y -> py_ltb x y = true <-> val x < val y.
Proof.
  intros F G. split; [|now apply ltb_t]. intros L. destruct (Rlt_le_dec (val x) (val y)) as [H|H]; auto.
  rewrite (ltb_f x y) in L; auto. discriminate.
Qed.

Definition tol_ok (tol : pynum) : Prop := exists t, tol = PFlt t /\ fin64 t /\ bp (-500) <= sfR t.

Lemma tolerance_ok tol : tolerance tol -> tol_ok tol.
Proof.
  intros (F & B). apply finite_double_fin in F. destruct F as (t & -> & F). exists t. rewrite val_sfR in B. auto.
Qed.

Lemma tiny_tol t : bp (-500) <= t -> bp (-1075) <= u53 * t /\ 0 < t.
Proof.
  intros B. pose proof (bp_pos (-500)). split; [|lra]. unfold u53. apply Rle_trans with (bp (-53) * bp (-500)).
  - rewrite <- bp_add. apply bp_le. lia.
  - apply Rmult_le_compat_l; [left; apply bp_pos|exact B].
Qed.

Lemma tol_nonneg tol : tol_ok tol -> nltb tol (nflt 0 1) = false.
Proof.
  intros (t & -> & F & B). destruct (tiny_tol _ B) as (_ & P). apply ltb_f; [exact F|reflexivity|].
  change (nflt 0 1) with (fl 0 1). rewrite fl_zero, !val_sfR. cbn [sfR]. lra.
Qed.

(** Going on means: wider than the tolerance and than (nearly) 1e-9 of either end. *)
Lemma go_on x y tol : mild x -> mild y -> tol_ok tol ->
  match keep_going y x tol (nsub y x) with
  | Ok true => val tol < Rabs (val y - val x) /\ Rabs (val x) <= 1010000000 * Rabs (val y - val x) /\
      Rabs (val y) <= 1010000000 * Rabs (val y - val x)
  | Ok false => close_enough (val tol) x y
  | Err _ => False
  end.
Proof.
  intros Mx My Ht. pose proof (tol_nonneg tol Ht) as Hn. destruct Ht as (t & -> & Ft & Bt).
  destruct (tiny_tol _ Bt) as (Tt & Pt). pose proof u_bounds as U. pose proof tol9_tight as T9.
  destruct (diff_val x y Mx My) as (Fd & Ed & Md). destruct (fin_abs _ Fd) as (Fa & Va).
  destruct (diff_val y x My Mx) as (Fd' & Ed' & Md'). destruct (fin_abs _ Fd') as (Fa' & Va').
  destruct (rel_val x Mx) as (Frx & Erx), (rel_val y My) as (Fry & Ery).
  destruct (fin_abs _ Frx) as (Fax & Vax), (fin_abs _ Fry) as (Fay & Vay).
  destruct (mild_fin x Mx) as (Fx & _), (mild_fin y My) as (Fy & _).
  set (D := Rabs (val y - val x)) in *. assert (D0 : 0 <= D) by apply Rabs_pos.
  assert (D' : Rabs (val x - val y) = D) by (unfold D; apply Rabs_minus_sym). rewrite D' in *.
  assert (A1 : (1 - u53) * D <= Rabs (val (nsub y x)) <= (1 + u53) * D).
  { pose proof (Rabs_triang_inv (val (nsub y x)) (val y - val x)) as I1. pose proof (Rabs_triang_inv (val y - val x) (val (nsub y x))) as I2.
    rewrite (Rabs_minus_sym (val y - val x)) in I2. fold D in I1, I2. lra. }
  assert (A2 : (1 - u53) * D <= Rabs (val (nsub x y)) <= (1 + u53) * D).
  { pose proof (Rabs_triang_inv (val (nsub x y)) (val x - val y)) as I1. pose proof (Rabs_triang_inv (val x - val y) (val (nsub x y))) as I2.
    rewrite (Rabs_minus_sym (val x - val y)) in I2. rewrite D' in I1, I2. lra. }
  assert (P : forall z, Rabs (val (nmul rel_tol z) - sfR tol9 * val z) <= u53 * (sfR tol9 * Rabs (val z)) + bp (-1075) ->
    (1 - u53) * (sfR tol9 * Rabs (val z)) - u53 * sfR t <= Rabs (val (nmul rel_tol z)) <= (1 + u53) * (sfR tol9 * Rabs (val z)) + u53 * sfR t).
  { intros z E. assert (Z : Rabs (sfR tol9 * val z) = sfR tol9 * Rabs (val z)) by (rewrite Rabs_mult, (Rabs_right (sfR tol9)) by lra; reflexivity).
    pose proof (Rabs_triang_inv (val (nmul rel_tol z)) (sfR tol9 * val z)) as I1.
    pose proof (Rabs_triang_inv (sfR tol9 * val z) (val (nmul rel_tol z))) as I2. rewrite (Rabs_minus_sym (sfR tol9 * val z)) in I2. lra. }
  pose proof (P x Erx) as Px. pose proof (P y Ery) as Py. clear P.
  pose proof (Rabs_pos (val x)) as X0. pose proof (Rabs_pos (val y)) as Y0.
  assert (CE : D <= (1 + / 1000000) * sfR t \/ D <= (1 + / 1000000) * (/ 1000000000 * Rabs (val x)) \/
     D <= (1 + / 1000000) * (/ 1000000000 * Rabs (val y)) -> close_enough (val (PFlt t)) x y).
  { intros H. unfold close_enough, slack. fold D. rewrite val_sfR. set (S := Rmax (sfR t) _).
    assert (sfR t <= S) by apply Rmax_l. assert (S1 : / 1000000000 * Rmax (Rabs (val x)) (Rabs (val y)) <= S) by apply Rmax_r.
    pose proof (Rmax_l (Rabs (val x)) (Rabs (val y))). pose proof (Rmax_r (Rabs (val x)) (Rabs (val y))). lra. }
  unfold keep_going, isclose. cbn [nltb PNum]. destruct (py_ltb (PFlt t) (nabs (nsub y x))) eqn:L1.
  - apply ltb_val in L1; [|exact Ft|exact Fa]. rewrite Va, val_sfR in L1.
    assert (Dt : sfR t < D).
    { destruct (Rlt_le_dec (sfR t) D) as [|G]; auto. pose proof (Md t Ft G). lra. }
    change (py_ltb (PFlt t) (nflt 0 1)) with (nltb (PFlt t) (nflt 0 1)). rewrite Hn. cbn [neqb PNum].
    destruct (py_eqb y x) eqn:Q; [cbn [bind negb]; apply CE; left; exfalso; clear CE|].
    { unfold py_eqb in Q. apply andb_true_iff in Q. destruct Q as (Q1 & Q2).
      apply (leb_val y x Fy Fx) in Q1. apply (leb_val x y Fx Fy) in Q2.
      assert (D = 0) by (unfold D; replace (val y - val x) with 0 by lra; apply Rabs_R0). lra. }
    rewrite (proj1 (mild_noinf x Mx)), (proj1 (mild_noinf y My)). cbn [orb nleb PNum].
    destruct (py_leb (nabs (nsub x y)) (nabs (nmul rel_tol x))) eqn:C1.
    + cbn [orb bind negb]. apply CE. right. left. apply (leb_val _ _ Fa' Fax) in C1. rewrite Va', Vax in C1. nra.
    + destruct (py_leb (nabs (nsub x y)) (nabs (nmul rel_tol y))) eqn:C2.
      * cbn [orb bind negb]. apply CE. right. right. apply (leb_val _ _ Fa' Fay) in C2. rewrite Va', Vay in C2. nra.
      * destruct (py_leb (nabs (nsub x y)) (PFlt t)) eqn:C3.
        { cbn [orb bind negb]. apply CE. left. apply (leb_val _ (PFlt t) Fa' Ft) in C3. rewrite Va', val_sfR in C3. nra. }
        cbn [orb bind negb]. apply leb_f_val in C1; auto. apply leb_f_val in C2; auto. rewrite Va', Vax in C1. rewrite Va', Vay in C2.
        rewrite val_sfR. split; [exact Dt|]. split; nra.
  - assert (L2 : val (nabs (nsub y x)) <= val (PFlt t)).
    { destruct (Rle_lt_dec (val (nabs (nsub y x))) (val (PFlt t))) as [|G]; auto. apply (ltb_t (PFlt t) _ Ft Fa) in G. congruence. }
    rewrite Va, val_sfR in L2. apply CE. left. nra.
Qed.

(** ** The midpoint *)

Lemma mid_mild x y : mild x -> mild y -> mild (ndiv (nadd x y) (nint 2)) /\ inR (val x) (val y) (val (ndiv (nadd x y) (nint 2))).
Proof.
  intros (Sx & Bx) (Sy & By). destruct (mid_between x y Sx Sy) as (Sm & Im).
  assert (E : inR (val x) (val y) (val (ndiv (nadd x y) (nint 2)))).
  { rewrite !val_num; [exact Im|apply Sm|apply Sy|apply Sx]. }
  split; auto. split; auto. unfold inR in E. apply abs_le in Bx, By. apply abs_le. lra.
Qed.

Lemma mid_half x y tol : mild x -> mild y -> tol_ok tol -> keep_going y x tol (nsub y x) = Ok true ->
  let m := val (ndiv (nadd x y) (nint 2)) in
  Rabs (m - val x) <= 10 / 19 * Rabs (val y - val x) /\ Rabs (val y - m) <= 10 / 19 * Rabs (val y - val x).
Proof.
  intros Mx My Ht G. cbv zeta. pose proof (go_on x y tol Mx My Ht) as K. rewrite G in K. destruct K as (K1 & K2 & K3).
  destruct Ht as (t & -> & Ft & Bt). rewrite val_sfR in K1. destruct (tiny_tol _ Bt) as (Tt & Pt). pose proof u_bounds as U.
  pose proof Mx as (Sx & Bx). pose proof My as (Sy & By). set (D := Rabs (val y - val x)) in *.
  pose proof (sum_rounds x y Sx Sy) as Rs. set (g := tofl (nadd x y)) in *.
  rewrite <- !val_num in Rs by (first [apply Sx|apply Sy]).
  assert (B : Rabs (val x + val y) <= bp 1021).
  { replace (bp 1021) with (bp (1020 + 1)) by reflexivity. rewrite bp_add, bp_1. apply abs_le in Bx, By. apply abs_le. lra. }
  assert (B' : Rabs (val x + val y) <= bp 1022) by (apply Rle_trans with (1 := B); apply bp_le; lia).
  destruct (rounds_err _ _ Rs B') as (Fg & Eg).
  assert (N2 : sfR (S754_finite false 4503599627370496 (-51)) <> 0) by (rewrite two_val; lra).
  assert (F2 : fin64 (S754_finite false 4503599627370496 (-51))) by reflexivity.
  pose proof (div_rounds g _ Fg F2 N2) as Rd. rewrite two_val in Rd.
  assert (Em : ndiv (nadd x y) (nint 2) = PFlt (SFdiv f64 e64 g (S754_finite false 4503599627370496 (-51)))).
  { rewrite <- two_fin. reflexivity. }
  assert (D0 : 0 <= D) by apply Rabs_pos.
  assert (G1 : Rabs (sfR g - (val x + val y)) <= u53 * (2020000000 * D) + u53 * D).
  { apply Rle_trans with (1 := Eg). pose proof (Rabs_triang (val x) (val y)) as T.
    assert (u53 * Rabs (val x + val y) <= u53 * (2020000000 * D)) by (apply Rmult_le_compat_l; lra).
    assert (u53 * sfR t <= u53 * D) by (apply Rmult_le_compat_l; lra). lra. }
  assert (G2 : Rabs (sfR g) <= 2020000001 * D).
  { pose proof (Rabs_triang (sfR g - (val x + val y)) (val x + val y)) as T.
    replace (sfR g - (val x + val y) + (val x + val y)) with (sfR g) in T by ring. pose proof (Rabs_triang (val x) (val y)).
    assert (u53 * D <= 112 / 1000000000000000000 * D) by (apply Rmult_le_compat_r; lra). lra. }
  assert (Bd : Rabs (sfR g / 2) <= bp 1022).
  { unfold Rdiv. rewrite Rabs_mult, (Rabs_right (/ 2)) by lra. pose proof (Rabs_triang (sfR g - (val x + val y)) (val x + val y)) as T.
    replace (sfR g - (val x + val y) + (val x + val y)) with (sfR g) in T by ring.
    pose proof (bp_le (-1075) 1021 ltac:(lia)). replace (bp 1022) with (bp (1021 + 1)) by reflexivity. rewrite bp_add, bp_1.
    assert (u53 * Rabs (val x + val y) <= 1 * bp 1021) by (apply Rmult_le_compat; try lra; apply Rabs_pos). pose proof (bp_pos 1021). lra. }
  destruct (rounds_err _ _ Rd Bd) as (Fm & E2). rewrite Em, val_sfR. set (m := sfR (SFdiv f64 e64 g _)) in *.
  unfold Rdiv in E2. rewrite Rabs_mult, (Rabs_right (/ 2)) in E2 by lra.
  assert (H : Rabs (m - (val x + val y) / 2) <= D / 100).
  { replace (m - (val x + val y) / 2) with ((m - sfR g * / 2) + (sfR g - (val x + val y)) * / 2) by (field).
    apply Rle_trans with (1 := Rabs_triang _ _). rewrite Rabs_mult, (Rabs_right (/ 2)) by lra.
    assert (u53 * (Rabs (sfR g) * / 2) <= u53 * (2020000001 * D)) by (apply Rmult_le_compat_l; lra).
    assert (u53 * sfR t <= u53 * D) by (apply Rmult_le_compat_l; lra).
    assert (u53 * D <= 112 / 1000000000000000000 * D) by (apply Rmult_le_compat_r; lra). lra. }
  split.
  - replace (m - val x) with ((m - (val x + val y) / 2) + (val y - val x) / 2) by field.
    apply Rle_trans with (1 := Rabs_triang _ _). unfold Rdiv at 2. rewrite Rabs_mult, (Rabs_right (/ 2)) by lra. fold D. lra.
  - replace (val y - m) with (- (m - (val x + val y) / 2) + (val y - val x) / 2) by field.
    apply Rle_trans with (1 := Rabs_triang _ _). rewrite Rabs_Ropp. unfold Rdiv at 2. rewrite Rabs_mult, (Rabs_right (/ 2)) by lra. fold D. lra.
Qed.

Definition good (lo0 hi0 x : pynum) : Prop := mild x /\ inR (val lo0) (val hi0) (val x).

Lemma good_mid lo0 hi0 x y : good lo0 hi0 x -> good lo0 hi0 y -> good lo0 hi0 (ndiv (nadd x y) (nint 2)).
Proof.
  intros (Mx & Ix) (My & Iy). destruct (mid_mild x y Mx My) as (Mm & Im). split; auto. revert Ix Iy Im. unfold inR. lra.
Qed.

Lemma inR_between lo hi x : finp lo -> finp hi -> finp x -> inR (val lo) (val hi) (val x) <-> between lo hi x.
Proof.
  intros Fl Fh Fx. unfold between. cbn [nleb PNum].
  rewrite (leb_val lo x), (leb_val x hi), (leb_val hi x), (leb_val x lo) by assumption. reflexivity.
Qed.

Lemma good_between lo hi x : mild lo -> mild hi -> good lo hi x -> in_bracket lo hi x.
Proof.
  intros Ml Mh (Mx & H). split.
  { destruct Mx as ((F & _) & _). destruct x as [z|f]; [left; now exists z|right]. exists f. split; [reflexivity|]. now apply fin_valid. }
  destruct (mild_fin lo Ml) as (Fl & _), (mild_fin hi Mh) as (Fh & _), (mild_fin x Mx) as (Fx & _). now apply inR_between.
Qed.
Lemma good_l lo hi : mild lo -> good lo hi lo.
Proof. intros M. split; [exact M|apply inR_l]. Qed.
Lemma good_r lo hi : mild hi -> good lo hi hi.
Proof. intros M. split; [exact M|apply inR_r]. Qed.

(** ** Ending *)

Section Ending.
Variable func : pynum -> res pynum.
Variables tol lo0 hi0 : pynum.
Hypothesis Ht : tol_ok tol.

Lemma narrow_stops lo hi : mild lo -> mild hi -> Rabs (val hi - val lo) <= val tol ->
  keep_going hi lo tol (nsub hi lo) = Ok false.
Proof.
  intros Ml Mh L. pose proof (go_on lo hi tol Ml Mh Ht) as K. destruct (keep_going _ _ _ _) as [[]|]; [lra|reflexivity|contradiction].
Qed.

Lemma shrink k W : 0 <= k -> W <= val tol * ((19 / 10) * k) -> 10 / 19 * W <= val tol * k.
Proof. intros K H. nra. Qed.

Lemma loop_ends fail (Hd : forall x, good lo0 hi0 x -> func x <> Err Diverges) N : forall fuel lo hi i, (N <= fuel)%nat ->
  good lo0 hi0 lo -> good lo0 hi0 hi ->
  Rabs (val hi - val lo) <= val tol * (19 / 10) ^ N ->
  bis_loop func fuel lo hi tol None fail i <> Err Diverges /\
  (forall x n, bis_loop func fuel lo hi tol None fail i = Ok (x, n) -> (n <= i + Z.of_nat N)%Z) /\
  forall m, (i + Z.of_nat N < m)%Z ->
    bis_loop func fuel lo hi tol (Some m) fail i = bis_loop func fuel lo hi tol None fail i.
Proof.
  induction N as [|N IH]; intros fuel lo hi i Hf Gl Gh HD; pose proof (proj1 Gl) as Ml; pose proof (proj1 Gh) as Mh.
  - cbn [pow] in HD. rewrite Rmult_1_r in HD. pose proof (narrow_stops lo hi Ml Mh HD) as E.
    assert (K : forall mx, bis_loop func fuel lo hi tol mx fail i = Ok (ndiv (nadd lo hi) (nint 2), i)).
    { intros mx. destruct fuel; cbn [bis_loop]; rewrite E; reflexivity. }
    rewrite K. split; [discriminate|]. split; [intros x n [= _ <-]; lia|]. intros m _. now rewrite K.
  - destruct fuel as [|fuel]; [lia|]. cbn [bis_loop]. destruct (keep_going hi lo tol (nsub hi lo)) as [[]|] eqn:G; cbn [bind negb].
    2: { split; [discriminate|]. split; [intros x n [= _ <-]; lia|reflexivity]. }
    2: { pose proof (go_on lo hi tol Ml Mh Ht) as K. rewrite G in K. contradiction. }
    destruct (func lo) as [yl|el] eqn:El; cbn [bind]; [|split; [intros [= E0]; apply (Hd lo Gl); now rewrite El, E0|split; [discriminate|reflexivity]]].
    destruct (func hi) as [yh|eh] eqn:Eh; cbn [bind]; [|split; [intros [= E0]; apply (Hd hi Gh); now rewrite Eh, E0|split; [discriminate|reflexivity]]].
    assert (IC : forall a b, isclose a b tol <> Err Diverges).
    { intros a b. unfold isclose. rewrite (tol_nonneg tol Ht). destruct (neqb a b); [discriminate|]. destruct (nisinf a || nisinf b)%bool; discriminate. }
    destruct (isclose yl (nflt 0 1) tol) as [[]|e1] eqn:C1; cbn [bind].
    { split; [discriminate|]. split; [intros x n [= _ <-]; lia|reflexivity]. }
    2: { split; [intros [= E0]; apply (IC yl (nflt 0 1)); now rewrite C1, E0|split; [discriminate|reflexivity]]. }
    destruct (isclose yh (nflt 0 1) tol) as [[]|e1] eqn:C2; cbn [bind].
    { split; [discriminate|]. split; [intros x n [= _ <-]; lia|reflexivity]. }
    2: { split; [intros [= E0]; apply (IC yh (nflt 0 1)); now rewrite C2, E0|split; [discriminate|reflexivity]]. }
    destruct (nisinf yl || nisinf yh)%bool; [split; [discriminate|split; [discriminate|reflexivity]]|].
    destruct (nisnan yl || nisnan yh)%bool; [split; [discriminate|split; [discriminate|reflexivity]]|].
    destruct (nltb (nflt 0 1) (nmul yl yh)); [split; [discriminate|split; [discriminate|reflexivity]]|].
    pose proof (good_mid _ _ lo hi Gl Gh) as Gm. pose proof (mid_half lo hi tol Ml Mh Ht G) as (H1 & H2). cbv zeta in H1, H2.
    set (mid := ndiv (nadd lo hi) (nint 2)) in *.
    destruct (func mid) as [ym|em] eqn:Em; cbn [bind]; [|split; [intros [= E0]; apply (Hd mid Gm); now rewrite Em, E0|split; [discriminate|reflexivity]]].
    cbv zeta. cbn [pow] in HD. assert (P : 0 <= (19 / 10) ^ N) by (apply pow_le; lra). pose proof (shrink _ _ P HD) as S.
    destruct (nltb (nflt 0 1) (nmul yl ym)).
    + destruct (IH fuel mid hi (i + 1)%Z ltac:(lia) Gm Gh ltac:(lra)) as (A & B & C). split; auto. split.
      * intros x n E. apply B in E. lia.
      * intros m Hm. destruct (m <=? i + 1)%Z eqn:Q; [apply Z.leb_le in Q; lia|]. apply C. lia.
    + destruct (IH fuel lo mid (i + 1)%Z ltac:(lia) Gl Gm ltac:(lra)) as (A & B & C). split; auto. split.
      * intros x n E. apply B in E. lia.
      * intros m Hm. destruct (m <=? i + 1)%Z eqn:Q; [apply Z.leb_le in Q; lia|]. apply C. lia.
Qed.
End Ending.

Lemma bisection_ends func N fuel lo hi tol fail : starting lo -> starting hi -> tolerance tol ->
  (forall x, in_bracket lo hi x -> func x <> Err Diverges) -> (1 <= N <= fuel)%nat -> Rabs (val hi - val lo) <= val tol * (19 / 10) ^ N ->
  bisection func fuel lo hi tol None fail <> Err Diverges /\
  (forall x n, bisection func fuel lo hi tol None fail = Ok (x, n) -> (n <= Z.of_nat N)%Z) /\
  forall m, (Z.of_nat N < m)%Z ->
    bisection func fuel lo hi tol (Some m) fail = bisection func fuel lo hi tol None fail.
Proof.
  intros Sl Sh St Hd Hf HD. apply starting_mild in Sl, Sh. apply tolerance_ok in St.
  pose proof (loop_ends func tol lo hi St fail (fun x Hx => Hd x (good_between lo hi x Sl Sh Hx)) N fuel lo hi 0 ltac:(lia)
    (good_l lo hi Sl) (good_r lo hi Sh) HD) as (A & B & C).
  unfold bisection. rewrite (proj1 (mild_noinf lo Sl)), (proj1 (mild_noinf hi Sh)), (proj2 (mild_noinf lo Sl)), (proj2 (mild_noinf hi Sh)).
  cbn [orb]. destruct (isclose hi lo tol) as [[]|e] eqn:E; cbn [bind].
  - split; [discriminate|]. split; [discriminate|reflexivity].
  - split; auto. split; [exact B|]. intros m Hm. destruct (m <=? 1)%Z eqn:Q; [apply Z.leb_le in Q; lia|]. apply C. lia.
  - exfalso. unfold isclose in E. rewrite (tol_nonneg tol St) in E. destruct (neqb hi lo); [discriminate|].
    destruct (nisinf hi || nisinf lo)%bool; discriminate.
Qed.

(** 1800 iterations suffice for all of them. *)
Lemma many_halvings : bp 1021 <= bp (-500) * (19 / 10) ^ Z.to_nat 1800.
Proof.
  replace (Z.to_nat 1800) with (18 * 100)%nat by lia. rewrite pow_mult.
  assert (H : bp 91 <= (19 / 10) ^ 18 * bp 75).
  { assert (E : (19 / 10) ^ 18 * bp 75 = IZR (19 ^ 18 * 2 ^ 75) / IZR (10 ^ 18)).
    { rewrite mult_IZR, <- (bp_Z 75) by lia. replace (IZR (19 ^ 18)) with (19 ^ 18) by (rewrite pow_IZR; reflexivity).
      replace (IZR (10 ^ 18)) with (10 ^ 18) by (rewrite pow_IZR; reflexivity). unfold Rdiv. rewrite Rpow_mult_distr, pow_inv. ring. }
    rewrite E, (bp_Z 91) by lia. apply Rmult_le_reg_r with (IZR (10 ^ 18)); [apply IZR_lt; reflexivity|].
    unfold Rdiv. rewrite Rmult_assoc, Rinv_l by (apply IZR_neq; discriminate). rewrite Rmult_1_r, <- mult_IZR. apply IZR_le. vm_compute. discriminate. }
  assert (H' : bp 16 <= (19 / 10) ^ 18).
  { apply Rmult_le_reg_r with (bp 75); [apply bp_pos|]. rewrite <- bp_add. exact H. }
  assert (K : forall n, bp (16 * Z.of_nat n) <= ((19 / 10) ^ 18) ^ n).
  { induction n as [|n IH]; [rewrite Z.mul_0_r, bp_0; cbn [pow]; lra|].
    replace (16 * Z.of_nat (S n))%Z with (16 + 16 * Z.of_nat n)%Z by lia. rewrite bp_add. cbn [pow].
    apply Rmult_le_compat; auto; left; apply bp_pos. }
  apply Rle_trans with (bp (-500) * bp (16 * Z.of_nat 100)); [|apply Rmult_le_compat_l; [left; apply bp_pos|apply K]].
  rewrite <- bp_add. apply bp_le. vm_compute. discriminate.
Qed.

Lemma always_narrow lo hi tol : starting lo -> starting hi -> tolerance tol ->
  Rabs (val hi - val lo) <= val tol * (19 / 10) ^ Z.to_nat 1800.
Proof.
  intros (_ & Bl) (_ & Bh) (_ & Bt). change (powerRZ 2 1020) with (bp 1020) in *. change (powerRZ 2 (-500)) with (bp (-500)) in Bt.
  apply Rle_trans with (bp 1021).
  - replace (bp 1021) with (bp (1020 + 1)) by reflexivity. rewrite bp_add, bp_1. apply abs_le in Bl, Bh. apply abs_le. lra.
  - apply Rle_trans with (1 := many_halvings). apply Rmult_le_compat_r; [|exact Bt]. apply pow_le. lra.
Qed.

Lemma default_limit func fuel lo hi tol fail : starting lo -> starting hi -> tolerance tol ->
  (forall x, in_bracket lo hi x -> func x <> Err Diverges) -> (1800 <= Z.of_nat fuel)%Z ->
  bisection func fuel lo hi tol default_max_its fail = bisection func fuel lo hi tol None fail /\
  bisection func fuel lo hi tol None fail <> Err Diverges /\
  forall x n, bisection func fuel lo hi tol None fail = Ok (x, n) -> (n <= 1800)%Z.
Proof.
  intros Sl Sh St Hd Hf.
  destruct (bisection_ends func (Z.to_nat 1800) fuel lo hi tol fail Sl Sh St Hd ltac:(lia) (always_narrow lo hi tol Sl Sh St)) as (A & B & C).
  rewrite Z2Nat.id in B, C by lia. split; [apply C; lia|]. split; auto.
Qed.

(** ** Signs *)

Lemma stands_opp_neg w f : stands false w f -> stands true w (SFopp f).
Proof. intros [E|c x B E|E]; cbn [SFopp negb]; [now apply st_zero|now apply st_fin|now apply st_inf]. Qed.

Lemma rounds_opp v f : rounds v f -> rounds (- v) (SFopp f).
Proof.
  intros [s -> ->|w P N S|w P N S].
  - cbn [SFopp]. apply r_zero with (negb s); [ring|reflexivity].
  - apply r_neg with w; [lra|now rewrite Ropp_involutive|now apply stands_opp_neg].
  - apply r_pos with w; [lra|exact N|now apply stands_opp].
Qed.

(** The difference the other way round. *)
Lemma diff_sym x y : mild x -> mild y -> Rabs (val (nsub x y)) = Rabs (val (nsub y x)).
Proof.
  intros Mx My. destruct (diff_val x y Mx My) as (Fd & _), (diff_val y x My Mx) as (Fd' & _).
  assert (K : forall f g : spec_float, fin64 f -> fin64 g -> fin64 (SFsub f64 e64 f g) -> fin64 (SFsub f64 e64 g f) ->
    Rabs (sfR (SFsub f64 e64 f g)) = Rabs (sfR (SFsub f64 e64 g f))).
  { intros f g F G H H'. pose proof (sub_rounds f g F G) as R. pose proof (rounds_opp _ _ (sub_rounds g f G F)) as R'.
    replace (- (sfR g - sfR f)) with (sfR f - sfR g) in R' by ring.
    assert (Fo : fin64 (SFopp (SFsub f64 e64 g f))) by (destruct (SFsub f64 e64 g f); exact H').
    assert (Vo : sfR (SFopp (SFsub f64 e64 g f)) = - sfR (SFsub f64 e64 g f))
      by (destruct (SFsub f64 e64 g f) as [| | |[] ? ?]; cbn [SFopp sfR signed negb]; ring).
    pose proof (proj1 (fle_R _ _ H Fo) (rounds_mono _ _ _ _ R R' (Rle_refl _))) as L1.
    pose proof (proj1 (fle_R _ _ Fo H) (rounds_mono _ _ _ _ R' R (Rle_refl _))) as L2.
    rewrite Vo in L1, L2. replace (sfR (SFsub f64 e64 f g)) with (- sfR (SFsub f64 e64 g f)) by lra. apply Rabs_Ropp. }
  destruct (mild_fin x Mx) as (_ & Tx & _), (mild_fin y My) as (_ & Ty & _).
  destruct x as [a|f], y as [b|g]; cbn [nsub PNum arith2 tofl] in *; rewrite ?val_sfR; try (now apply K).
  cbn [val]. rewrite !minus_IZR. apply Rabs_minus_sym.
Qed.

Lemma starts_apart lo hi tol : mild lo -> mild hi -> tol_ok tol -> isclose hi lo tol = Ok false ->
  keep_going hi lo tol (nsub hi lo) = Ok true.
Proof.
  intros Ml Mh Ht E. unfold keep_going. rewrite E. cbn [bind negb]. destruct (nltb tol (nabs (nsub hi lo))) eqn:L; auto. exfalso.
  unfold isclose in E. rewrite (tol_nonneg tol Ht) in E. destruct (neqb hi lo); [discriminate|].
  rewrite (proj1 (mild_noinf lo Ml)), (proj1 (mild_noinf hi Mh)) in E. cbn [orb] in E. injection E as E.
  apply orb_false_iff in E. destruct E as (_ & E). destruct Ht as (t & -> & Ft & _).
  destruct (diff_val lo hi Ml Mh) as (Fd & _), (diff_val hi lo Mh Ml) as (Fd' & _).
  destruct (fin_abs _ Fd) as (Fa & Va), (fin_abs _ Fd') as (Fa' & Va').
  apply (leb_f_val _ (PFlt t) Fa' Ft) in E. rewrite Va', (diff_sym lo hi Ml Mh), <- Va in E. cbn [nltb PNum] in L.
  rewrite (ltb_t (PFlt t) _ Ft Fa E) in L. discriminate.
Qed.

(** [isclose(y, 0.0, abs_tol=tol)] *)
Lemma zero_close y tol : fin64 y -> tol_ok tol -> exists b, isclose (PFlt y) (nflt 0 1) tol = Ok b /\
  (b = true <-> Rabs (sfR y) <= val tol).
Proof.
  intros Fy Ht. pose proof (tol_nonneg tol Ht) as Hn. destruct Ht as (t & -> & Ft & Bt). destruct (tiny_tol _ Bt) as (Tt & Pt).
  pose proof u_bounds as U. pose proof tol9_tight as T9. assert (Fz : fin64 (S754_zero false)) by exact Logic.I. rewrite val_sfR.
  unfold isclose. rewrite Hn. change (nflt 0 1) with (fl 0 1). rewrite fl_zero. cbn [neqb PNum]. destruct (py_eqb (PFlt y) (PFlt (S754_zero false))) eqn:Q.
  - exists true. split; auto. split; auto. intros _. unfold py_eqb in Q. apply andb_true_iff in Q. destruct Q as (Q1 & Q2).
    apply (leb_val (PFlt y) (PFlt (S754_zero false)) Fy Fz) in Q1. apply (leb_val (PFlt (S754_zero false)) (PFlt y) Fz Fy) in Q2.
    rewrite !val_sfR in Q1, Q2. cbn [sfR] in Q1, Q2. rewrite Rabs_right; lra.
  - cbn [nisinf PNum]. rewrite (proj1 (fin_noinf y Fy)). change (py_isinf (PFlt (S754_zero false))) with false. cbn [orb].
    set (d := nsub (PFlt (S754_zero false)) (PFlt y)).
    assert (Vd : finp d /\ Rabs (val d) = Rabs (sfR y)).
    { unfold d. cbn [nsub PNum arith2 tofl]. pose proof (sub_rounds _ y Fz Fy) as R. cbn [sfR] in R.
      assert (Fo : fin64 (SFopp y)) by (destruct y; exact Fy).
      assert (Vo : sfR (SFopp y) = - sfR y) by (destruct y as [| | |[] ? ?]; cbn [SFopp sfR signed negb]; ring).
      destruct (rounds_between _ _ (SFopp y) (SFopp y) R Fo Fo) as (F & L1 & L2); [rewrite Vo; lra|].
      split; [exact F|]. rewrite val_sfR, Vo in *. rewrite <- (Rabs_Ropp (sfR y)). f_equal. lra. }
    destruct Vd as (Fd & Vd). destruct (fin_abs _ Fd) as (Fa & Va).
    change (nmul rel_tol (PFlt (S754_zero false))) with (PFlt (S754_zero false)).
    assert (Er : nmul rel_tol (PFlt y) = PFlt (SFmul f64 e64 tol9 y)) by (rewrite (proj1 tol9_eq); reflexivity).
    assert (Br : fin64 (SFmul f64 e64 tol9 y) /\ Rabs (sfR (SFmul f64 e64 tol9 y)) <= / 2 * Rabs (sfR y) + bp (-1075)).
    { destruct (Rle_lt_dec (Rabs (sfR tol9 * sfR y)) (bp 1022)) as [B|B].
      - destruct (rounds_err _ _ (mul_rounds _ _ tol9_fin Fy) B) as (F & E). split; auto.
        rewrite Rabs_mult, (Rabs_right (sfR tol9)) in E by lra.
        pose proof (Rabs_triang (sfR (SFmul f64 e64 tol9 y) - sfR tol9 * sfR y) (sfR tol9 * sfR y)) as T.
        replace (sfR (SFmul f64 e64 tol9 y) - sfR tol9 * sfR y + sfR tol9 * sfR y) with (sfR (SFmul f64 e64 tol9 y)) in T by ring.
        rewrite (Rabs_mult (sfR tol9)), (Rabs_right (sfR tol9)) in T by lra. pose proof (Rabs_pos (sfR y)).
        assert (sfR tol9 * Rabs (sfR y) <= / 1000 * Rabs (sfR y)) by (apply Rmult_le_compat_r; lra).
        assert (u53 * (sfR tol9 * Rabs (sfR y)) <= 1 * (sfR tol9 * Rabs (sfR y))) by (apply Rmult_le_compat_r; [apply Rmult_le_pos|]; lra). lra.
      - exfalso. assert (Rabs (sfR y) < bp 1024).
        { destruct y as [s| | |s c x]; cbn in Fy; try contradiction; cbn [sfR].
          - rewrite Rabs_R0. apply bp_pos.
          - pose proof (finite_small c x Fy). destruct s; cbn [signed]; rewrite ?Rabs_Ropp, Rabs_right; lra. }
        rewrite Rabs_mult, (Rabs_right (sfR tol9)) in B by lra.
        assert (sfR tol9 * Rabs (sfR y) <= / 4 * bp 1024) by (apply Rmult_le_compat; try lra; apply Rabs_pos).
        replace (bp 1024) with (bp (1022 + 1 + 1)) in * by reflexivity. rewrite !bp_add, bp_1 in *. lra. }
    destruct Br as (Fr & Br). rewrite Er. destruct (fin_abs (PFlt _) Fr) as (Far & Var). rewrite val_sfR in Var.
    eexists. split; [reflexivity|]. cbn [nleb PNum]. rewrite !orb_true_iff. change (nabs (PFlt (S754_zero false))) with (PFlt (S754_zero false)).
    split.
    + intros [[C|C]|C].
      * apply (leb_val _ (PFlt (S754_zero false)) Fa Fz) in C. rewrite Va, Vd, val_sfR in C. cbn [sfR] in C. lra.
      * apply (leb_val _ _ Fa Far) in C. rewrite Va, Vd, Var in C.
        assert (u53 * sfR t <= / 4 * sfR t) by (apply Rmult_le_compat_r; lra). lra.
      * apply (leb_val _ (PFlt t) Fa Ft) in C. rewrite Va, Vd, val_sfR in C. exact C.
    + intros C. right. apply (leb_val _ (PFlt t) Fa Ft). rewrite Va, Vd, val_sfR. exact C.
Qed.

(** The sign of a computed product. *)
Lemma prod_pos f g : fin64 f -> fin64 g -> nltb (nflt 0 1) (nmul (PFlt f) (PFlt g)) = true -> 0 < sfR f * sfR g.
Proof.
  intros F G L. change (nflt 0 1) with (fl 0 1) in L. rewrite fl_zero in L. cbn [nltb nmul PNum arith2 tofl] in L.
  destruct (Rlt_le_dec 0 (sfR f * sfR g)) as [|H]; auto. exfalso.
  assert (Fz : fin64 (S754_zero false)) by exact Logic.I.
  pose proof (rounds_mono _ _ _ _ (mul_rounds f g F G) (rounds_self _ Fz)) as M. cbn [sfR] in M. specialize (M H).
  unfold fle in M. unfold py_ltb in L. rewrite M in L. rewrite andb_false_r in L. discriminate.
Qed.

Definition least : spec_float := S754_finite false 1 (-1074).
Lemma prod_not_pos f g : fin64 f -> fin64 g -> nltb (nflt 0 1) (nmul (PFlt f) (PFlt g)) = false -> sfR f * sfR g < bp (-1074).
Proof.
  intros F G L. change (nflt 0 1) with (fl 0 1) in L. rewrite fl_zero in L. cbn [nltb nmul PNum arith2 tofl] in L.
  destruct (Rlt_le_dec (sfR f * sfR g) (bp (-1074))) as [|H]; auto. exfalso.
  assert (Fz : fin64 (S754_zero false)) by exact Logic.I. assert (Fl : fin64 least) by reflexivity.
  assert (Vl : sfR least = bp (-1074)) by (cbn [least sfR signed]; ring). pose proof (bp_pos (-1074)) as P.
  pose proof (mul_rounds f g F G) as R. set (p := SFmul f64 e64 f g) in *.
  pose proof (rounds_mono _ _ _ _ (rounds_self _ Fl) R) as M1. rewrite Vl in M1. specialize (M1 H).
  pose proof (rounds_mono _ _ _ _ (rounds_self _ Fz) R) as M2. cbn [sfR] in M2. specialize (M2 ltac:(lra)).
  unfold py_ltb in L. unfold fle in M2. rewrite M2 in L. cbn [andb] in L. apply negb_false_iff in L.
  destruct (rounds_fin _ _ R) as [Fp|(s & E)].
  - apply (fle_R p (S754_zero false) Fp Fz) in L. apply (fle_R least p Fl Fp) in M1. cbn [sfR] in L. rewrite Vl in M1. lra.
  - rewrite E in L, M2. destruct s; [discriminate M2|discriminate L].
Qed.

Lemma tiny_prod a b t : bp (-500) <= t -> t < Rabs a -> a * b < bp (-1074) -> a * b < 0 \/ Rabs b <= t.
Proof.
  intros B La H. destruct (Rlt_le_dec (a * b) 0) as [|G]; [now left|right]. destruct (Rle_lt_dec (Rabs b) t) as [|Lb]; auto. exfalso.
  assert (E : a * b = Rabs a * Rabs b) by (rewrite <- Rabs_mult; symmetry; apply Rabs_right; lra).
  pose proof (bp_pos (-500)) as P. assert (K : bp (-500) * bp (-500) <= Rabs a * Rabs b) by (apply Rmult_le_compat; lra).
  rewrite <- bp_add in K. pose proof (bp_le (-1074) (-500 + -500) ltac:(lia)). lra.
Qed.

Section Signs.
Variable func : pynum -> res pynum.
Variables tol lo0 hi0 : pynum.
Hypothesis Ht : tol_ok tol.
Hypothesis Hv : forall x y, good lo0 hi0 x -> func x = Ok y -> finite_double y.

Definition answer (x : pynum) : Prop :=
  (exists y, func x = Ok y /\ Rabs (val y) <= val tol) \/
  exists a b ya yb, good lo0 hi0 a /\ good lo0 hi0 b /\ inR (val a) (val b) (val x) /\ func a = Ok ya /\ func b = Ok yb /\
    straddle (val tol) ya yb /\ close_enough (val tol) a b.

Definition crossing (lo hi : pynum) : Prop :=
  exists yl yh, func lo = Ok yl /\ func hi = Ok yh /\ straddle (val tol) yl yh.

Lemma loop_signs fuel : forall lo hi max_its i x n, good lo0 hi0 lo -> good lo0 hi0 hi ->
  crossing lo hi \/ keep_going hi lo tol (nsub hi lo) = Ok true ->
  bis_loop func fuel lo hi tol max_its true i = Ok (x, n) -> answer x /\ good lo0 hi0 x.
Proof.
  assert (Stop : forall lo hi (i : Z) x n, good lo0 hi0 lo -> good lo0 hi0 hi -> crossing lo hi \/ keep_going hi lo tol (nsub hi lo) = Ok true ->
    keep_going hi lo tol (nsub hi lo) = Ok false -> @Ok (pynum * Z) (ndiv (nadd lo hi) (nint 2), i) = Ok (x, n) -> answer x /\ good lo0 hi0 x).
  { intros lo hi i x n Gl Gh [(yl & yh & E1 & E2 & S)|C] G H; [|congruence]. injection H as <- _. split; [|now apply good_mid].
    right. exists lo, hi, yl, yh. split; auto. split; auto. split; [exact (proj2 (mid_mild lo hi (proj1 Gl) (proj1 Gh)))|]. split; auto. split; auto. split; auto.
    pose proof (go_on lo hi tol (proj1 Gl) (proj1 Gh) Ht) as K. now rewrite G in K. }
  induction fuel as [|fuel IH]; intros lo hi max_its i x n Gl Gh C; cbn [bis_loop];
    (destruct (keep_going hi lo tol (nsub hi lo)) as [[]|] eqn:G; cbn [bind negb]; [|intros H; apply (Stop lo hi i x n); auto; now rewrite G|discriminate]); [discriminate|].
  destruct (func lo) as [yl|] eqn:El; [|discriminate]. cbn [bind]. destruct (func hi) as [yh|] eqn:Eh; [|discriminate]. cbn [bind].
  destruct (proj1 (finite_double_fin _) (Hv _ _ Gl El)) as (fl' & -> & Fl), (proj1 (finite_double_fin _) (Hv _ _ Gh Eh)) as (fh & -> & Fh).
  destruct (zero_close fl' tol Fl Ht) as (b1 & E1 & B1). rewrite E1. cbn [bind].
  destruct b1.
  { intros [= <- _]. split; auto. left. exists (PFlt fl'). split; auto. rewrite (val_sfR fl'). now apply B1. }
  destruct (zero_close fh tol Fh Ht) as (b2 & E2 & B2). rewrite E2. cbn [bind]. destruct b2.
  { intros [= <- _]. split; auto. left. exists (PFlt fh). split; auto. rewrite (val_sfR fh). now apply B2. }
  assert (L1 : val tol < Rabs (sfR fl')) by (destruct (Rlt_le_dec (val tol) (Rabs (sfR fl'))) as [|Q]; auto; apply B1 in Q; discriminate).
  assert (L2 : val tol < Rabs (sfR fh)) by (destruct (Rlt_le_dec (val tol) (Rabs (sfR fh))) as [|Q]; auto; apply B2 in Q; discriminate).
  assert (Bt : bp (-500) <= val tol) by (destruct Ht as (t & -> & _ & B); rewrite val_sfR; exact B).
  destruct (nisinf _ || nisinf _)%bool; [discriminate|]. destruct (nisnan _ || nisnan _)%bool; [discriminate|].
  destruct (nltb (nflt 0 1) (nmul (PFlt fl') (PFlt fh))) eqn:P; [discriminate|].
  apply prod_not_pos in P; auto. apply (tiny_prod _ _ _ Bt L1) in P. destruct P as [P|P]; [|lra].
  set (mid := ndiv (nadd lo hi) (nint 2)) in *. pose proof (good_mid lo0 hi0 lo hi Gl Gh : good lo0 hi0 mid) as Gm.
  destruct (func mid) as [ym|] eqn:Em; [|discriminate]. cbn [bind]. cbv zeta.
  destruct (proj1 (finite_double_fin _) (Hv _ _ Gm Em)) as (fm & -> & Fm).
  destruct (match max_its with Some m => _ | None => _ end); [discriminate|].
  destruct (nltb (nflt 0 1) (nmul (PFlt fl') (PFlt fm))) eqn:S.
  - apply prod_pos in S; auto. apply IH; auto. left. exists (PFlt fm), (PFlt fh). split; auto. split; auto. left. rewrite !val_sfR. nra.
  - apply prod_not_pos in S; auto. apply (tiny_prod _ _ _ Bt L1) in S. apply IH; auto. left. exists (PFlt fl'), (PFlt fm). split; auto. split; auto.
    unfold straddle. rewrite !val_sfR. tauto.
Qed.
End Signs.

Lemma bisection_crossing func fuel lo hi tol max_its x n : starting lo -> starting hi -> tolerance tol -> finite_valued lo hi func ->
  bisection func fuel lo hi tol max_its true = Ok (x, n) ->
  (exists y, func x = Ok y /\ Rabs (val y) <= val tol) \/
  exists a b ya yb, between lo hi a /\ between lo hi b /\ between a b x /\ func a = Ok ya /\ func b = Ok yb /\
    straddle (val tol) ya yb /\ close_enough (val tol) a b.
Proof.
  intros Sl Sh St Hv H. apply starting_mild in Sl, Sh. apply tolerance_ok in St.
  unfold bisection in H. rewrite (proj1 (mild_noinf lo Sl)), (proj1 (mild_noinf hi Sh)), (proj2 (mild_noinf lo Sl)), (proj2 (mild_noinf hi Sh)) in H.
  cbn [orb] in H. destruct (isclose hi lo tol) as [[]|e] eqn:E; cbn [bind] in H; [discriminate| |discriminate].
  destruct (match max_its with Some m => _ | None => _ end); [discriminate|].
  apply (loop_signs func tol lo hi St (fun x y Hx => Hv x y (good_between lo hi x Sl Sh Hx))) in H.
  - destruct H as ([A|(a & b & ya & yb & (Ma & Ia) & (Mb & Ib) & Ix & R)] & (Mx & _)); [now left|right].
    destruct (mild_fin lo Sl) as (Fl & _), (mild_fin hi Sh) as (Fh & _), (mild_fin a Ma) as (Fa & _), (mild_fin b Mb) as (Fb & _), (mild_fin x Mx) as (Fx & _).
    exists a, b, ya, yb. split; [now apply inR_between|]. split; [now apply inR_between|]. split; [now apply inR_between|exact R].
  - split; [exact Sl|apply inR_l].
  - split; [exact Sh|apply inR_r].
  - right. now apply starts_apart.
Qed.

(** ** Succeeding *)

Lemma prod_neg f g : fin64 f -> fin64 g -> sfR f * sfR g <= 0 -> nltb (nflt 0 1) (nmul (PFlt f) (PFlt g)) = false.
Proof.
  intros F G L. destruct (nltb _ _) eqn:E; auto. apply prod_pos in E; auto. lra.
Qed.

Section Succeeding.
Variable func : pynum -> res pynum.
Variables tol lo0 hi0 : pynum.
Hypothesis Ht : tol_ok tol.
Hypothesis Hv : forall x, good lo0 hi0 x -> exists y, func x = Ok y /\ finite_double y.

Lemma loop_succeeds fuel : forall lo hi i, good lo0 hi0 lo -> good lo0 hi0 hi -> crossing func tol lo hi ->
  bis_loop func fuel lo hi tol None true i = Err Diverges \/ exists r, bis_loop func fuel lo hi tol None true i = Ok r.
Proof.
  induction fuel as [|fuel IH]; intros lo hi i Gl Gh C; cbn [bis_loop]; pose proof (proj1 Gl) as Ml; pose proof (proj1 Gh) as Mh; pose proof (go_on lo hi tol Ml Mh Ht) as K;
    (destruct (keep_going hi lo tol (nsub hi lo)) as [[]|] eqn:G; cbn [bind negb]; [|right; eexists; reflexivity|contradiction]); [now left|].
  destruct C as (yl & yh & El & Eh & S). rewrite El, Eh. cbn [bind].
  assert (Fv : forall x y, good lo0 hi0 x -> func x = Ok y -> exists f, y = PFlt f /\ fin64 f).
  { intros x y Gx E. destruct (Hv x Gx) as (y' & E' & F). rewrite E in E'. injection E' as <-. now apply finite_double_fin. }
  destruct (Fv _ _ Gl El) as (f & -> & F), (Fv _ _ Gh Eh) as (g & -> & H).
  destruct (zero_close f tol F Ht) as (b1 & E1 & B1). rewrite E1. cbn [bind]. destruct b1; [right; eexists; reflexivity|].
  destruct (zero_close g tol H Ht) as (b2 & E2 & B2). rewrite E2. cbn [bind]. destruct b2; [right; eexists; reflexivity|].
  cbn [nisinf nisnan PNum]. rewrite (proj1 (fin_noinf f F)), (proj1 (fin_noinf g H)), (proj2 (fin_noinf f F)), (proj2 (fin_noinf g H)). cbn [orb].
  assert (L1 : val tol < Rabs (sfR f)) by (destruct (Rlt_le_dec (val tol) (Rabs (sfR f))) as [|Q]; auto; apply B1 in Q; discriminate).
  unfold straddle in S. rewrite !val_sfR in S. destruct S as [S|[S|S]]; [|apply B1 in S; discriminate|apply B2 in S; discriminate].
  rewrite prod_neg by (auto; lra). pose proof (good_mid lo0 hi0 lo hi Gl Gh) as Gm.
  set (mid := ndiv (nadd lo hi) (nint 2)) in *. destruct (Hv mid Gm) as (ym & Em & _). rewrite Em. cbn [bind]. cbv zeta.
  destruct (Fv _ _ Gm Em) as (m & -> & Fm).
  assert (Bt : bp (-500) <= val tol) by (destruct Ht as (t & -> & _ & B); rewrite val_sfR; exact B).
  destruct (nltb (nflt 0 1) (nmul (PFlt f) (PFlt m))) eqn:P.
  - apply prod_pos in P; auto. apply IH; auto. exists (PFlt m), (PFlt g). split; auto. split; auto. left. rewrite !val_sfR. nra.
  - apply prod_not_pos in P; auto. apply (tiny_prod _ _ _ Bt L1) in P. apply IH; auto. exists (PFlt f), (PFlt m). split; auto. split; auto.
    unfold straddle. rewrite !val_sfR. tauto.
Qed.
End Succeeding.

Lemma isclose_total a b tol : tol_ok tol -> exists c, isclose a b tol = Ok c.
Proof.
  intros Ht. unfold isclose. rewrite (tol_nonneg tol Ht). destruct (neqb a b); [eauto|]. destruct (nisinf a || nisinf b)%bool; eauto.
Qed.

Lemma bisection_succeeds func fuel lo hi tol yl yh : starting lo -> starting hi -> tolerance tol ->
  (forall x, in_bracket lo hi x -> exists y, func x = Ok y /\ finite_double y) -> isclose hi lo tol = Ok false ->
  func lo = Ok yl -> func hi = Ok yh -> val yl * val yh <= 0 -> (1800 <= Z.of_nat fuel)%Z ->
  exists x n, bisection func fuel lo hi tol default_max_its true = Ok (x, n) /\ (n <= 1800)%Z.
Proof.
  intros Sl Sh St Hv E El Eh S Hf.
  assert (Hd : forall x, in_bracket lo hi x -> func x <> Err Diverges) by (intros x Hx; destruct (Hv x Hx) as (y & -> & _); discriminate).
  destruct (default_limit func fuel lo hi tol true Sl Sh St Hd Hf) as (A & B & C). rewrite A in *.
  assert (K : exists r, bisection func fuel lo hi tol None true = Ok r).
  { apply starting_mild in Sl, Sh. apply tolerance_ok in St.
    assert (X : crossing func tol lo hi).
    { exists yl, yh. split; auto. split; auto. destruct (Rle_lt_or_eq_dec _ _ S) as [L|L]; [now left|right].
      assert (0 <= val tol) by (destruct St as (t & -> & _ & B0); rewrite val_sfR; pose proof (bp_pos (-500)); lra).
      apply Rmult_integral in L. destruct L as [L|L]; rewrite L, Rabs_R0; auto. }
    destruct (loop_succeeds func tol lo hi St (fun x Hx => Hv x (good_between lo hi x Sl Sh Hx)) fuel lo hi 0 (good_l lo hi Sl) (good_r lo hi Sh) X) as [D|(r & D)].
    - exfalso. apply B. unfold bisection.
      rewrite (proj1 (mild_noinf lo Sl)), (proj1 (mild_noinf hi Sh)), (proj2 (mild_noinf lo Sl)), (proj2 (mild_noinf hi Sh)), E. exact D.
    - exists r. unfold bisection.
      rewrite (proj1 (mild_noinf lo Sl)), (proj1 (mild_noinf hi Sh)), (proj2 (mild_noinf lo Sl)), (proj2 (mild_noinf hi Sh)), E. exact D. }
  destruct K as ((x & n) & K). exists x, n. split; auto. now apply C in K.
Qed.

(** Same signs, both beyond the tolerance: rejected. *)
Lemma same_signs_rejected func fuel lo hi tol max_its fail yl yh : starting lo -> starting hi -> tolerance tol ->
  func lo = Ok yl -> func hi = Ok yh -> finite_double yl -> finite_double yh -> 0 < val yl * val yh ->
  val tol < Rabs (val yl) -> val tol < Rabs (val yh) -> (0 < fuel)%nat ->
  bisection func fuel lo hi tol max_its fail = Err ValueError.
Proof.
  intros Sl Sh St El Eh Fl Fh P L1 L2 Hf. apply starting_mild in Sl, Sh. apply tolerance_ok in St. unfold bisection.
  rewrite (proj1 (mild_noinf lo Sl)), (proj1 (mild_noinf hi Sh)), (proj2 (mild_noinf lo Sl)), (proj2 (mild_noinf hi Sh)). cbn [orb].
  destruct (isclose hi lo tol) as [[]|] eqn:E; [reflexivity| |destruct (isclose_total hi lo tol St); congruence]. cbn [bind].
  destruct (match max_its with Some m => _ | None => _ end); [reflexivity|].
  destruct fuel as [|fuel]; [lia|]. cbn [bis_loop]. rewrite (starts_apart lo hi tol Sl Sh St E). cbn [bind negb].
  rewrite El, Eh. cbn [bind]. apply finite_double_fin in Fl, Fh. destruct Fl as (f & -> & F), Fh as (g & -> & H). rewrite !val_sfR in *.
  destruct (zero_close f tol F St) as (b1 & E1 & B1). rewrite E1. cbn [bind]. destruct b1; [exfalso; pose proof (proj1 B1 eq_refl); lra|].
  destruct (zero_close g tol H St) as (b2 & E2 & B2). rewrite E2. cbn [bind]. destruct b2; [exfalso; pose proof (proj1 B2 eq_refl); lra|].
  cbn [nisinf nisnan PNum]. rewrite (proj1 (fin_noinf f F)), (proj1 (fin_noinf g H)), (proj2 (fin_noinf f F)), (proj2 (fin_noinf g H)). cbn [orb].
  destruct (nltb (nflt 0 1) (nmul (PFlt f) (PFlt g))) eqn:Q; [reflexivity|]. exfalso.
  assert (Bt : bp (-500) <= val tol) by (destruct St as (t & -> & _ & B); rewrite val_sfR; exact B).
  apply prod_not_pos in Q; auto. apply (tiny_prod _ _ _ Bt L1) in Q. lra.
Qed.
