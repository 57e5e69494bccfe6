(** C81 on doubles: bisection stays in the bracket. *)

From Coq Require Import ZArith Reals List Bool Lra Lia Floats.SpecFloat.
From Verif Require Import Base Num RNum PyNum Solvers FloatSpec FloatRound FloatOps FloatFacts.
Open Scope R_scope.

(** The value of a finite number. *)
Definition numR (x : pynum) : R := match x with PInt z => IZR z | PFlt f => sfR f end.

Definition fin_num (x : pynum) : Prop := match x with PInt _ => True | PFlt f => fin64 f end.

Lemma num_le x y : fin_num x -> fin_num y -> nleb x y = true <-> numR x <= numR y.
Proof.
  destruct x as [a|f], y as [b|g]; cbn [fin_num numR nleb PNum]; intros Hx Hy.
  - unfold py_leb. cbn [to_ext]. rewrite ext_leb_R, bp_0, !Rmult_1_r. reflexivity.
  - now apply int_fle_R.
  - now apply fle_int_R.
  - now apply fle_R.
Qed.

(** What is used of a guess: it is a double (or an int that is one) and so is its double. *)
Definition safe (x : pynum) : Prop := fin_num x /\
  exists q e, numR x = IZR q * bp e /\ (Z.abs q <= 2 ^ 53)%Z /\ (-1074 <= e)%Z /\ Rabs (numR x) < bp 1023 /\
  fin64 (tofl x) /\ sfR (tofl x) = numR x.

Lemma Rabs_bp q e : Rabs (IZR q * bp e) = IZR (Z.abs q) * bp e.
Proof. rewrite Rabs_mult, abs_IZR. f_equal. apply Rabs_right. pose proof (bp_pos e). lra. Qed.

Lemma int_double z : (Z.abs z <= 2 ^ 53)%Z -> fin64 (sf_of_Z z) /\ sfR (sf_of_Z z) = IZR z.
Proof.
  intros H. pose proof (of_Z_rounds z) as Rz. replace (IZR z) with (IZR z * bp 0) in Rz by (rewrite bp_0; ring).
  destruct (rounds_exact z 0 (sf_of_Z z)) as [A B]; auto; try lia.
  - rewrite Rabs_bp, bp_0, Rmult_1_r. apply Rle_lt_trans with (bp 53); [|apply bp_lt; lia].
    rewrite bp_Z by lia. now apply IZR_le.
  - split; auto. rewrite B, bp_0. ring.
Qed.

Lemma float_safe f : fin64 f -> Rabs (sfR f) < bp 1023 -> safe (PFlt f).
Proof.
  intros F H. split; [exact F|]. destruct (sfR_quantum f F) as (q & e & E & Q & X). exists q, e.
  cbn [numR tofl]. repeat split; auto. lia.
Qed.

Lemma abs_value f : fin64 f -> fin64 (SFabs f) /\ sfR (SFabs f) = Rabs (sfR f).
Proof.
  destruct f as [s| | |s m e]; cbn [fin64 SFabs sfR]; try contradiction; intros H.
  - split; auto. now rewrite Rabs_R0.
  - split; auto. pose proof (bp_pos e) as B. pose proof (IZR_lt 0 (Zpos m) eq_refl) as M.
    assert (0 < IZR (Z.pos m) * bp e) by nra. destruct s; cbn [signed].
    + rewrite Rabs_Ropp. symmetry. apply Rabs_right. lra.
    + symmetry. apply Rabs_right. lra.
Qed.

Lemma guess_safe x : guess x -> safe x.
Proof.
  intros [(z & -> & Hz)|(F & L)].
  - split; [exact I|]. exists z, 0%Z. cbn [numR tofl]. rewrite bp_0, Rmult_1_r. split; auto. split; auto. split; [lia|].
    split; [|now apply int_double]. rewrite <- abs_IZR. apply Rle_lt_trans with (bp 53); [|apply bp_lt; lia].
    rewrite bp_Z by lia. now apply IZR_le.
  - apply finite_double_fin in F. destruct F as (f & -> & F). apply float_safe; auto.
    destruct (abs_value f F) as [Fa Va]. rewrite <- Va. cbn [nabs nltb PNum] in L. unfold py_ltb in L.
    apply andb_true_iff in L. destruct L as [_ L]. apply negb_true_iff in L.
    destruct (Rlt_le_dec (sfR (SFabs f)) (bp 1023)) as [|G]; auto. exfalso.
    rewrite (bp_Z 1023) in G by lia. apply (int_fle_R _ _ Fa) in G. congruence.
Qed.

Lemma double_safe x : safe x -> exists f, fin64 f /\ sfR f = 2 * numR x.
Proof.
  intros (_ & q & e & E & Q & X & B & _). destruct (double_exists q (e + 1)) as (f & F & V); auto; try lia.
  - rewrite bp_add, bp_1. replace (IZR q * (bp e * 2)) with (2 * (IZR q * bp e)) by ring. rewrite <- E, Rabs_mult.
    rewrite (Rabs_right 2) by lra. replace 1024%Z with (1023 + 1)%Z by lia. rewrite bp_add, bp_1. lra.
  - exists f. split; auto. rewrite V, bp_add, bp_1, E. ring.
Qed.

Lemma sum_rounds x y : safe x -> safe y -> rounds (numR x + numR y) (tofl (nadd x y)).
Proof.
  intros (_ & q & e & _ & _ & _ & _ & Fx & Vx) (_ & q' & e' & _ & _ & _ & _ & Fy & Vy).
  destruct x as [a|f], y as [b|g]; cbn [nadd PNum arith2 tofl numR] in *.
  - rewrite <- plus_IZR. apply of_Z_rounds.
  - rewrite <- Vx. now apply add_rounds.
  - rewrite <- Vy. now apply add_rounds.
  - now apply add_rounds.
Qed.

(** The midpoint is between the ends, as computed. *)
Lemma mid_le x y : safe x -> safe y -> numR x <= numR y ->
  let m := ndiv (nadd x y) (nint 2) in safe m /\ numR x <= numR m <= numR y.
Proof.
  intros Sx Sy L. cbv zeta. pose proof (sum_rounds x y Sx Sy) as Rs. set (g := tofl (nadd x y)) in *.
  destruct (double_safe x Sx) as (x2 & Fx2 & Vx2), (double_safe y Sy) as (y2 & Fy2 & Vy2).
  destruct (rounds_between _ _ x2 y2 Rs Fx2 Fy2 ltac:(lra)) as (Fg & G1 & G2).
  change (ndiv (nadd x y) (nint 2)) with (PFlt (SFdiv f64 e64 g (sf_of_Z 2))). rewrite two_fin.
  assert (N2 : sfR (S754_finite false 4503599627370496 (-51)) <> 0) by (rewrite two_val; lra).
  assert (F2 : fin64 (S754_finite false 4503599627370496 (-51))) by reflexivity.
  pose proof (div_rounds g _ Fg F2 N2) as Rd. rewrite two_val in Rd.
  destruct Sx as (_ & q & e & _ & _ & _ & Bx & Fx & Vx). destruct Sy as (_ & q' & e' & _ & _ & _ & By & Fy & Vy).
  destruct (rounds_between _ _ (tofl x) (tofl y) Rd Fx Fy ltac:(lra)) as (Fm & M1 & M2). cbn [numR].
  rewrite Vx in M1. rewrite Vy in M2. split; [|lra].
  apply float_safe; auto. apply Rabs_def1; apply Rabs_def2 in Bx, By; lra.
Qed.

Lemma add_comm_value x y : numR x + numR y = numR y + numR x.
Proof. ring. Qed.

Definition inR (a b x : R) : Prop := (a <= x <= b) \/ (b <= x <= a).

Lemma mid_between x y : safe x -> safe y ->
  let m := ndiv (nadd x y) (nint 2) in safe m /\ inR (numR x) (numR y) (numR m).
Proof.
  intros Sx Sy. cbv zeta. destruct (Rle_lt_dec (numR x) (numR y)) as [L|L].
  - destruct (mid_le x y Sx Sy L) as [A B]. split; auto. now left.
  - pose proof (sum_rounds x y Sx Sy) as Rs. set (g := tofl (nadd x y)) in *.
    destruct (double_safe x Sx) as (x2 & Fx2 & Vx2), (double_safe y Sy) as (y2 & Fy2 & Vy2).
    destruct (rounds_between _ _ y2 x2 Rs Fy2 Fx2 ltac:(lra)) as (Fg & G1 & G2).
    change (ndiv (nadd x y) (nint 2)) with (PFlt (SFdiv f64 e64 g (sf_of_Z 2))). rewrite two_fin.
    assert (N2 : sfR (S754_finite false 4503599627370496 (-51)) <> 0) by (rewrite two_val; lra).
    assert (F2 : fin64 (S754_finite false 4503599627370496 (-51))) by reflexivity.
    pose proof (div_rounds g _ Fg F2 N2) as Rd. rewrite two_val in Rd.
    destruct Sx as (_ & q & e & _ & _ & _ & Bx & Fx & Vx). destruct Sy as (_ & q' & e' & _ & _ & _ & By & Fy & Vy).
    destruct (rounds_between _ _ (tofl y) (tofl x) Rd Fy Fx ltac:(lra)) as (Fm & M1 & M2). cbn [numR].
    rewrite Vy in M1. rewrite Vx in M2. split; [|right; lra].
    apply float_safe; auto. apply Rabs_def1; apply Rabs_def2 in Bx, By; lra.
Qed.

Lemma inR_trans a b x y z : inR a b x -> inR a b y -> inR x y z -> inR a b z.
Proof. unfold inR. lra. Qed.

Lemma inR_l a b : inR a b a.
Proof. unfold inR. lra. Qed.
Lemma inR_r a b : inR a b b.
Proof. unfold inR. lra. Qed.

Section Loop.
Variable func : pynum -> res pynum.
Variables a b : pynum.

Definition ok_point (x : pynum) : Prop := safe x /\ inR (numR a) (numR b) (numR x).

Lemma ok_mid x y : ok_point x -> ok_point y -> ok_point (ndiv (nadd x y) (nint 2)).
Proof.
  intros [Sx Ix] [Sy Iy]. destruct (mid_between x y Sx Sy) as [Sm Im]. split; auto. exact (inR_trans _ _ _ _ _ Ix Iy Im).
Qed.

Lemma loop_inside fuel : forall lo hi tol max_its fail i x n, ok_point lo -> ok_point hi ->
  bis_loop func fuel lo hi tol max_its fail i = Ok (x, n) -> ok_point x.
Proof.
  induction fuel as [|fuel IH]; intros lo hi tol max_its fail i x n Hl Hh; cbn [bis_loop];
    (destruct (keep_going _ _ _ _) as [[]|]; cbn [bind negb]; [|intros [= <- _]; now apply ok_mid|discriminate]); [discriminate|].
  destruct (func lo) as [yl|]; [|discriminate]. cbn [bind]. destruct (func hi) as [yh|]; [|discriminate]. cbn [bind].
  destruct (isclose yl _ _) as [[]|]; [intros [= <- _]; auto| |discriminate]. cbn [bind].
  destruct (isclose yh _ _) as [[]|]; [intros [= <- _]; auto| |discriminate]. cbn [bind].
  destruct (nisinf yl || nisinf yh)%bool; [discriminate|]. destruct (nisnan yl || nisnan yh)%bool; [discriminate|].
  destruct (nltb _ (nmul yl yh)); [discriminate|]. destruct (func _) as [ym|]; [|discriminate]. cbn [bind]. cbv zeta.
  pose proof (ok_mid lo hi Hl Hh) as Hm.
  assert (K : forall b' : bool, ok_point (if b' then ndiv (nadd lo hi) (nint 2) else lo) /\ ok_point (if b' then hi else ndiv (nadd lo hi) (nint 2)))
    by (intros []; auto).
  destruct (K (nltb (nflt 0 1) (nmul yl ym))) as [K1 K2].
  destruct (match max_its with Some m => _ | None => _ end).
  - destruct fail; [discriminate|]. intros [= <- _]. now apply ok_mid.
  - now apply IH.
Qed.
End Loop.

Lemma bisection_double (func : pynum -> res pynum) fuel lo hi tol max_its fail x n : guess lo -> guess hi ->
  bisection func fuel lo hi tol max_its fail = Ok (x, n) -> between lo hi x /\ nisinf x = false /\ nisnan x = false.
Proof.
  intros Gl Gh H. apply guess_safe in Gl, Gh.
  assert (K : ok_point lo hi x).
  { unfold bisection in H. destruct (nisinf lo || nisinf hi)%bool; [discriminate|]. destruct (nisnan lo || nisnan hi)%bool; [discriminate|].
    destruct (isclose _ _ _) as [[]|]; try discriminate. cbn [bind] in H. destruct (match max_its with Some m => _ | None => _ end); [discriminate|].
    eapply loop_inside; [| |exact H]; (split; [assumption|]); [apply inR_l|apply inR_r]. }
  destruct K as [(Fx & _) K]. destruct Gl as (Fl & _), Gh as (Fh & _). split.
  - unfold between. rewrite !num_le by assumption. exact K.
  - destruct x as [z|f]; auto. destruct f; try contradiction; auto.
Qed.
