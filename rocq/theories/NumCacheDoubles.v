(** Equal keys of the caches on Python's ints and doubles. *)

From Coq Require Import ZArith Reals Lra Lia List Bool Floats.SpecFloat.
From Verif Require Import Base Num PyNum IntFloat FloatRound FloatOps FloatFacts Symmetry NumFormulas NumS6 NumCache NumCacheFacts.
Import ListNotations.
Open Scope R_scope.

(** ** Doubles of the same value *)

(** The same bits, or two zeros. *)
Definition zs (f g : spec_float) : Prop := f = g \/ exists s t, f = S754_zero s /\ g = S754_zero t.

Lemma zs_refl f : zs f f.
Proof. now left. Qed.
Lemma zs_sym f g : zs f g -> zs g f.
Proof. intros [->|(s & t & -> & ->)]; [now left|]. right. now exists t, s. Qed.
Lemma zs_trans f g h : zs f g -> zs g h -> zs f h.
Proof.
  intros [->|(s & t & -> & ->)] [<-|(s' & t' & E & ->)]; try (now left); right; eauto.
Qed.

Lemma canonical_unique c x c' x' : bounded f64 e64 c x = true -> bounded f64 e64 c' x' = true ->
  IZR (Z.pos c) * bp x = IZR (Z.pos c') * bp x' -> c = c' /\ x = x'.
Proof.
  intros H H' E. destruct (bounded_split c x H) as [C _], (bounded_split c' x' H') as [C' _].
  apply Zeq_bool_eq in C, C'. pose proof (mag_pos c x) as M. pose proof (mag_pos c' x') as M'. rewrite <- E in M'.
  pose proof (mag_unique _ _ _ M M') as D. fold (fexp64 (Z.pos (digits2_pos c) + x)) in C.
  fold (fexp64 (Z.pos (digits2_pos c') + x')) in C'. rewrite D in C. assert (x = x') as -> by congruence. split; [|reflexivity].
  apply Rmult_eq_reg_r in E; [|pose proof (bp_pos x'); lra]. apply eq_IZR in E. now injection E.
Qed.

Lemma value_unique f g : fin64 f -> fin64 g -> sfR f = sfR g -> zs f g.
Proof.
  assert (P : forall c x, 0 < IZR (Z.pos c) * bp x).
  { intros c x. apply Rmult_lt_0_compat; [apply IZR_lt; lia|apply bp_pos]. }
  destruct f as [s| | |s c x], g as [t| | |t c' x']; cbn [fin64 sfR]; intros F G E; try contradiction.
  - right. eauto.
  - exfalso. specialize (P c' x'). destruct t; cbn in E; lra.
  - exfalso. specialize (P c x). destruct s; cbn in E; lra.
  - pose proof (P c x). pose proof (P c' x'). destruct s, t; cbn [signed] in E; try (exfalso; lra).
    + destruct (canonical_unique c x c' x' F G) as [-> ->]; [lra|now left].
    + destruct (canonical_unique c x c' x' F G) as [-> ->]; [lra|now left].
Qed.

(** Two valid doubles that Python calls equal. *)
Lemma flt_eqb f g : valid64 f -> valid64 g -> py_eqb (PFlt f) (PFlt g) = true -> zs f g.
Proof.
  intros F G E. unfold py_eqb in E. apply andb_true_iff in E. destruct E as [E1 E2].
  destruct (valid_cases f F) as [F'|[[s ->]| ->]], (valid_cases g G) as [G'|[[t ->]| ->]].
  - apply value_unique; auto. apply (fle_R f g F' G') in E1. apply (fle_R g f G' F') in E2. lra.
  - exfalso. destruct f, t; cbn in *; try discriminate; try contradiction.
  - exfalso. destruct f; cbn in *; discriminate.
  - exfalso. destruct g, s; cbn in *; try discriminate; try contradiction.
  - destruct s, t; cbn in *; try discriminate; now left.
  - exfalso. destruct s; cbn in *; discriminate.
  - exfalso. destruct g; cbn in *; discriminate.
  - exfalso. destruct t; cbn in *; discriminate.
  - cbn in E1. discriminate.
Qed.

(** ** Ints that are doubles *)

Definition flo (x : pynum) : pynum := PFlt (tofl x).

Lemma int_value z : (Z.abs z <= 2 ^ 53)%Z -> fin64 (sf_of_Z z) /\ sfR (sf_of_Z z) = IZR z.
Proof.
  intros B. pose proof (of_Z_rounds z) as Q. replace (IZR z) with (IZR z * bp 0) in * by (rewrite bp_0; ring).
  apply (rounds_exact z 0); auto; [lia|]. rewrite bp_0, Rmult_1_r, <- abs_IZR.
  apply Rle_lt_trans with (bp 53); [rewrite bp_Z by lia; now apply IZR_le|apply bp_lt; lia].
Qed.

(** A valid double, or an int of at most [b]. *)
Definition machine (b : Z) (x : pynum) : Prop :=
  match x with PInt z => (Z.abs z <= b)%Z | PFlt f => valid_binary f64 e64 f = true end.
Lemma machine_le b b' x : (b <= b')%Z -> machine b x -> machine b' x.
Proof. destruct x; cbn; [lia|auto]. Qed.
Lemma machine_valid b x : machine b x -> valid64 (tofl x).
Proof. destruct x; cbn; [intros _; apply valid_of_Z|auto]. Qed.

Lemma int_flt_eqb z g : (Z.abs z <= 2 ^ 53)%Z -> valid64 g ->
  py_leb (PInt z) (PFlt g) = true -> py_leb (PFlt g) (PInt z) = true -> zs (sf_of_Z z) g.
Proof.
  intros B G E1 E2. destruct (int_value z B) as [F V]. destruct (valid_cases g G) as [G'|[[s ->]| ->]].
  - apply value_unique; auto. apply int_fle_R in E1; auto. apply fle_int_R in E2; auto. lra.
  - destruct s; cbn in *; discriminate.
  - cbn in *; discriminate.
Qed.

Lemma eqb_zs x y : machine (2 ^ 53) x -> machine (2 ^ 53) y -> py_eqb x y = true -> zs (tofl x) (tofl y).
Proof.
  intros X Y E. destruct x as [z|f], y as [z'|g]; cbn [tofl machine] in *.
  - unfold py_eqb in E. apply andb_true_iff in E. destruct E as [E1 E2]. unfold py_leb in E1, E2. cbn [to_ext] in E1, E2.
    apply ext_leb_R in E1, E2. rewrite bp_0 in E1, E2. assert (z = z') as -> by (apply eq_IZR; lra). apply zs_refl.
  - unfold py_eqb in E. apply andb_true_iff in E. now apply int_flt_eqb.
  - unfold py_eqb in E. apply andb_true_iff in E. apply zs_sym. now apply int_flt_eqb.
  - now apply flt_eqb.
Qed.

(** ** The operations *)

Lemma one_flt : sf_of_Z 1 = S754_finite false 4503599627370496 (-52).
Proof. vm_compute. reflexivity. Qed.

Lemma zs_mul f f' g g' : zs f f' -> zs g g' -> zs (SFmul f64 e64 f g) (SFmul f64 e64 f' g').
Proof.
  intros [->|(s & t & -> & ->)] [->|(s' & t' & -> & ->)]; try apply zs_refl.
  - destruct f' as [u|u| |u c x]; cbn; try apply zs_refl; right; eauto.
  - destruct g' as [u|u| |u c x]; cbn; try apply zs_refl; right; eauto.
  - cbn. right; eauto.
Qed.
Lemma zs_square f f' : zs f f' -> SFmul f64 e64 f f = SFmul f64 e64 f' f'.
Proof. intros [->|(s & t & -> & ->)]; [reflexivity|]. cbn. now rewrite !xorb_nilpotent. Qed.
Lemma zs_div f f' g : zs f f' -> zs (SFdiv f64 e64 f g) (SFdiv f64 e64 f' g).
Proof.
  intros [->|(s & t & -> & ->)]; [apply zs_refl|].
  destruct g as [u|u| |u c x]; cbn; try apply zs_refl; right; eauto.
Qed.
Lemma zs_one f f' : zs f f' -> SFadd f64 e64 (sf_of_Z 1) f = SFadd f64 e64 (sf_of_Z 1) f'.
Proof. intros [->|(s & t & -> & ->)]; [reflexivity|]. rewrite one_flt. reflexivity. Qed.

(** [x / y] with a zero divisor. *)
Definition is_zero (f : spec_float) : bool := match f with S754_zero _ => true | _ => false end.
Lemma zero_eqb f : neqb (PFlt f) (nint 0) = is_zero f.
Proof.
  destruct f as [s|[]| |s c x]; try reflexivity. cbn [neqb PNum nint is_zero]. unfold py_eqb, py_leb. cbn [to_ext ext_leb].
  destruct s; [apply andb_false_iff; right|apply andb_false_iff; left]; apply Z.leb_gt;
    (assert (0 < 2 ^ (x - Z.min x 0))%Z by (apply Z.pow_pos_nonneg; lia));
    (assert (0 < 2 ^ (x - Z.min 0 x))%Z by (apply Z.pow_pos_nonneg; lia)); nia.
Qed.
Lemma int_zero_eqb z : neqb (PInt z) (nint 0) = (z =? 0)%Z.
Proof.
  cbn [neqb PNum nint]. unfold py_eqb, py_leb. cbn [to_ext ext_leb]. rewrite Z.min_id, Z.sub_diag, Z.pow_0_r, !Z.mul_1_r.
  apply eq_iff_eq_true. rewrite andb_true_iff, !Z.leb_le, Z.eqb_eq. lia.
Qed.
Lemma flo_zero_eqb y : machine (2 ^ 53) y -> neqb y (nint 0) = neqb (flo y) (nint 0).
Proof.
  destruct y as [z|g]; [|reflexivity]. intros B. unfold flo. cbn [tofl]. rewrite zero_eqb, int_zero_eqb.
  destruct (int_value z B) as [F V]. destruct (sf_of_Z z) as [s| | |s c x] eqn:E; try contradiction; cbn [is_zero].
  - apply Z.eqb_eq. apply eq_IZR. rewrite <- V. reflexivity.
  - apply Z.eqb_neq. intros ->. cbn in V. pose proof (bp_pos x).
    assert (0 < IZR (Z.pos c) * bp x) by (apply Rmult_lt_0_compat; [apply IZR_lt; lia|lra]). destruct s; cbn in V; lra.
Qed.

Lemma fdiv_eq f g : pydiv (PFlt f) (PFlt g) = if is_zero g then Err ZeroDivisionError else Ok (PFlt (SFdiv f64 e64 f g)).
Proof. unfold pydiv. rewrite zero_eqb. reflexivity. Qed.
Lemma flo_div x y : machine (2 ^ 53) y -> pydiv x y = pydiv (flo x) (flo y).
Proof. intros Y. unfold pydiv. rewrite <- (flo_zero_eqb y Y). reflexivity. Qed.

Lemma exact_zs n f : (Z.abs n <= 2 ^ 53)%Z -> rounds (IZR n) f -> zs (sf_of_Z n) f.
Proof.
  intros B Q. destruct (int_value n B) as [F V].
  replace (IZR n) with (IZR n * bp 0) in Q by (rewrite bp_0; ring).
  destruct (rounds_exact n 0 f B ltac:(lia)) as [FD VD]; auto.
  { rewrite bp_0, Rmult_1_r, <- abs_IZR. apply Rle_lt_trans with (bp 53); [rewrite bp_Z by lia; now apply IZR_le|apply bp_lt; lia]. }
  apply value_unique; auto. rewrite V, VD, bp_0. ring.
Qed.

(** Bounds on ints; nothing about floats. *)
Definition ib (b : Z) (x : pynum) : Prop := match x with PInt z => (Z.abs z <= b)%Z | PFlt _ => True end.
Lemma machine_ib b x : machine b x -> ib b x.
Proof. destruct x; cbn; auto. Qed.
Lemma ib_le b b' x : (b <= b')%Z -> ib b x -> ib b' x.
Proof. destruct x; cbn; [lia|auto]. Qed.

(** Products and sums of small ints. *)
Lemma flo_mul b b' x y : ib b x -> ib b' y -> (0 <= b <= 2 ^ 53)%Z -> (0 <= b' <= 2 ^ 53)%Z -> (b * b' <= 2 ^ 53)%Z ->
  zs (tofl (nmul x y)) (SFmul f64 e64 (tofl x) (tofl y)) /\ ib (b * b') (nmul x y).
Proof.
  intros X Y B B' BB. destruct x as [a|f], y as [c|g]; cbn [ib] in *; try (split; [apply zs_refl|exact I]).
  assert (AC : (Z.abs (a * c) <= b * b')%Z) by (rewrite Z.abs_mul; apply Z.mul_le_mono_nonneg; lia).
  cbn [nmul PNum arith2 tofl ib]. split; [|exact AC].
  destruct (int_value a ltac:(lia)) as [FA VA], (int_value c ltac:(lia)) as [FB VB].
  apply exact_zs; [lia|]. rewrite mult_IZR, <- VA, <- VB. now apply mul_rounds.
Qed.
Lemma flo_add b b' x y : ib b x -> ib b' y -> (0 <= b <= 2 ^ 53)%Z -> (0 <= b' <= 2 ^ 53)%Z -> (b + b' <= 2 ^ 53)%Z ->
  zs (tofl (nadd x y)) (SFadd f64 e64 (tofl x) (tofl y)) /\ ib (b + b') (nadd x y).
Proof.
  intros X Y B B' BB. destruct x as [a|f], y as [c|g]; cbn [ib] in *; try (split; [apply zs_refl|exact I]).
  cbn [nadd PNum arith2 tofl ib]. split; [|lia].
  destruct (int_value a ltac:(lia)) as [FA VA], (int_value c ltac:(lia)) as [FB VB].
  apply exact_zs; [lia|]. rewrite plus_IZR, <- VA, <- VB. now apply add_rounds.
Qed.
Lemma zs_add f f' g g' : zs f f' -> zs g g' -> zs (SFadd f64 e64 f g) (SFadd f64 e64 f' g').
Proof.
  intros [->|(s & t & -> & ->)] [->|(s' & t' & -> & ->)]; try apply zs_refl.
  - destruct f' as [u|u| |u c x]; cbn; try apply zs_refl. destruct (Bool.eqb u s'), (Bool.eqb u t'); right; eauto.
  - destruct g' as [u|u| |u c x]; cbn; try apply zs_refl. destruct (Bool.eqb s u), (Bool.eqb t u); right; eauto.
  - cbn. destruct (Bool.eqb s s'), (Bool.eqb t t'); right; eauto.
Qed.

(** ** The three functions *)

Definition fmul := SFmul f64 e64.
Definition fadd := SFadd f64 e64.
Definition fdiv := SFdiv f64 e64.
Definition pi64 : spec_float := S754_finite false 7074237752028440 (-51).

Section Functions.
Variable pw : pynum -> pynum -> res pynum.
Let half : pynum := nflt 1 2.
(** What is used of [x ** y]: both zeros have the same root and square, ints are converted, a root is a float. *)
Hypothesis pw_zero : forall e, e = nflt 1 2 \/ e = nint 2 -> pw (PFlt (S754_zero true)) e = pw (PFlt (S754_zero false)) e.
Hypothesis pw_int : forall z, (Z.abs z <= 2 ^ 53)%Z -> pw (PInt z) (nflt 1 2) = pw (PFlt (sf_of_Z z)) (nflt 1 2).
Hypothesis pw_float : forall x v, pw x (nflt 1 2) = Ok v -> nisfloat v = true.

Lemma pw_zs e f g : e = nflt 1 2 \/ e = nint 2 -> zs f g -> pw (PFlt f) e = pw (PFlt g) e.
Proof.
  intros He [->|(s & t & -> & ->)]; [reflexivity|]. destruct s, t; try reflexivity; [|symmetry]; now apply pw_zero.
Qed.

Definition squares (a b c d : spec_float) : spec_float :=
  fadd (fadd (fadd (fmul a a) (fmul b b)) (fmul c c)) (fmul d d).

Lemma rol_flo r_x r_y x_o y_o : machine (2 ^ 25) r_x -> machine (2 ^ 25) r_y -> machine (2 ^ 25) x_o -> machine (2 ^ 25) y_o ->
  nr_ol pw r_x r_y x_o y_o = pw (PFlt (squares (tofl r_x) (tofl r_y) (tofl x_o) (tofl y_o))) (nflt 1 2).
Proof.
  intros A B C D. apply machine_ib in A, B, C, D. unfold nr_ol.
  destruct (flo_mul _ _ r_x r_x A A ltac:(lia) ltac:(lia) ltac:(lia)) as [A1 A2].
  destruct (flo_mul _ _ r_y r_y B B ltac:(lia) ltac:(lia) ltac:(lia)) as [B1 B2].
  destruct (flo_mul _ _ x_o x_o C C ltac:(lia) ltac:(lia) ltac:(lia)) as [C1 C2].
  destruct (flo_mul _ _ y_o y_o D D ltac:(lia) ltac:(lia) ltac:(lia)) as [D1 D2].
  destruct (flo_add _ _ _ _ A2 B2 ltac:(lia) ltac:(lia) ltac:(lia)) as [E1 E2].
  destruct (flo_add _ _ _ _ E2 C2 ltac:(lia) ltac:(lia) ltac:(lia)) as [F1 F2].
  destruct (flo_add _ _ _ _ F2 D2 ltac:(lia) ltac:(lia) ltac:(lia)) as [G1 G2].
  set (v := nadd (nadd (nadd _ _) _) _) in *.
  assert (Z1 : zs (tofl v) (squares (tofl r_x) (tofl r_y) (tofl x_o) (tofl y_o))).
  { eapply zs_trans; [exact G1|]. apply zs_add; [|exact D1]. eapply zs_trans; [exact F1|]. apply zs_add; [|exact C1].
    eapply zs_trans; [exact E1|]. now apply zs_add. }
  rewrite <- (pw_zs _ _ _ (or_introl eq_refl) Z1). destruct v as [z|f]; [|reflexivity]. cbn [ib tofl] in *. apply pw_int.
  eapply Z.le_trans; [exact G2|]. vm_compute. discriminate.
Qed.

Lemma squares_zs a b c d a' b' c' d' : zs a a' -> zs b b' -> zs c c' -> zs d d' -> squares a b c d = squares a' b' c' d'.
Proof.
  intros A B C D. unfold squares, fmul. now rewrite (zs_square _ _ A), (zs_square _ _ B), (zs_square _ _ C), (zs_square _ _ D).
Qed.

Lemma zs_is_zero f g : zs f g -> is_zero f = is_zero g.
Proof. intros [->|(s & t & -> & ->)]; reflexivity. Qed.
Lemma zs_nonzero f g : zs f g -> is_zero f = false -> f = g.
Proof. intros [->|(s & t & -> & ->)]; [reflexivity|discriminate]. Qed.

Definition fet_core (A l r J I E G : spec_float) : res pynum :=
  let d1 := fmul (fmul A r) r in
  let d2 := fmul (fmul G J) (fmul l l) in
  if is_zero d1 then Err ZeroDivisionError
  else if is_zero d2 then Err ZeroDivisionError
  else Ok (PFlt (fmul (fdiv (fmul G J) d1) (fadd (sf_of_Z 1) (fdiv (fmul (fmul (fmul pi64 pi64) E) I) d2)))).

Lemma div_nan f : fdiv f S754_nan = S754_nan.
Proof. now destruct f. Qed.
Lemma add_nan f : fadd f S754_nan = S754_nan.
Proof. now destruct f. Qed.
Lemma mul_nan f : fmul f S754_nan = S754_nan.
Proof. now destruct f. Qed.

Lemma fet_zs A l r J I E G A' l' J' I' E' G' : zs A A' -> zs l l' -> zs J J' -> zs I I' -> zs E E' -> zs G G' ->
  fet_core A l r J I E G = fet_core A' l' r J' I' E' G'.
Proof.
  intros HA Hl HJ HI HE HG. unfold fet_core.
  assert (H1 : zs (fmul (fmul A r) r) (fmul (fmul A' r) r)).
  { apply zs_mul; [apply zs_mul; [exact HA|apply zs_refl]|apply zs_refl]. }
  assert (HGJ : zs (fmul G J) (fmul G' J')) by now apply zs_mul.
  assert (EL : fmul l l = fmul l' l') by now apply zs_square. rewrite <- EL.
  assert (HN : zs (fmul (fmul (fmul pi64 pi64) E) I) (fmul (fmul (fmul pi64 pi64) E') I')).
  { apply zs_mul; [apply zs_mul; [apply zs_refl|exact HE]|exact HI]. }
  revert H1 HGJ HN. generalize (fmul l l) as L, (fmul G J) as P, (fmul G' J') as P', (fmul (fmul A r) r) as D, (fmul (fmul A' r) r) as D',
    (fmul (fmul (fmul pi64 pi64) E) I) as N, (fmul (fmul (fmul pi64 pi64) E') I') as N'. clear.
  intros L P P' D D' N N' HD HP HN. rewrite <- (zs_is_zero _ _ HD). destruct (is_zero D) eqn:ZD; [reflexivity|].
  rewrite <- (zs_nonzero _ _ HD ZD). clear HD D'.
  destruct HP as [<-|(s & t & -> & ->)].
  - destruct (is_zero (fmul P L)); [reflexivity|]. do 3 f_equal. apply zs_one. now apply zs_div.
  - assert (Q : forall s, fmul (S754_zero s) L = S754_nan \/ is_zero (fmul (S754_zero s) L) = true)
      by (intros s'; destruct L as [u|u| |u c x]; cbn; auto).
    assert (Q' : fmul (S754_zero s) L = S754_nan <-> fmul (S754_zero t) L = S754_nan)
      by (destruct L as [u|u| |u c x]; cbn; split; intros; discriminate || reflexivity).
    destruct (Q s) as [E|E].
    + rewrite E, (proj1 Q' E). cbn [is_zero]. now rewrite !div_nan, !add_nan, !mul_nan.
    + rewrite E. destruct (Q t) as [E'|E']; [rewrite (proj2 Q' E') in E; discriminate E|]. now rewrite E'.
Qed.

Lemma fet_flo A l_ez r_x r_y x_o y_o J I_w E G : machine (2 ^ 25) l_ez -> nisfloat G || nisfloat J = true ->
  nf_euler_torsion pw A l_ez r_x r_y x_o y_o J I_w E G =
  (let! r_o := nr_ol pw r_x r_y x_o y_o in fet_core (tofl A) (tofl l_ez) (tofl r_o) (tofl J) (tofl I_w) (tofl E) (tofl G)).
Proof.
  intros ML GJ. unfold nf_euler_torsion. destruct (nr_ol pw r_x r_y x_o y_o) as [r_o|e] eqn:ER; [|reflexivity]. cbn [bind].
  unfold nr_ol in ER. apply pw_float in ER. destruct r_o as [|r]; [discriminate|]. clear ER.
  assert (E1 : nmul G J = PFlt (fmul (tofl G) (tofl J))) by (destruct G, J; try discriminate; reflexivity).
  assert (E2 : nmul (nmul A (PFlt r)) (PFlt r) = PFlt (fmul (fmul (tofl A) r) r)) by (destruct A; reflexivity).
  assert (E3 : nmul (nmul (nmul npi npi) E) I_w = PFlt (fmul (fmul (fmul pi64 pi64) (tofl E)) (tofl I_w)))
    by (destruct E, I_w; reflexivity).
  rewrite E1, E2, E3. apply machine_ib in ML.
  destruct (flo_mul _ _ l_ez l_ez ML ML ltac:(lia) ltac:(lia) ltac:(lia)) as [L1 L2].
  assert (E4 : forall f, nmul (PFlt f) (nmul l_ez l_ez) = PFlt (fmul f (tofl (nmul l_ez l_ez)))) by reflexivity.
  rewrite E4, fdiv_eq, fdiv_eq. unfold fet_core. cbn [tofl]. fold fmul in L1.
  assert (Z1 : zs (fmul (fmul (tofl G) (tofl J)) (tofl (nmul l_ez l_ez))) (fmul (fmul (tofl G) (tofl J)) (fmul (tofl l_ez) (tofl l_ez)))).
  { apply zs_mul; [apply zs_refl|exact L1]. }
  destruct (is_zero (fmul (fmul (tofl A) r) r)); [reflexivity|]. cbn [bind]. rewrite <- (zs_is_zero _ _ Z1).
  destruct (is_zero (fmul (fmul (tofl G) (tofl J)) (tofl (nmul l_ez l_ez)))) eqn:ZZ; [reflexivity|]. cbn [bind].
  rewrite <- (zs_nonzero _ _ Z1 ZZ). reflexivity.
Qed.

Definition eul_core (E l r : spec_float) : res pynum :=
  if is_zero r then Err ZeroDivisionError
  else let q := fdiv l r in
       if is_zero (fmul q q) then Err ZeroDivisionError else Ok (PFlt (fdiv (fmul (fmul pi64 pi64) E) (fmul q q))).
Lemma eul_flo E l r : machine (2 ^ 53) r -> nf_euler E l r = eul_core (tofl E) (tofl l) (tofl r).
Proof.
  intros R0. unfold nf_euler. rewrite (flo_div l r R0). unfold flo. rewrite fdiv_eq. unfold eul_core.
  destruct (is_zero (tofl r)); [reflexivity|]. cbn [bind].
  change (nmul (PFlt (SFdiv f64 e64 (tofl l) (tofl r))) (PFlt (SFdiv f64 e64 (tofl l) (tofl r))))
    with (PFlt (fmul (fdiv (tofl l) (tofl r)) (fdiv (tofl l) (tofl r)))).
  replace (nmul (nmul npi npi) E) with (PFlt (fmul (fmul pi64 pi64) (tofl E))) by (destruct E; reflexivity).
  apply fdiv_eq.
Qed.
Lemma eul_zs E l r E' l' r' : is_zero E = false -> zs E E' -> zs l l' -> zs r r' -> eul_core E l r = eul_core E' l' r'.
Proof.
  intros NE HE Hl Hr. rewrite <- (zs_nonzero _ _ HE NE). unfold eul_core. rewrite <- (zs_is_zero _ _ Hr).
  destruct (is_zero r) eqn:Z0; [reflexivity|]. rewrite <- (zs_nonzero _ _ Hr Z0).
  pose proof (zs_square _ _ (zs_div _ _ r Hl)) as Q. unfold fmul, fdiv in *. now rewrite Q.
Qed.

(** ** Calls whose keys determine the results *)

Definition safe (c : @ncall pynum) : Prop :=
  match c with
  | NRol _ r_x r_y x_o y_o => machine (2 ^ 25) r_x /\ machine (2 ^ 25) r_y /\ machine (2 ^ 25) x_o /\ machine (2 ^ 25) y_o
  | NFet _ A l_ez r_x r_y x_o y_o J I_w E G =>
      (machine (2 ^ 25) r_x /\ machine (2 ^ 25) r_y /\ machine (2 ^ 25) x_o /\ machine (2 ^ 25) y_o) /\
      machine (2 ^ 25) l_ez /\ machine (2 ^ 53) A /\ machine (2 ^ 53) J /\ machine (2 ^ 53) I_w /\
      machine (2 ^ 53) E /\ machine (2 ^ 53) G /\ nisfloat G || nisfloat J = true
  | NFox _ A l_ex l_ez r_x r_y x_o y_o J I_w E G =>
      ((machine (2 ^ 25) r_x /\ machine (2 ^ 25) r_y /\ machine (2 ^ 25) x_o /\ machine (2 ^ 25) y_o) /\
      machine (2 ^ 25) l_ez /\ machine (2 ^ 53) A /\ machine (2 ^ 53) J /\ machine (2 ^ 53) I_w /\
      machine (2 ^ 53) E /\ machine (2 ^ 53) G /\ nisfloat G || nisfloat J = true) /\
      machine (2 ^ 53) l_ex /\ neqb E (nint 0) = false
  end.

Variable same : pynum -> pynum -> bool.
Hypothesis same_eq : forall x y, same x y = true -> x = y.

Lemma key_zs b x y : (b <= 2 ^ 53)%Z -> machine b x -> machine b y -> same x y || neqb x y = true -> zs (tofl x) (tofl y).
Proof.
  intros B X Y H. apply orb_true_iff in H. destruct H as [H|H]; [apply same_eq in H; subst; apply zs_refl|].
  apply eqb_zs; auto; eapply machine_le; eauto.
Qed.

Lemma nums_cons x a y b : nums_eqb same (x :: a) (y :: b) = true -> same x y || neqb x y = true /\ nums_eqb same a b = true.
Proof. cbn [nums_eqb]. apply andb_true_iff. Qed.

Ltac unkey H := unfold nkey_eqb in H; cbn [ckey fst snd] in H; apply andb_true_iff in H;
  let O := fresh "O" in destruct H as [O H];
  repeat (let K := fresh "K" in apply nums_cons in H; destruct H as [K H]).

Lemma rol_respects r_x r_y x_o y_o r_x' r_y' x_o' y_o' :
  machine (2 ^ 25) r_x /\ machine (2 ^ 25) r_y /\ machine (2 ^ 25) x_o /\ machine (2 ^ 25) y_o ->
  machine (2 ^ 25) r_x' /\ machine (2 ^ 25) r_y' /\ machine (2 ^ 25) x_o' /\ machine (2 ^ 25) y_o' ->
  zs (tofl r_x) (tofl r_x') -> zs (tofl r_y) (tofl r_y') -> zs (tofl x_o) (tofl x_o') -> zs (tofl y_o) (tofl y_o') ->
  nr_ol pw r_x r_y x_o y_o = nr_ol pw r_x' r_y' x_o' y_o'.
Proof.
  intros (A & B & C & D) (A' & B' & C' & D') HA HB HC HD. rewrite !rol_flo by auto.
  now rewrite (squares_zs _ _ _ _ _ _ _ _ HA HB HC HD).
Qed.

Lemma safe_respects c c' : safe c -> safe c' -> ckind c = ckind c' -> nkey_eqb same (ckey c) (ckey c') = true ->
  uncached pw c = uncached pw c'.
Proof.
  assert (L25 : (2 ^ 25 <= 2 ^ 53)%Z) by (vm_compute; discriminate).
  assert (L53 : (2 ^ 53 <= 2 ^ 53)%Z) by lia.
  destruct c as [o r_x r_y x_o y_o|o A l_ez r_x r_y x_o y_o J I_w E G|o A l_ex l_ez r_x r_y x_o y_o J I_w E G],
    c' as [o' r_x' r_y' x_o' y_o'|o' A' l_ez' r_x' r_y' x_o' y_o' J' I_w' E' G'|o' A' l_ex' l_ez' r_x' r_y' x_o' y_o' J' I_w' E' G'];
    cbn [ckind safe uncached]; intros S S' KD H; try discriminate KD; clear KD.
  - unkey H. rewrite (rol_respects r_x r_y x_o y_o r_x' r_y' x_o' y_o'); auto;
      match goal with |- zs _ _ => eapply key_zs; [exact L25|..]; tauto end.
  - unkey H. destruct S as (R1 & S), S' as (R1' & S').
    rewrite (fet_flo A), (fet_flo A') by tauto.
    rewrite (rol_respects r_x r_y x_o y_o r_x' r_y' x_o' y_o'); auto;
      try (match goal with |- zs _ _ => eapply key_zs; [exact L25|..]; tauto end).
    destruct (nr_ol pw r_x' r_y' x_o' y_o') as [r_o|e]; [|reflexivity]. cbn [bind].
    match goal with |- (let! v := ?x in _) = (let! v' := ?y in _) => assert (x = y) as -> end; [|reflexivity].
    apply fet_zs; (first [eapply key_zs; [exact L25|..]; tauto|eapply key_zs; [exact L53|..]; tauto]).
  - unkey H. destruct S as ((R1 & S) & S2 & NE), S' as ((R1' & S') & S2' & NE').
    assert (Q1 : nr_ol pw r_x r_y x_o y_o = nr_ol pw r_x' r_y' x_o' y_o').
    { apply rol_respects; auto; (eapply key_zs; [exact L25|..]; tauto). }
    assert (Q2 : nf_euler_torsion pw A l_ez r_x r_y x_o y_o J I_w E G = nf_euler_torsion pw A' l_ez' r_x' r_y' x_o' y_o' J' I_w' E' G').
    { rewrite (fet_flo A), (fet_flo A') by tauto. rewrite Q1. destruct (nr_ol pw r_x' r_y' x_o' y_o') as [r_o|e]; [|reflexivity].
      cbn [bind]. apply fet_zs;
      (first [eapply key_zs; [exact L25|..]; tauto|eapply key_zs; [exact L53|..]; tauto]). }
    assert (Q3 : nf_euler E l_ex r_x = nf_euler E' l_ex' r_x').
    { rewrite !eul_flo by (eapply machine_le; [exact L25|tauto]). apply eul_zs.
      - rewrite (flo_zero_eqb E) in NE by tauto. unfold flo in NE. now rewrite zero_eqb in NE.
      - eapply key_zs; [exact L53|..]; tauto.
      - eapply key_zs; [exact L53|..]; tauto.
      - eapply key_zs; [exact L25|..]; tauto. }
    assert (X0 : zs (tofl x_o) (tofl x_o')) by (eapply key_zs; [exact L25|..]; tauto).
    unfold nf_oxz. rewrite Q1, Q2, Q3. destruct (nr_ol pw r_x' r_y' x_o' y_o') as [r_o|e]; [|reflexivity]. cbn [bind].
    unfold pydiv at 1 3. destruct (neqb r_o (nint 0)); [reflexivity|]. cbn [bind ndiv PNum].
    rewrite (pw_zs (nint 2) _ _ (or_intror eq_refl) (zs_div _ _ (tofl r_o) X0)). reflexivity.
Qed.

Theorem safe_history_free {A B} (h : list (client A)) (p : client B) : Forall (asks safe) h -> asks safe p ->
  fst (exec pw same p (after pw same h)) = plain pw p.
Proof.
  apply history_free; [| |exact safe_respects].
  - cbn [safe]. tauto.
  - cbn [safe]. tauto.
Qed.

(** ** The capacities *)

(** Arguments of [s6_1_1_Nc] whose calls are safe. *)
Definition safe_section (q : nsect pynum) : Prop :=
  machine (2 ^ 25) (w_r_x q) /\ machine (2 ^ 25) (w_r_y q) /\ machine (2 ^ 25) (w_x_o q) /\ machine (2 ^ 25) (w_y_o q) /\
  machine (2 ^ 53) (w_A_n q) /\ machine (2 ^ 53) (w_J q) /\ machine (2 ^ 53) (w_I_w q) /\ machine (2 ^ 53) (w_E q) /\
  machine (2 ^ 53) (w_G q) /\ nisfloat (w_G q) || nisfloat (w_J q) = true /\ neqb (w_E q) (nint 0) = false.

Lemma torsion_asks roots q l_ex l_ey l_ez sym u : safe_section q -> machine (2 ^ 53) l_ex -> machine (2 ^ 53) l_ey ->
  machine (2 ^ 25) l_ez -> asks safe (q_N_c_torsion pw roots q l_ex l_ey l_ez sym u).
Proof.
  intros S X Y Z0. unfold safe_section in S. unfold q_N_c_torsion. apply asks_bind; [|constructor]. unfold q_f_oc.
  apply asks_bind; [constructor|]. intros [].
  all: unfold q_f_oc_double, q_f_oc_single, q_f_oc_point, q_f_oc_unsym.
  all: repeat match goal with
    | |- asks _ (cbind _ _) => apply asks_bind; [|intros ?]
    | |- asks _ (CRet _) => constructor
    | |- asks _ (ask _) => apply asks_ask; cbn [safe]; tauto
    | |- asks _ (match ?x with _ => _ end) => destruct x
    end.
Qed.
Lemma Nc_asks roots q l k_ex k_ey k_ez sym f_ref alpha_b u phi cb ct : safe_section q ->
  machine (2 ^ 53) (nmul l k_ex) -> machine (2 ^ 53) (nmul l k_ey) -> machine (2 ^ 25) (nmul l k_ez) ->
  asks safe (q_Nc pw roots q l k_ex k_ey k_ez sym f_ref alpha_b u phi cb ct).
Proof.
  intros S X Y Z0. unfold q_Nc. destruct cb; [|constructor].
  apply asks_bind; [constructor|]. intros bx. apply asks_bind; [constructor|]. intros by_. destruct ct; [|constructor].
  apply asks_bind; [|constructor]. now apply torsion_asks.
Qed.
End Functions.

(** ** A power function that meets the hypotheses *)
Definition cpow (x y : pynum) : res pynum :=
  if py_eqb y (PInt 2) then Ok (PFlt (fmul (tofl x) (tofl x)))
  else if is_zero (tofl x) then Ok (PFlt (S754_zero false))
  else if py_ltb (PFlt (tofl x)) (PInt 0) then Err EComplex
  else Ok (PFlt (SFsqrt f64 e64 (tofl x))).
Lemma cpow_zero e : e = nflt 1 2 \/ e = nint 2 -> cpow (PFlt (S754_zero true)) e = cpow (PFlt (S754_zero false)) e.
Proof. intros [-> | ->]; vm_compute; reflexivity. Qed.
Lemma cpow_int z : cpow (PInt z) (nflt 1 2) = cpow (PFlt (sf_of_Z z)) (nflt 1 2).
Proof. reflexivity. Qed.
Lemma cpow_float x v : cpow x (nflt 1 2) = Ok v -> nisfloat v = true.
Proof.
  unfold cpow. destruct (py_eqb _ _); [now intros [= <-]|]. destruct (is_zero _); [now intros [= <-]|].
  destruct (py_ltb _ _); [discriminate|]. now intros [= <-].
Qed.

(** ** Ints that are too large *)
Lemma hit_fet (pw : pynum -> pynum -> res pynum) same o A l rx ry xo yo J Iw E G o' A' l' rx' ry' xo' yo' J' Iw' E' G' v :
  let c := NFet o A l rx ry xo yo J Iw E G in let c' := NFet o' A' l' rx' ry' xo' yo' J' Iw' E' G' in
  nkey_eqb same (ckey c) (ckey c') = true -> uncached pw c = Ok [v] ->
  fst (cached pw same c' (snd (cached pw same c nfresh))) = Ok [v].
Proof.
  intros c c' HK HU. cbn [c c' ckey uncached cached] in *.
  unfold nf_euler_torsion in HU. destruct (nr_ol pw rx ry xo yo) as [r|e] eqn:ER; [|discriminate HU]. cbn [bind] in HU.
  destruct (pydiv (nmul G J) (nmul (nmul A r) r)) as [a|e] eqn:EA; [|discriminate HU]. cbn [bind] in HU.
  destruct (pydiv (nmul (nmul (nmul npi npi) E) Iw) (nmul (nmul G J) (nmul l l))) as [b|e] eqn:EB; [|discriminate HU].
  cbn [bind] in HU. assert (HV : nmul a (nadd (nint 1) b) = v) by congruence. clear HU.
  assert (HB : c_f_euler_torsion pw same o A l rx ry xo yo J Iw E G nfresh
    = (Ok v, mk_ncaches [((0%nat, [rx; ry; xo; yo]), r)] [((o, [A; l; rx; ry; xo; yo; J; Iw; E; G]), v)] [])).
  { unfold c_f_euler_torsion, c_r_ol, nlru, nbind, nlift. cbn [nc_fet nc_rol nc_fox nfresh nfind]. rewrite ER.
    cbn [nput_rol nc_fet nc_rol nc_fox firstn nfresh]. rewrite EA. cbn [bind]. rewrite EB. cbn [bind]. rewrite HV. reflexivity. }
  unfold nbind at 2. rewrite HB. unfold nlift at 2. cbn [snd]. unfold nbind, c_f_euler_torsion, nlru. cbn [nc_fet nfind].
  rewrite HK. reflexivity.
Qed.

Definition flt (z : Z) : pynum := PFlt (sf_of_Z z).
(** The same numbers as floats, and G, J and l_ez as ints. *)
Definition as_floats : @ncall pynum :=
  NFet 0 (flt 10) (flt 3001) (flt 3) (flt 4) (flt 0) (flt 0) (flt 1234568) (flt 123456789012345) (flt 210000000000) (flt 80769230769).
Definition as_ints : @ncall pynum :=
  NFet 0 (flt 10) (PInt 3001) (flt 3) (flt 4) (flt 0) (flt 0) (PInt 1234568) (flt 123456789012345) (flt 210000000000) (PInt 80769230769).
Lemma ints_differ pw same : pw (flt 25) (nflt 1 2) = Ok (flt 5) ->
  nkey_eqb same (ckey as_floats) (ckey as_ints) = true /\
  fst (cached pw same as_ints (snd (cached pw same as_floats nfresh))) <> uncached pw as_ints.
Proof.
  intros P. assert (HK : nkey_eqb same (ckey as_floats) (ckey as_ints) = true).
  { unfold nkey_eqb, as_floats, as_ints. cbn [ckey fst snd]. apply andb_true_iff. split; [reflexivity|]. cbn [nums_eqb].
    repeat (apply andb_true_iff; split; [apply orb_true_iff; right; vm_compute; reflexivity|]). reflexivity. }
  split; [exact HK|].
  assert (R : nr_ol pw (flt 3) (flt 4) (flt 0) (flt 0) = Ok (flt 5)).
  { unfold nr_ol. rewrite <- P. f_equal. }
  destruct (uncached pw as_floats) as [l|e] eqn:U.
  2: { exfalso. unfold as_floats in U. cbn [uncached] in U. unfold nf_euler_torsion in U. rewrite R in U. vm_compute in U. discriminate U. }
  unfold as_floats in U. cbn [uncached] in U. unfold nf_euler_torsion in U. rewrite R in U. cbn [bind] in U.
  match type of U with (let! v := ?x in _) = _ => destruct x as [v|e] eqn:V; [|discriminate U] end. cbn [bind] in U.
  injection U as <-.
  assert (U : uncached pw as_floats = Ok [v]).
  { unfold as_floats. cbn [uncached]. unfold nf_euler_torsion. rewrite R. cbn [bind]. now rewrite V. }
  unfold as_floats, as_ints in *. rewrite (hit_fet pw same _ _ _ _ _ _ _ _ _ _ _ _ _ _ _ _ _ _ _ _ _ _ v HK U).
  cbn [uncached]. unfold nf_euler_torsion. rewrite R. vm_compute in V. injection V as <-. vm_compute. intros Q. discriminate Q.
Qed.
