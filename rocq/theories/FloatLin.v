(** [np.linspace(0.0, 1.0, n)] on doubles: strictly ascending, in the unit interval, accurate. *)

From Coq Require Import ZArith Reals List Bool Sorted Lra Lia Floats.SpecFloat.
From Verif Require Import Base Num PyNum Numpy LoadCase OrdFacts LoadFacts LoadSpec LoadProofs
  FloatRound FloatOps FloatSpec FloatFacts FloatBeam FloatLocs FloatValSpec FloatInterp FloatError FloatUtil FloatTableSpec FloatTable.
Import ListNotations.
Open Scope R_scope.

Definition one_d : spec_float := S754_finite false 4503599627370496 (-52).

(** Entry [i] of [m + 1] before [0.0] is added. *)
Definition lin_sf (m : Z) (i : nat) : spec_float := SFmul f64 e64 (sf_of_Z (Z.of_nat i)) (SFdiv f64 e64 one_d (sf_of_Z m)).

Lemma abs_bounds x k : Rabs x <= k -> - k <= x <= k.
Proof. intros H. pose proof (Rle_abs x). pose proof (Rle_abs (- x)). rewrite Rabs_Ropp in *. lra. Qed.

Lemma u53_52 : 2 * u53 = / IZR (2 ^ 52).
Proof.
  unfold u53. rewrite <- bp_Z by lia. pose proof (bp_pos 52).
  apply Rmult_eq_reg_r with (bp 52); [|lra]. rewrite Rinv_l, Rmult_assoc, <- bp_add by lra.
  change (-53 + 52)%Z with (-1)%Z. pose proof (bp_add 1 (-1)) as E. change (1 + -1)%Z with 0%Z in E. rewrite bp_0, bp_1 in E. lra.
Qed.

Section M.
Variable m : Z.
Hypothesis Hm : (1 <= m <= 2 ^ 52)%Z.

Lemma m_R : 1 <= IZR m /\ 2 * u53 * IZR m <= 1.
Proof.
  assert (1 <= IZR m <= IZR (2 ^ 52)) by (split; apply IZR_le; lia). split; [lra|]. rewrite u53_52.
  assert (0 < IZR (2 ^ 52)) by (apply IZR_lt; lia).
  apply Rmult_le_reg_l with (IZR (2 ^ 52)); auto. rewrite <- Rmult_assoc, Rinv_r by lra. lra.
Qed.

Lemma inv_m : 0 < / IZR m <= 1 /\ 2 * u53 <= / IZR m.
Proof.
  destruct m_R as [A B]. assert (0 < / IZR m) by (apply Rinv_0_lt_compat; lra).
  split; [split; auto; rewrite <- Rinv_1; apply Rinv_le_contravar; lra|].
  apply Rmult_le_reg_r with (IZR m); [lra|]. rewrite Rinv_l; lra.
Qed.

Lemma step_lin : exists e, Rabs e <= u53 /\ fin64 (SFdiv f64 e64 one_d (sf_of_Z m)) /\
  sfR (SFdiv f64 e64 one_d (sf_of_Z m)) = / IZR m * (1 + e).
Proof.
  destruct (small_int m ltac:(lia)) as [F V]. destruct inv_m as [A B]. pose proof u53_small as U. destruct m_R as [M1 _].
  assert (E : sfR one_d / sfR (sf_of_Z m) = / IZR m) by (unfold one_d; rewrite one_val, V; unfold Rdiv; ring).
  destruct (div_norm one_d (sf_of_Z m)) as (e & He & Fe & Ve); auto; try reflexivity.
  - rewrite V. lra.
  - rewrite E, Rabs_right by lra. assert (bp (-1022) <= u53) by (apply bp_le; lia).
    assert (1 <= bp 1022) by (rewrite <- bp_0; apply bp_le; lia). lra.
  - exists e. rewrite Ve, E. auto.
Qed.

Lemma entry_lin i : (Z.of_nat i < m)%Z -> exists a b, Rabs a <= u53 /\ Rabs b <= u53 /\ fin64 (lin_sf m i) /\
  sfR (lin_sf m i) = INR i * (/ IZR m * (1 + a)) * (1 + b) /\
  sfR (SFdiv f64 e64 one_d (sf_of_Z m)) = / IZR m * (1 + a).
Proof.
  intros Hi. destruct step_lin as (a & Ha & Fa & Va). destruct (small_int (Z.of_nat i) ltac:(lia)) as [F V].
  pose proof u53_small as U. destruct inv_m as [A B]. rewrite <- INR_IZR_INZ in V. apply abs_bounds in Ha as Ha'.
  unfold lin_sf. destruct i as [|i].
  - exists a, 0. rewrite Rabs_R0. split; auto. split; [lra|].
    pose proof (mul_rounds (sf_of_Z (Z.of_nat 0)) _ F Fa) as R. rewrite V in R. cbn [INR] in *. rewrite Rmult_0_l in R.
    destruct R as [s _ E|w P|w P]; try lra. rewrite E. split; [exact I|]. split; [cbn [sfR]; ring|auto].
  - assert (1 <= INR (S i) <= IZR m).
    { rewrite INR_IZR_INZ. split; apply IZR_le; lia. }
    assert (Q : INR (S i) * (/ IZR m * (1 + a)) = (INR (S i) * / IZR m) * (1 + a)) by ring.
    assert (K : / IZR m <= INR (S i) * / IZR m <= 1).
    { destruct m_R as [M1 _]. split; [nra|]. apply Rmult_le_reg_r with (IZR m); [lra|]. rewrite Rmult_assoc, Rinv_l; lra. }
    destruct (mul_norm (sf_of_Z (Z.of_nat (S i))) _ F Fa) as (b & Hb & Fb & Vb).
    + rewrite V, Va, Q, Rabs_right by nra. assert (bp (-1022) <= u53 * / 2).
      { change u53 with (bp (-53)). replace (bp (-53) * / 2) with (bp (-54)); [apply bp_le; lia|].
        change (-53)%Z with (1 + -54)%Z. rewrite bp_add, bp_1. field. }
      assert (2 <= bp 1022) by (rewrite <- bp_1; apply bp_le; lia). nra.
    + exists a, b. rewrite Vb, V, Va. auto.
Qed.

Lemma entry_bounds i : (Z.of_nat i < m)%Z -> 0 <= sfR (lin_sf m i) < 1 /\
  Rabs (sfR (lin_sf m i) - INR i / IZR m) <= 3 * u53 * (INR i / IZR m).
Proof.
  intros Hi. destruct (entry_lin i Hi) as (a & b & Ha & Hb & F & E & _). pose proof u53_small as U.
  destruct m_R as [M1 M2]. destruct inv_m as [A B].
  assert (I1 : 0 <= INR i <= IZR m - 1).
  { rewrite INR_IZR_INZ, <- minus_IZR. split; apply IZR_le; lia. }
  assert (X : 0 <= INR i / IZR m <= 1 - / IZR m).
  { unfold Rdiv. split; [nra|]. apply Rmult_le_reg_r with (IZR m); [lra|]. rewrite Rmult_assoc, Rinv_l by lra.
    rewrite Rmult_minus_distr_r, Rinv_l by lra. lra. }
  set (x := INR i / IZR m) in *.
  assert (Ex : sfR (lin_sf m i) = x * ((1 + a) * (1 + b))) by (rewrite E; unfold x, Rdiv; ring).
  apply abs_bounds in Ha, Hb.
  assert (D : - (3 * u53) <= (1 + a) * (1 + b) - 1 <= 2 * u53 + u53 * u53).
  { assert (- (u53 * u53) <= a * b <= u53 * u53) by nra. nra. }
  set (d := (1 + a) * (1 + b)) in *. rewrite Ex. split; [split|].
  - nra.
  - assert (x * d <= (1 - 2 * u53) * (1 + 2 * u53 + u53 * u53)).
    { apply Rmult_le_compat; try lra; nra. }
    assert ((1 - 2 * u53) * (1 + 2 * u53 + u53 * u53) < 1) by nra. lra.
  - replace (x * d - x) with ((d - 1) * x) by ring. rewrite Rabs_mult, (Rabs_right x) by lra.
    apply Rmult_le_compat_r; [lra|]. apply Rabs_le. nra.
Qed.

Lemma entry_lt i j : (i < j)%nat -> (Z.of_nat j < m)%Z -> sfR (lin_sf m i) < sfR (lin_sf m j).
Proof.
  intros L Hj. assert (Hi : (Z.of_nat i < m)%Z) by lia.
  destruct (entry_lin i Hi) as (a & b & Ha & Hb & _ & E & Ea). destruct (entry_lin j Hj) as (a' & b' & Ha' & Hb' & _ & E' & Ea').
  rewrite Ea in Ea'. rewrite <- Ea' in E'. rewrite E, E'. set (s := / IZR m * (1 + a)) in *.
  pose proof u53_small as U. destruct m_R as [M1 M2]. destruct inv_m as [A B]. apply abs_bounds in Ha, Hb, Hb'.
  assert (S : 0 < s) by (unfold s; nra).
  assert (I0 : 0 <= INR i) by apply pos_INR.
  assert (I1 : INR i + 1 <= INR j) by (rewrite <- S_INR; apply le_INR; lia).
  assert (I2 : INR j <= IZR m - 1) by (rewrite INR_IZR_INZ, <- minus_IZR; apply IZR_le; lia).
  assert (INR i * s * (1 + b) <= INR i * s * (1 + u53)) by (apply Rmult_le_compat_l; nra).
  assert (INR j * s * (1 - u53) <= INR j * s * (1 + b')) by (apply Rmult_le_compat_l; nra).
  assert (INR i * (1 + u53) < INR j * (1 - u53)) by nra.
  assert (INR i * (1 + u53) * s < INR j * (1 - u53) * s) by (apply Rmult_lt_compat_r; auto). lra.
Qed.
End M.

Lemma add_zero f : fin64 f -> fin64 (SFadd f64 e64 f (S754_zero false)) /\ sfR (SFadd f64 e64 f (S754_zero false)) = sfR f.
Proof. intros F. destruct f as [[]| | |]; try contradiction; split; auto. Qed.

Lemma unit_of_R f : fin64 f -> 0 <= sfR f <= 1 -> unit_double (PFlt f).
Proof.
  intros F [A B]. split; [apply finite_double_fin; eauto|]. rewrite fl_zero, one_fin. split.
  - now apply (fle_R (S754_zero false) f).
  - apply (fle_R f (S754_finite false 4503599627370496 (-52))); auto; [reflexivity|]. rewrite one_val. lra.
Qed.

Lemma lt_of_R f g : fin64 f -> fin64 g -> sfR f < sfR g -> nltb (PFlt f) (PFlt g) = true.
Proof.
  intros F G L. cbn [nltb PNum]. unfold py_ltb. apply andb_true_iff. split.
  - apply (fle_R f g F G). lra.
  - apply negb_true_iff. destruct (py_leb (PFlt g) (PFlt f)) eqn:E; auto. apply (fle_R g f G F) in E. lra.
Qed.

Lemma three_u : 3 * u53 <= powerRZ 2 (-51).
Proof.
  change (powerRZ 2 (-51)) with (bp (-51)). unfold u53. change (-51)%Z with (2 + -53)%Z. rewrite bp_add.
  rewrite (bp_Z 2) by lia. pose proof (bp_pos (-53)). change (2 ^ 2)%Z with 4%Z. lra.
Qed.

Lemma lin_many n : (1 < n <= 2 ^ 52)%Z ->
  exists fs, linspace (fl 0 1) (fl 1 1) n = Ok (map PFlt fs) /\ List.length fs = Z.to_nat n /\
    Forall (fun f => fin64 f /\ 0 <= sfR f <= 1) fs /\ StronglySorted (fun f g => sfR f < sfR g) fs /\
    forall i f, nth_error fs i = Some f -> Rabs (sfR f - INR i / (IZR n - 1)) <= 3 * u53.
Proof.
  intros Hn. set (m := (n - 1)%Z). assert (Hm : (1 <= m <= 2 ^ 52)%Z) by (unfold m; lia).
  set (g := fun i => SFadd f64 e64 (lin_sf m i) (S754_zero false)).
  assert (G : forall i, (i < Z.to_nat m)%nat -> fin64 (g i) /\ sfR (g i) = sfR (lin_sf m i)).
  { intros i Hi. destruct (entry_lin m Hm i ltac:(lia)) as (a & b & _ & _ & F & _). now apply add_zero. }
  exists (map g (seq 0 (Z.to_nat m)) ++ [one_d]).
  assert (Ln : List.length (map g (seq 0 (Z.to_nat m))) = Z.to_nat m) by (rewrite map_length, seq_length; auto).
  split; [|split; [|split; [|split]]].
  - unfold linspace. assert ((n <? 0)%Z = false) as -> by (apply Z.ltb_ge; lia). cbv zeta.
    assert ((1 <? n)%Z = true) as -> by (apply Z.ltb_lt; lia). f_equal. rewrite map_app. cbn [map]. f_equal.
    assert (Z.to_nat n - 1 = Z.to_nat m)%nat as -> by (unfold m; lia). rewrite map_map. apply map_ext_in. intros i Hi.
    apply in_seq in Hi. unfold lin_entry. assert ((1 <? n)%Z = true) as -> by (apply Z.ltb_lt; lia). cbv zeta.
    change (nfloat (fl 0 1)) with (PFlt (S754_zero false)). change (nfloat (fl 1 1)) with (PFlt one_d).
    change (nsub (PFlt one_d) (PFlt (S754_zero false))) with (PFlt one_d). fold m.
    change (nfloat (nint m)) with (PFlt (sf_of_Z m)).
    change (nfloat (nint (Z.of_nat i))) with (PFlt (sf_of_Z (Z.of_nat i))).
    change (ndiv (PFlt one_d) (PFlt (sf_of_Z m))) with (PFlt (SFdiv f64 e64 one_d (sf_of_Z m))).
    assert (E : neqb (PFlt (SFdiv f64 e64 one_d (sf_of_Z m))) (nint 0) = false).
    { destruct (step_lin m Hm) as (e & He & F & V). apply abs_bounds in He. pose proof u53_small as U. destruct (inv_m m Hm) as [A B].
      cbn [neqb PNum]. apply andb_false_iff. left. destruct (py_leb (PFlt _) (nint 0)) eqn:E; auto.
      apply (fle_int_R 0) in E; auto. rewrite V in E. nra. }
    rewrite E. reflexivity.
  - rewrite app_length, Ln. cbn [List.length]. unfold m. lia.
  - apply Forall_app. split; [|constructor; [|constructor]; split; [reflexivity|unfold one_d; rewrite one_val; lra]].
    apply Forall_map, Forall_forall. intros i Hi. apply in_seq in Hi. destruct (G i ltac:(lia)) as [F V].
    destruct (entry_bounds m Hm i ltac:(lia)) as [B _]. rewrite V. split; auto. lra.
  - assert (K : forall k s, (s + k <= Z.to_nat m)%nat -> StronglySorted (fun f g => sfR f < sfR g) (map g (seq s k) ++ [one_d])).
    { induction k as [|k IH]; intros s Hs; cbn [seq map app]; [repeat constructor|]. constructor; [apply IH; lia|].
      destruct (G s ltac:(lia)) as [_ V]. apply Forall_app. split.
      - apply Forall_map, Forall_forall. intros j Hj. apply in_seq in Hj. destruct (G j ltac:(lia)) as [_ V']. rewrite V, V'.
        apply entry_lt; auto; lia.
      - constructor; [|constructor]. destruct (entry_bounds m Hm s ltac:(lia)) as [B _]. rewrite V. unfold one_d. rewrite one_val. lra. }
    apply (K _ 0%nat). lia.
  - intros i f E. replace (IZR n - 1) with (IZR m) by (unfold m; rewrite minus_IZR; ring).
    pose proof u53_small as U. destruct (m_R m Hm) as [M1 _].
    destruct (Nat.lt_ge_cases i (Z.to_nat m)) as [L|L].
    + rewrite nth_error_app1 in E by lia. rewrite nth_error_map in E. rewrite (nth_error_nth' _ 0%nat) in E by (rewrite seq_length; lia).
      rewrite seq_nth in E by lia. cbn [option_map Nat.add] in E. injection E as <-. destruct (G i L) as [_ V]. rewrite V.
      destruct (entry_bounds m Hm i ltac:(lia)) as [_ B]. apply Rle_trans with (1 := B).
      assert (INR i / IZR m <= 1); [|nra]. apply Rmult_le_reg_r with (IZR m); [lra|]. unfold Rdiv.
      rewrite Rmult_assoc, Rinv_l, Rmult_1_r, Rmult_1_l by lra. rewrite INR_IZR_INZ. apply IZR_le. lia.
    + rewrite nth_error_app2 in E by lia. rewrite Ln in E. destruct (i - Z.to_nat m)%nat as [|k] eqn:K; [|destruct k; discriminate].
      cbn in E. injection E as <-. unfold one_d. rewrite one_val. assert (Z.of_nat i = m) by lia. rewrite INR_IZR_INZ, H.
      unfold Rdiv. rewrite Rinv_r, Rminus_eq_0, Rabs_R0 by lra. lra.
Qed.

Lemma lin_unit n : (0 <= n <= 2 ^ 52)%Z ->
  exists lin, linspace (fl 0 1) (fl 1 1) n = Ok lin /\ List.length lin = Z.to_nat n /\
    Forall unit_double lin /\ ascending lin /\
    forall i x, nth_error lin i = Some x -> Rabs (val x - even_point n i) <= powerRZ 2 (-51).
Proof.
  intros Hn. destruct (Z.lt_ge_cases 1 n) as [L|L].
  - destruct (lin_many n ltac:(lia)) as (fs & E & Len & F & S & A). exists (map PFlt fs). split; auto.
    split; [now rewrite map_length|]. split; [|split].
    + apply Forall_map. eapply Forall_impl; [|exact F]. intros f [H1 H2]. now apply unit_of_R.
    + clear - F S. induction S as [|f fs S IH G]; cbn [map]; [constructor|]. apply Forall_cons_iff in F. destruct F as [[F1 _] F].
      constructor; [now apply IH|]. apply Forall_map. rewrite Forall_forall in *. intros g Hg. apply lt_of_R; auto. now apply F.
    + intros i x Hx. rewrite nth_error_map in Hx. destruct (nth_error fs i) as [f|] eqn:Ef; [|discriminate]. injection Hx as <-.
      rewrite val_sfR. unfold even_point. assert ((n =? 1)%Z = false) as -> by (apply Z.eqb_neq; lia).
      pose proof three_u. specialize (A i f Ef). lra.
  - assert (n = 0 \/ n = 1)%Z as [-> | ->] by lia.
    + exists []. do 2 (split; [reflexivity|]). do 2 (split; [constructor|]). intros [|i] x; discriminate.
    + exists [fl 0 1]. split; [reflexivity|]. split; [reflexivity|]. split; [|split; [repeat constructor|]].
      * constructor; [|constructor]. rewrite fl_zero. apply unit_of_R; [reflexivity|cbn [sfR]; lra].
      * intros i x Hx. destruct i as [|[|i]]; [|discriminate|discriminate]. cbn [nth_error] in Hx.
        assert (x = fl 0 1) as -> by congruence. rewrite fl_zero. unfold even_point. cbn [Z.eqb Pos.eqb]. rewrite val_sfR. cbn [sfR].
        rewrite Rminus_eq_0, Rabs_R0. pose proof three_u. pose proof u53_small. lra.
Qed.
