(** The square root of doubles is correctly rounded. *)

From Coq Require Import ZArith Reals Bool Lia Lra Floats.SpecFloat.
From Verif Require Import Base Num PyNum IntFloat FloatRound FloatOps FloatError FloatUtil.
Open Scope R_scope.

Lemma sqrt_location m q r : (0 <= q)%Z -> m = (q * q + r)%Z -> (0 <= r <= 2 * q)%Z ->
  inb q (if Zeq_bool r 0 then loc_Exact else loc_Inexact (if Zle_bool r q then Lt else Gt)) (sqrt (IZR m)).
Proof.
  intros Q E R. assert (Q' : 0 <= IZR q) by now apply IZR_le.
  assert (EM : IZR m = IZR q * IZR q + IZR r) by (rewrite E, plus_IZR, mult_IZR; reflexivity).
  assert (RU : IZR r <= 2 * IZR q) by (rewrite <- mult_IZR; apply IZR_le; lia).
  assert (UP : sqrt (IZR m) < IZR q + 1).
  { rewrite <- (sqrt_square (IZR q + 1)) by lra. apply sqrt_lt_1_alt. assert (0 <= IZR r) by (apply IZR_le; lia). split; nra. }
  destruct (Zeq_bool r 0) eqn:Z0.
  - apply Zeq_bool_eq in Z0. subst r. cbn [inb]. rewrite EM, Rplus_0_r. now apply sqrt_square.
  - apply Zeq_bool_neq in Z0. assert (R0 : 1 <= IZR r) by (apply IZR_le; lia).
    assert (LO : IZR q < sqrt (IZR m)).
    { rewrite <- (sqrt_square (IZR q)) at 1 by lra. apply sqrt_lt_1_alt. split; nra. }
    destruct (Zle_bool r q) eqn:L; cbn [inb].
    + apply Zle_bool_imp_le in L. apply IZR_le in L. split; [lra|].
      rewrite <- (sqrt_square (IZR q + 1 / 2)) by lra. apply sqrt_lt_1_alt. split; nra.
    + assert (q < r)%Z as L' by (apply Z.lt_nge; intros C; apply Zle_imp_le_bool in C; congruence).
      assert (IZR q + 1 <= IZR r) by (rewrite <- plus_IZR; apply IZR_le; lia).
      split; [|exact UP]. rewrite <- (sqrt_square (IZR q + 1 / 2)) by lra. apply sqrt_lt_1_alt. split; nra.
Qed.

Lemma bp_sqrt k : sqrt (bp (2 * k)) = bp k.
Proof.
  replace (2 * k)%Z with (k + k)%Z by lia. rewrite bp_add. apply sqrt_square. left. apply bp_pos.
Qed.

Lemma sqrt_rounds c e : bounded f64 e64 c e = true ->
  rounds (sqrt (IZR (Z.pos c) * bp e)) (SFsqrt f64 e64 (S754_finite false c e)).
Proof.
  intros B. cbn [SFsqrt]. unfold SFsqrt_core_binary. cbn [Zdigits2].
  set (d := Z.pos (digits2_pos c)). fold (fexp64 (Z.div2 (d + e + 1))). set (D := Z.div2 (d + e + 1)).
  set (E := Z.min (fexp64 D) (Z.div2 e)).
  destruct (finite_small _ _ B) as [P _]. set (v := sqrt (IZR (Z.pos c) * bp e)).
  assert (V : 0 < v) by now apply sqrt_lt_R0.
  assert (H2e : (2 * Z.div2 e <= e <= 2 * Z.div2 e + 1)%Z).
  { pose proof (Z.div2_odd e). destruct (Z.odd e); cbn in *; lia. }
  assert (H2D : (2 * D <= d + e + 1 <= 2 * D + 1)%Z).
  { unfold D. pose proof (Z.div2_odd (d + e + 1)). destruct (Z.odd (d + e + 1)); cbn [Z.b2z] in *; lia. }
  assert (S0 : (0 <= e - 2 * E)%Z) by (unfold E; lia).
  assert (K : match (e - 2 * E)%Z with 0%Z => Z.pos c | Z.pos _ => Z.shiftl (Z.pos c) (e - 2 * E) | Z.neg _ => 0%Z end
    = (Z.pos c * 2 ^ (e - 2 * E))%Z).
  { destruct (e - 2 * E)%Z as [|p|p] eqn:Q; [now rewrite Z.mul_1_r|apply Z.shiftl_mul_pow2; lia|lia]. }
  rewrite K. set (m := (Z.pos c * 2 ^ (e - 2 * E))%Z).
  assert (M0 : (0 <= m)%Z) by (unfold m; apply Z.mul_nonneg_nonneg; [lia|apply Z.pow_nonneg; lia]).
  pose proof (Z.sqrtrem_spec m M0) as SQ. destruct (Z.sqrtrem m) as [q r]. destruct SQ as [SQ1 SQ2].
  assert (Q0 : (0 <= q)%Z) by lia.
  assert (VE : v / bp E = sqrt (IZR m)).
  { unfold m, v. rewrite mult_IZR, <- bp_Z by lia.
    replace (bp e) with (bp (e - 2 * E) * bp (2 * E)) by (rewrite <- bp_add; f_equal; lia).
    rewrite <- Rmult_assoc, sqrt_mult, bp_sqrt.
    - pose proof (bp_pos E). field. lra.
    - apply Rmult_le_pos; [apply IZR_le; lia|left; apply bp_pos].
    - left. apply bp_pos. }
  set (l := if Zeq_bool r 0 then loc_Exact else loc_Inexact (if Zle_bool r q then Lt else Gt)).
  assert (I : inb q l (v / bp E)) by (rewrite VE; apply sqrt_location; auto).
  destruct (round_aux_spec false q E l v Q0 V I) as (w & N & S).
  - destruct (mag_pos c e) as [M1 _]. fold d in M1.
    assert (VL : bp (D - 1) <= v).
    { rewrite <- bp_sqrt. unfold v. apply sqrt_le_1_alt. apply Rle_trans with (2 := M1). apply bp_le. lia. }
    pose proof (bp_pos E) as BE. apply inb_range in I. destruct I as [_ I].
    assert (VU : v < (IZR q + 1) * bp E).
    { apply Rmult_lt_compat_r with (r := bp E) in I; auto. unfold Rdiv in I. rewrite Rmult_assoc, Rinv_l, Rmult_1_r in I; lra. }
    destruct q as [|q|q]; [| |lia].
    + assert (bp (D - 1) < bp E) as W by lra. apply bp_lt_inv in W. cbn [Zdigits2].
      assert (EF : (E <= fexp64 D)%Z) by (unfold E; lia). rewrite !fexp64_eq in *. lia.
    + cbn [Zdigits2]. destruct (digits_bounds q) as [_ B2]. set (dq := Z.pos (digits2_pos q)) in *.
      assert (bp (D - 1) < bp (dq + E)) as W.
      { eapply Rle_lt_trans; [exact VL|]. eapply Rlt_le_trans; [exact VU|].
        rewrite bp_add, (bp_Z dq) by (unfold dq; lia). apply Rmult_le_compat_r; [lra|]. rewrite <- plus_IZR. apply IZR_le. lia. }
      apply bp_lt_inv in W. assert (EF : (E <= fexp64 D)%Z) by (unfold E; lia). rewrite !fexp64_eq in *. lia.
  - now apply r_pos with w.
Qed.

Lemma root_norm x : fin64 x -> bp (-1022) <= sfR x <= bp 1022 ->
  exists e, Rabs e <= u53 /\ fin64 (SFsqrt f64 e64 x) /\ sfR (SFsqrt f64 e64 x) = sqrt (sfR x) * (1 + e).
Proof.
  intros F L. pose proof (bp_pos (-1022)) as P0. destruct x as [s| | |s c e]; try contradiction.
  - cbn [sfR] in L. lra.
  - destruct (finite_small _ _ F) as [P _]. destruct s; cbn [sfR signed] in *; [lra|].
    assert (H : bp (-1022) <= Rabs (sqrt (IZR (Z.pos c) * bp e)) <= bp 1022).
    { rewrite Rabs_right by (apply Rle_ge, sqrt_pos). split.
      - apply Rle_trans with (bp (-511)); [apply bp_le; lia|]. rewrite <- bp_sqrt. now apply sqrt_le_1_alt.
      - apply Rle_trans with (bp 511); [|apply bp_le; lia]. rewrite <- (bp_sqrt 511). now apply sqrt_le_1_alt. }
    destruct (rounds_normal _ _ (sqrt_rounds c e F) H) as (F' & d & Hd & E). eauto.
Qed.
