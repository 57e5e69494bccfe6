(** How far positions along a beam, computed on doubles, are from the exact ones. *)

From Coq Require Import ZArith Reals Lra Lia Bool List Sorted Floats.SpecFloat.
From Verif Require Import Base Num PyNum OrdFacts Numpy LoadCase LoadSpec LoadFacts LoadProofs Beam BeamSpec BeamFloat
  FloatSpec FloatValSpec FloatPlaceSpec FloatRound FloatOps FloatFacts FloatInterp FloatError FloatBeam.
Import ListNotations.
Open Scope R_scope.

(** [k] relative roundings. *)
Definition gk (k : nat) : R := INR k * u53 + INR k * u53 * (INR k * u53).

Lemma gk_pos k : 0 <= gk k.
Proof. unfold gk. pose proof (pos_INR k). pose proof u53_small. assert (0 <= INR k * u53) by (apply Rmult_le_pos; lra). nra. Qed.

Lemma u53_26 : bp 26 * bp 26 * u53 <= 1 / 2.
Proof. unfold u53. rewrite <- !bp_add. change (26 + 26 + -53)%Z with (-1)%Z. change (bp (-1)) with (/ (2 * 1)). lra. Qed.

Lemma k_le k : (Z.of_nat k <= 2 ^ 26 + 1)%Z -> INR k <= bp 26 + 1.
Proof. intros H. rewrite INR_IZR_INZ, bp_Z by lia. apply IZR_le in H. rewrite plus_IZR in H. exact H. Qed.

Lemma ku_le k : (Z.of_nat k <= 2 ^ 26 + 1)%Z -> INR k * u53 <= 1 / 100.
Proof.
  intros H. apply k_le in H. pose proof (pos_INR k). pose proof u53_26 as U. pose proof (bp_pos 26).
  assert (B : 1000 <= bp 26) by (rewrite bp_Z by lia; apply IZR_le; lia). pose proof u53_small.
  assert (INR k * u53 <= (bp 26 + 1) * u53) by (apply Rmult_le_compat_r; lra).
  assert (bp 26 * u53 * 1000 <= bp 26 * u53 * bp 26) by (apply Rmult_le_compat_l; [apply Rmult_le_pos; lra|lra]). lra.
Qed.

Lemma gk_step k : (Z.of_nat k <= 2 ^ 26 + 1)%Z -> gk k * (1 + u53) + u53 <= gk (S k).
Proof.
  intros H. apply ku_le in H. unfold gk. rewrite S_INR. pose proof u53_small. pose proof (pos_INR k).
  set (a := INR k * u53) in *. assert (0 <= a) by (unfold a; apply Rmult_le_pos; lra).
  replace ((INR k + 1) * u53) with (a + u53) by (unfold a; ring).
  assert (0 <= a * u53 * (1 - a)) by (repeat apply Rmult_le_pos; lra). assert (0 <= u53 * u53) by (apply Rmult_le_pos; lra). lra.
Qed.

Lemma gk_mono j k : (j <= k)%nat -> gk j <= gk k.
Proof.
  intros H. apply le_INR in H. unfold gk. pose proof u53_small. pose proof (pos_INR j).
  assert (0 <= INR j * u53 <= INR k * u53) by (split; [apply Rmult_le_pos; lra|apply Rmult_le_compat_r; lra]). nra.
Qed.

Lemma gk_bound k : (Z.of_nat k <= 2 ^ 26)%Z -> gk k <= INR (S k) * u53.
Proof.
  intros H. unfold gk. rewrite S_INR. pose proof u53_small as U. pose proof u53_26. pose proof (pos_INR k). pose proof (bp_pos 26).
  assert (K : INR k <= bp 26) by (rewrite INR_IZR_INZ, bp_Z by lia; apply IZR_le; exact H).
  assert (INR k * u53 * (INR k * u53) <= 1 / 2 * u53); [|lra].
  replace (INR k * u53 * (INR k * u53)) with (INR k * INR k * u53 * u53) by ring. apply Rmult_le_compat_r; [lra|].
  apply Rle_trans with (bp 26 * bp 26 * u53); [|lra]. apply Rmult_le_compat_r; [lra|]. apply Rmult_le_compat; lra.
Qed.

(** [s] is a double not less than zero, [k] roundings away from [S]. *)
Definition near_at (k : nat) (s : pynum) (S : R) : Prop :=
  exists f, s = PFlt f /\ fin64 f /\ 0 <= sfR f /\ Rabs (sfR f - S) <= gk k * S.

Lemma near_weak j k s S : (j <= k)%nat -> 0 <= S -> near_at j s S -> near_at k s S.
Proof.
  intros H P (f & -> & F & N & E). exists f. split; [reflexivity|]. split; [exact F|]. split; [exact N|].
  apply Rle_trans with (1 := E). apply Rmult_le_compat_r; auto using gk_mono.
Qed.

Lemma length_val l : length_double l -> exists f, l = PFlt f /\ fin64 f /\ 0 <= sfR f /\ val l = sfR f.
Proof.
  intros H. apply length_nn in H. destruct H as (f & -> & N & F). exists f. split; auto. split; auto.
  split; [now apply nn_value|]. apply val_sfR.
Qed.

Lemma near_add k s l S : near_at k s S -> length_double l -> 0 <= S -> S + val l <= bp 1000 -> (Z.of_nat k <= 2 ^ 26)%Z ->
  near_at (Datatypes.S k) (nadd s l) (S + val l).
Proof.
  intros (f & -> & F & N & E) L P B K. destruct (length_val l L) as (g & -> & Fg & Ng & V). rewrite V in *.
  assert (K' : (Z.of_nat k <= 2 ^ 26 + 1)%Z) by lia.
  pose proof (ku_le k K') as KU. pose proof (gk_pos k) as G0. pose proof u53_small as U. pose proof (pos_INR k) as IK.
  assert (G1 : gk k <= 1 / 50).
  { unfold gk. assert (0 <= INR k * u53) by (apply Rmult_le_pos; lra). nra. }
  assert (A : Rabs (sfR f - S) <= S) by nra.
  assert (A' : sfR f <= 2 * S) by (pose proof (Rle_abs (sfR f - S)); lra).
  destruct (add_rel f g F Fg) as (e & He & Fa & Ea).
  { rewrite Rabs_right by lra. assert (bp 1022 = bp 22 * bp 1000) by (rewrite <- bp_add; reflexivity).
    assert (2 <= bp 22) by (rewrite bp_Z by lia; apply IZR_le; lia). pose proof (bp_pos 1000). nra. }
  exists (SFadd f64 e64 f g). split; [reflexivity|]. split; [exact Fa|].
  assert (He' : - u53 <= e <= u53) by (split; [pose proof (Rle_abs (- e)); rewrite Rabs_Ropp in *; lra|pose proof (Rle_abs e); lra]).
  split; [rewrite Ea; apply Rmult_le_pos; lra|]. rewrite Ea.
  replace ((sfR f + sfR g) * (1 + e) - (S + sfR g)) with ((sfR f - S) * (1 + e) + (S + sfR g) * e) by ring.
  apply Rle_trans with (1 := Rabs_triang _ _). rewrite !Rabs_mult.
  assert (Q1 : Rabs (sfR f - S) * Rabs (1 + e) <= gk k * (S + sfR g) * (1 + u53)).
  { apply Rmult_le_compat; auto using Rabs_pos; [|rewrite Rabs_right; lra].
    apply Rle_trans with (1 := E). apply Rmult_le_compat_l; lra. }
  assert (Q2 : Rabs (S + sfR g) * Rabs e <= (S + sfR g) * u53).
  { rewrite Rabs_right by lra. apply Rmult_le_compat_l; lra. }
  pose proof (gk_step k K') as St.
  assert ((gk k * (1 + u53) + u53) * (S + sfR g) <= gk (Datatypes.S k) * (S + sfR g)) by (apply Rmult_le_compat_r; lra). lra.
Qed.

Lemma span_pos ls : Forall length_double ls -> 0 <= span (exact_lengths ls).
Proof.
  unfold exact_lengths, span. induction 1 as [|l ls L _ IH]; cbn [map fold_right]; [lra|].
  destruct (length_val l L) as (f & _ & _ & P & ->). lra.
Qed.

Lemma tiles_error ls s ends f : rounded_tiles s ls ends f -> Forall length_double ls -> forall k S,
  near_at k s S -> 0 <= S -> (Z.of_nat (k + List.length ls) <= 2 ^ 26)%Z -> S + span (exact_lengths ls) <= bp 1000 ->
  near_at (k + List.length ls) f (S + span (exact_lengths ls)) /\
  forall i a e, nth_error ends i = Some (a, Some e) ->
    near_at (k + i) a (S + start_of (exact_lengths ls) i) /\ near_at (k + (1 + i)) e (S + end_of (exact_lengths ls) i).
Proof.
  induction 1 as [s|s l ls r f H IH]; intros L k S Nr P K B.
  - split.
    + cbn [exact_lengths map span fold_right List.length]. rewrite Nat.add_0_r, Rplus_0_r. exact Nr.
    + intros [|i] a e E; discriminate E.
  - inversion L as [|? ? L0 L']; subst. destruct (length_val l L0) as (g & _ & _ & Pg & Vg).
    cbn [exact_lengths map span fold_right List.length] in *. fold (span (map val ls)) in *. fold (exact_lengths ls) in *.
    pose proof (span_pos ls L') as Ps.
    assert (Nx : near_at (Datatypes.S k) (nadd s l) (S + val l)) by (apply near_add; auto; [lra|lia]).
    destruct (IH L' (Datatypes.S k) (S + val l) Nx ltac:(lra) ltac:(lia) ltac:(lra)) as (T1 & T2).
    split. { replace (k + Datatypes.S (List.length ls))%nat with (Datatypes.S k + List.length ls)%nat by lia.
      replace (S + (val l + span (exact_lengths ls))) with (S + val l + span (exact_lengths ls)) by ring. exact T1. }
    intros [|i] a e E; cbn [nth_error] in E.
    + injection E as <- <-. unfold start_of, end_of. cbn [firstn exact_lengths map span fold_right].
      rewrite Nat.add_0_r, !Rplus_0_r. split; auto. replace (k + (1 + 0))%nat with (Datatypes.S k) by lia. exact Nx.
    + destruct (T2 i a e E) as (A1 & A2).
      replace (start_of (val l :: exact_lengths ls) (Datatypes.S i)) with (val l + start_of (exact_lengths ls) i) by reflexivity.
      replace (end_of (val l :: exact_lengths ls) (Datatypes.S i)) with (val l + end_of (exact_lengths ls) i) by reflexivity.
      rewrite <- !Rplus_assoc. replace (k + Datatypes.S i)%nat with (Datatypes.S k + i)%nat by lia.
      replace (k + (1 + Datatypes.S i))%nat with (Datatypes.S k + (1 + i))%nat by lia. auto.
Qed.

Section P.
Context {Sec : Type}.

Lemma zero_near : near_at 0 (fl 0 1) 0.
Proof.
  exists (S754_zero false). split; [reflexivity|]. split; [exact I|]. cbn [sfR]. split; [lra|].
  rewrite Rminus_0_r, Rabs_R0, Rmult_0_r. lra.
Qed.

Lemma ordinary_places (b : beam_t pynum Sec) ls : ordinary_beam b ls -> exists ends total,
  element_ends b = Ok ends /\ beam_length b = Ok total /\ rounded_tiles (fl 0 1) ls ends total /\
  near_at (List.length ls) total (span (exact_lengths ls)) /\
  forall i a e, nth_error ends i = Some (a, Some e) ->
    near_at i a (start_of (exact_lengths ls) i) /\ near_at (S i) e (end_of (exact_lengths ls) i).
Proof.
  intros (F & L & N & K & B). destruct (float_tiles b ls F L N) as (ends & total & E1 & E2 & R).
  exists ends, total. split; [exact E1|]. split; [exact E2|]. split; [exact R|].
  destruct (tiles_error ls _ ends total R L 0 0 zero_near) as (T1 & T2); [lra|exact K|fold (bp 1000) in B; lra|].
  rewrite Rplus_0_l in T1. split; [exact T1|]. intros i a e E. destruct (T2 i a e E) as (A1 & A2).
  rewrite Rplus_0_l in A1, A2. auto.
Qed.

Lemma near_within k n s S : (k <= n)%nat -> (Z.of_nat n <= 2 ^ 26)%Z -> 0 <= S -> near_at k s S ->
  finite_double s /\ within (Datatypes.S k) S (val s) S.
Proof.
  intros H K P (f & -> & F & N & E). split; [now apply fin_double|]. unfold within. rewrite val_sfR.
  apply Rle_trans with (1 := E). fold (bp (-53)). fold u53. apply Rmult_le_compat_r; auto. apply gk_bound. lia.
Qed.

Lemma start_pos ls i : Forall length_double ls -> 0 <= start_of (exact_lengths ls) i.
Proof.
  intros H. unfold start_of, exact_lengths. rewrite firstn_map. fold (exact_lengths (firstn i ls)). apply span_pos.
  revert i. induction H as [|l ls L H IH]; intros [|i]; cbn [firstn]; constructor; auto.
Qed.

Lemma end_start ls i l : nth_error ls i = Some l ->
  end_of (exact_lengths ls) i = start_of (exact_lengths ls) i + val l.
Proof.
  unfold end_of, start_of, exact_lengths, span. revert i. induction ls as [|x ls IH]; intros [|i] E; cbn [nth_error] in E; try discriminate.
  - injection E as ->. cbn [map firstn fold_right]. lra.
  - specialize (IH i E). cbn [map firstn fold_right] in *. lra.
Qed.

(** ** C131: ends and length *)
Lemma C131_ends_lemma (b : beam_t pynum Sec) ls : ordinary_beam b ls -> exists ends total,
  element_ends b = Ok ends /\ beam_length b = Ok total /\ List.length ends = List.length ls /\
  finite_double total /\ within (S (List.length ls)) (span (exact_lengths ls)) (val total) (span (exact_lengths ls)) /\
  forall i s, nth_error ends i = Some s -> exists e, snd s = Some e /\ finite_double (fst s) /\ finite_double e /\
    within (S i) (start_of (exact_lengths ls) i) (val (fst s)) (start_of (exact_lengths ls) i) /\
    within (S (S i)) (end_of (exact_lengths ls) i) (val e) (end_of (exact_lengths ls) i).
Proof.
  intros O. destruct (ordinary_places b ls O) as (ends & total & E1 & E2 & R & T & P).
  destruct O as (F & L & N & K & B). destruct (tiles_some R) as [So Ln]. exists ends, total.
  split; [exact E1|]. split; [exact E2|]. split; [exact Ln|].
  destruct (near_within _ (List.length ls) _ _ (le_n _) K (span_pos ls L) T) as (T1 & T2). split; [exact T1|]. split; [exact T2|].
  intros i [s o] E. rewrite Forall_forall in So. pose proof (So _ (nth_error_In _ _ E)) as Q. cbn [snd fst] in *.
  destruct o as [e|]; [|now contradiction Q]. exists e. split; auto.
  assert (Hi : (i < List.length ls)%nat) by (rewrite <- Ln; apply nth_error_Some; congruence).
  destruct (P i s e E) as (A1 & A2).
  destruct (near_within i (List.length ls) s _ ltac:(lia) K (start_pos ls i L) A1) as (B1 & B2).
  destruct (near_within (S i) (List.length ls) e _ Hi K (start_pos ls (S i) L) A2) as (B3 & B4). auto.
Qed.

(** ** C132: local positions *)

(** The quotient that is a local position, as real numbers. *)
Lemma local_real k S s p l x : near_at k s S -> 0 <= S -> (Z.of_nat k <= 2 ^ 26)%Z ->
  finite_double p -> length_double l -> val l <> 0 -> S + val l <= bp 1000 ->
  val s <= val p -> unit_double x -> x = ndiv (nsub p s) l ->
  within (k + 4) (S + val l) (S + val x * val l) (val p).
Proof.
  intros (sf & -> & Fs & Ns & E) PS K Fp Ll Zl B A Ux Ex.
  apply finite_double_fin in Fp. destruct Fp as (pf & -> & Fp). destruct (length_val l Ll) as (lf & -> & Fl & Pl & Vl).
  destruct (unit_fin _ Ux) as (xf & -> & Fx & X). rewrite !val_sfR in *.
  cbn [nsub ndiv PNum arith2 tofl] in Ex. injection Ex as Ex.
  pose proof u53_small as U. pose proof (gk_bound k K) as G. rewrite S_INR in G. pose proof (gk_pos k) as G0.
  assert (K' : (Z.of_nat k <= 2 ^ 26 + 1)%Z) by lia. pose proof (ku_le k K') as KU. pose proof (pos_INR k) as IK.
  assert (Lp : 0 < sfR lf) by lra.
  assert (Le : sfR lf <= bp 1000) by lra.
  assert (B22 : bp 1022 = bp 22 * bp 1000) by (rewrite <- bp_add; reflexivity).
  assert (B22' : 8 <= bp 22) by (rewrite bp_Z by lia; apply IZR_le; lia). pose proof (bp_pos 1000) as B0.
  pose proof (sub_rounds pf sf Fp Fs) as Rd. set (d := SFsub f64 e64 pf sf) in *.
  assert (Fd : fin64 d).
  { destruct (rounds_fin _ _ Rd) as [|[t Et]]; auto. exfalso. rewrite Et in Ex. subst xf.
    destruct lf as [| | |]; try contradiction; cbn [sfR] in Lp; lra. }
  pose proof (div_rounds d lf Fd Fl ltac:(lra)) as Rq. rewrite <- Ex in Rq.
  assert (Q2 : sfR d / sfR lf <= 2).
  { destruct (Rle_lt_dec (sfR d / sfR lf) 2) as [|G2]; auto. exfalso. rewrite <- two_val in G2.
    assert (F2 : fin64 (S754_finite false 4503599627370496 (-51))) by reflexivity.
    pose proof (rounds_mono _ _ _ _ (rounds_self _ F2) Rq ltac:(lra)) as M.
    apply fle_R in M; auto. rewrite two_val in M. lra. }
  assert (D2 : sfR d <= 2 * sfR lf).
  { replace (sfR d) with (sfR d / sfR lf * sfR lf) by (field; lra). apply Rmult_le_compat_r; lra. }
  assert (PS' : sfR pf - sfR sf <= bp 1022).
  { destruct (Rle_lt_dec (sfR pf - sfR sf) (bp 1022)) as [|G2]; auto. exfalso.
    assert (F2 : fin64 (S754_finite false 4503599627370496 970)) by reflexivity.
    assert (V2 : sfR (S754_finite false 4503599627370496 970) = bp 1022).
    { cbn [sfR signed]. replace 4503599627370496%Z with (2 ^ 52)%Z by reflexivity. rewrite <- bp_Z, <- bp_add by lia. reflexivity. }
    rewrite <- V2 in G2. pose proof (rounds_mono _ _ _ _ (rounds_self _ F2) Rd ltac:(lra)) as M.
    apply fle_R in M; auto. rewrite V2 in M. nra. }
  assert (D0 : 0 <= sfR d).
  { pose proof (rounds_mono _ _ _ _ (rounds_self _ zero_fin) Rd ltac:(cbn [sfR]; lra)) as M. apply fle_R in M; auto. exact I. }
  destruct (sub_rel pf sf Fp Fs) as (e1 & He1 & _ & E1); [rewrite Rabs_right by lra; exact PS'|]. fold d in E1.
  destruct (div_rel d lf Fd Fl ltac:(lra)) as (e2 & h & He2 & Hh & _ & E2).
  { rewrite Rabs_right; [|apply Rle_ge, Rmult_le_pos; [lra|left; apply Rinv_0_lt_compat; lra]].
    apply Rle_trans with (1 := Q2). assert (2 <= bp 1000) by (rewrite bp_Z by lia; apply IZR_le; lia). nra. }
  rewrite <- Ex in E2.
  assert (Bnd : forall e, Rabs e <= u53 -> - u53 <= e <= u53).
  { intros e He. split; [pose proof (Rle_abs (- e)); rewrite Rabs_Ropp in *; lra|pose proof (Rle_abs e); lra]. }
  apply Bnd in He1 as I1. apply Bnd in He2 as I2.
  assert (Hu : bp (-1075) <= u53) by (unfold u53; apply bp_le; lia).
  assert (I3 : - bp (-1075) <= h <= bp (-1075)).
  { split; [pose proof (Rle_abs (- h)); rewrite Rabs_Ropp in *; lra|pose proof (Rle_abs h); lra]. }
  set (q := sfR d / sfR lf) in *.
  assert (q0 : 0 <= q) by (unfold q; apply Rmult_le_pos; [lra|left; apply Rinv_0_lt_compat; lra]).
  assert (q1 : q <= 101 / 100) by nra.
  assert (Dq : sfR d = q * sfR lf) by (unfold q; field; lra).
  set (w := sfR pf - sfR sf) in *. assert (W0 : 0 <= w) by (unfold w; lra).
  assert (W1 : w <= 102 / 100 * sfR lf).
  { assert (w * (1 - u53) <= 101 / 100 * sfR lf); [|nra].
    apply Rle_trans with (w * (1 + e1)); [apply Rmult_le_compat_l; lra|]. rewrite <- E1, Dq. apply Rmult_le_compat_r; lra. }
  unfold within. rewrite E2.
  replace (S + (q * (1 + e2) + h) * sfR lf - sfR pf)
    with ((S - sfR sf) + w * (e1 + e2 + e1 * e2) + h * sfR lf).
  2: { replace ((q * (1 + e2) + h) * sfR lf) with (q * sfR lf * (1 + e2) + h * sfR lf) by ring. rewrite <- Dq, E1. unfold w. ring. }
  apply Rle_trans with (1 := Rabs_triang _ _). apply Rle_trans with (gk k * S + 102 / 100 * sfR lf * (201 / 100 * u53) + u53 * sfR lf).
  - apply Rplus_le_compat.
    + apply Rle_trans with (1 := Rabs_triang _ _). rewrite Rabs_minus_sym. apply Rplus_le_compat; auto.
      rewrite Rabs_mult, (Rabs_right w) by lra. apply Rmult_le_compat; auto using Rabs_pos. apply Rabs_le.
      assert (- (u53 * u53) <= e1 * e2 <= u53 * u53) by (split; nra). nra.
    + rewrite Rabs_mult, (Rabs_right (sfR lf)) by lra. apply Rmult_le_compat_r; lra.
  - fold (bp (-53)). fold u53. rewrite plus_INR. cbn [INR].
    assert (gk k * S <= (INR k + 1) * u53 * S) by (apply Rmult_le_compat_r; auto).
    assert (0 <= u53 * S) by (apply Rmult_le_pos; lra). assert (0 <= u53 * sfR lf) by (apply Rmult_le_pos; lra).
    assert (0 <= INR k * (u53 * sfR lf)) by (apply Rmult_le_pos; lra). nra.
Qed.

(** The sum that is a position along the beam. *)
Lemma beam_real k S s l x : near_at k s S -> 0 <= S -> (Z.of_nat k < 2 ^ 26)%Z ->
  length_double l -> S + val l <= bp 1000 -> unit_double x ->
  finite_double (nadd s (nmul x l)) /\
  Rabs (val (nadd s (nmul x l)) - (S + val x * val l)) <= INR (k + 4) * u53 * (S + val l) + bp (-1074).
Proof.
  intros (sf & -> & Fs & Ns & E) PS K Ll B Ux. destruct (length_val l Ll) as (lf & -> & Fl & Pl & Vl).
  destruct (unit_fin _ Ux) as (xf & -> & Fx & X). rewrite !val_sfR in *.
  cbn [nadd nmul PNum arith2 tofl]. rewrite val_sfR.
  pose proof u53_small as U. pose proof (gk_pos k) as G0.
  assert (K' : (Z.of_nat k <= 2 ^ 26 + 1)%Z) by lia. pose proof (ku_le k K') as KU. pose proof (pos_INR k) as IK.
  assert (G1 : gk k <= 1 / 50). { unfold gk. assert (0 <= INR k * u53) by (apply Rmult_le_pos; lra). nra. }
  pose proof (gk_step k K') as Gs.
  assert (Gb : gk (Datatypes.S k) <= (INR k + 2) * u53).
  { apply Rle_trans with (INR (Datatypes.S (Datatypes.S k)) * u53); [apply gk_bound; lia|]. rewrite !S_INR. lra. }
  assert (B22 : bp 1022 = bp 22 * bp 1000) by (rewrite <- bp_add; reflexivity).
  assert (B22' : 8 <= bp 22) by (rewrite bp_Z by lia; apply IZR_le; lia). pose proof (bp_pos 1000) as B0.
  assert (Xl : 0 <= sfR xf * sfR lf <= sfR lf) by (split; [apply Rmult_le_pos; lra|nra]).
  destruct (mul_rel xf lf Fx Fl) as (e1 & h & He1 & Hh & Fm & E1).
  { rewrite Rabs_right by lra. nra. }
  assert (Bnd : forall e, Rabs e <= u53 -> - u53 <= e <= u53).
  { intros e He. split; [pose proof (Rle_abs (- e)); rewrite Rabs_Ropp in *; lra|pose proof (Rle_abs e); lra]. }
  apply Bnd in He1 as I1.
  assert (I3 : - bp (-1075) <= h <= bp (-1075)).
  { split; [pose proof (Rle_abs (- h)); rewrite Rabs_Ropp in *; lra|pose proof (Rle_abs h); lra]. }
  assert (Hb : bp (-1075) <= bp 1000) by (apply bp_le; lia). pose proof (bp_pos (-1075)) as Hb0.
  assert (A : sfR sf <= 2 * S) by (pose proof (Rle_abs (sfR sf - S)); nra).
  set (m := SFmul f64 e64 xf lf) in *. set (y := sfR xf * sfR lf) in *.
  destruct (add_rel sf m Fs Fm) as (e2 & He2 & Fa & E2).
  { apply Rabs_le. rewrite E1. assert (- y <= y * e1 <= y) by (split; nra). split; nra. }
  apply Bnd in He2 as I2. split; [now apply fin_double|]. rewrite E2, E1.
  replace ((sfR sf + (y * (1 + e1) + h)) * (1 + e2) - (S + y))
    with ((sfR sf - S) * (1 + e2) + S * e2 + y * (e1 + e2 + e1 * e2) + h * (1 + e2)) by ring.
  apply Rle_trans with (gk k * S * (1 + u53) + S * u53 + sfR lf * (201 / 100 * u53) + bp (-1075) * 2).
  - repeat (apply Rle_trans with (1 := Rabs_triang _ _); apply Rplus_le_compat).
    + rewrite Rabs_mult. apply Rmult_le_compat; auto using Rabs_pos. rewrite Rabs_right; lra.
    + rewrite Rabs_mult, Rabs_right by lra. apply Rmult_le_compat_l; lra.
    + rewrite Rabs_mult, (Rabs_right y) by lra. apply Rmult_le_compat; auto using Rabs_pos; [lra|lra|]. apply Rabs_le.
      assert (- (u53 * u53) <= e1 * e2 <= u53 * u53) by (split; nra). nra.
    + rewrite Rabs_mult. apply Rmult_le_compat; auto using Rabs_pos. rewrite Rabs_right; lra.
  - replace (bp (-1074)) with (bp (-1075) * 2) by (change (-1074)%Z with (-1075 + 1)%Z; rewrite <- bp_double; ring).
    rewrite plus_INR. cbn [INR].
    assert ((gk k * (1 + u53) + u53) * S <= (INR k + 2) * u53 * S) by (apply Rmult_le_compat_r; lra).
    assert (0 <= u53 * S) by (apply Rmult_le_pos; lra). assert (0 <= u53 * sfR lf) by (apply Rmult_le_pos; lra).
    assert (0 <= INR k * (u53 * sfR lf)) by (apply Rmult_le_pos; lra). nra.
Qed.
End P.
