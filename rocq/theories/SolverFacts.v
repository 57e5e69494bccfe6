(** Proofs about bisection and secant over the reals. *)

From Coq Require Import ZArith Reals Lra Lia Bool List.
From Verif Require Import Base Num RNum Solvers SolverSpec.
Import ListNotations.
Open Scope R_scope.

Lemma zero_lit : nflt 0 1 = (0 : R).
Proof. cbn. field. Qed.
Lemma rel_tol_val : rel_tol = / 1000000000.
Proof. unfold rel_tol. cbn. field. Qed.

Lemma slack_sym tol a b : slack tol a b = slack tol b a.
Proof. unfold slack. f_equal. f_equal. apply Rmax_comm. Qed.
Lemma slack_tol tol a b : tol <= slack tol a b.
Proof. apply Rmax_l. Qed.
Lemma indist_sym tol a b : indistinguishable tol a b <-> indistinguishable tol b a.
Proof. unfold indistinguishable. rewrite (slack_sym tol b a), (Rabs_minus_sym a b). tauto. Qed.

Lemma isclose_R a b tol : 0 <= tol ->
  exists r, isclose a b tol = Ok r /\ (r = true <-> indistinguishable tol a b).
Proof.
  intros Ht. unfold isclose. rewrite zero_lit. cbn [nltb neqb nisinf nabs nsub nmul nleb RNum orb].
  unfold Rltb. destruct (Rlt_dec tol 0); [lra|].
  unfold indistinguishable, slack. rewrite rel_tol_val.
  assert (K : 0 < / 1000000000) by (apply Rinv_0_lt_compat; lra).
  destruct (Reqb a b) eqn:E.
  - apply Reqb_true in E. subst b. exists true. split; auto. split; auto. intros _.
    rewrite Rminus_eq_0, Rabs_R0. apply Rle_trans with tol; auto. apply Rmax_l.
  - eexists. split; [reflexivity|]. rewrite !orb_true_iff, !Rleb_true.
    rewrite !Rabs_mult, (Rabs_right (/ 1000000000)) by lra.
    pose proof (Rabs_pos a). pose proof (Rabs_pos b).
    set (k := / 1000000000) in *. clearbody k.
    unfold Rmax. destruct (Rle_dec (Rabs a) (Rabs b)) as [L|L].
    + assert (k * Rabs a <= k * Rabs b) by (apply Rmult_le_compat_l; lra).
      destruct (Rle_dec tol (k * Rabs b)); lra.
    + assert (k * Rabs b <= k * Rabs a) by (apply Rmult_le_compat_l; lra).
      destruct (Rle_dec tol (k * Rabs a)); lra.
Qed.

Lemma isclose_neg a b (tol : R) : tol < 0 -> isclose a b tol = Err ValueError.
Proof.
  intros H. unfold isclose. rewrite zero_lit. cbn. unfold Rltb. destruct (Rlt_dec tol 0); auto. lra.
Qed.

Lemma indist_zero y tol : 0 <= tol -> indistinguishable tol y 0 <-> Rabs y <= tol.
Proof.
  intros Ht. unfold indistinguishable, slack.
  replace (0 - y) with (- y) by ring. rewrite Rabs_Ropp, Rabs_R0.
  pose proof (Rabs_pos y). rewrite (Rmax_left (Rabs y) 0) by lra.
  assert (K : 0 < / 1000000000 < 1) by lra.
  split.
  - unfold Rmax. destruct (Rle_dec tol (/ 1000000000 * Rabs y)); lra.
  - intros L. apply Rle_trans with tol; auto. apply Rmax_l.
Qed.

Lemma keep_going_R a b tol : 0 <= tol ->
  exists r, keep_going a b tol (nsub b a) = Ok r /\ keep_going a b tol (nsub a b) = Ok r /\
  (r = true <-> ~ indistinguishable tol a b).
Proof.
  intros Ht. unfold keep_going. cbn [nltb nabs nsub RNum].
  rewrite (Rabs_minus_sym a b). destruct (isclose_R a b tol Ht) as (c & E & Hc). rewrite E. cbn [bind].
  unfold Rltb. destruct (Rlt_dec tol (Rabs (b - a))) as [L|L].
  - exists (negb c). split; auto. split; auto. rewrite <- Hc. destruct c; cbn; split; congruence.
  - exists false. split; auto. split; auto. split; [discriminate|]. intros H. exfalso. apply H.
    unfold indistinguishable. apply Rle_trans with tol; [lra|]. apply slack_tol.
Qed.

(** * Bisection *)

Section Bis.
Variable func : R -> res R.

Lemma inside_mid lo hi : inside lo hi ((lo + hi) / 2).
Proof. unfold inside, Rmin, Rmax. destruct (Rle_dec lo hi); lra. Qed.
Lemma inside_l lo hi : inside lo hi lo.
Proof. unfold inside, Rmin, Rmax. destruct (Rle_dec lo hi); lra. Qed.
Lemma inside_r lo hi : inside lo hi hi.
Proof. unfold inside, Rmin, Rmax. destruct (Rle_dec lo hi); lra. Qed.
Lemma inside_trans lo hi a b x : inside lo hi a -> inside lo hi b -> inside a b x -> inside lo hi x.
Proof. unfold inside, Rmin, Rmax. destruct (Rle_dec lo hi), (Rle_dec a b); lra. Qed.

Lemma bis_loop_inside fuel : forall lo hi tol mi fl i x n,
  bis_loop func fuel lo hi tol mi fl i = Ok (x, n) -> inside lo hi x.
Proof.
  induction fuel as [|fuel IH]; intros lo hi tol mi fl i x n H; cbn [bis_loop] in H.
  - destruct (keep_going _ _ _ _) as [[]|]; cbn in H; try discriminate.
    injection H as <- _. apply inside_mid.
  - destruct (keep_going _ _ _ _) as [[]|]; cbn [bind negb] in H; try discriminate.
    2:{ injection H as <- _. apply inside_mid. }
    destruct (func lo) as [yl|]; cbn [bind] in H; [|discriminate].
    destruct (func hi) as [yh|]; cbn [bind] in H; [|discriminate].
    destruct (isclose yl _ _) as [[]|]; cbn [bind] in H; try discriminate.
    { injection H as <- _. apply inside_l. }
    destruct (isclose yh _ _) as [[]|]; cbn [bind] in H; try discriminate.
    { injection H as <- _. apply inside_r. }
    cbn [nisinf nisnan RNum orb] in H.
    destruct (nltb _ (nmul yl yh)); [discriminate|].
    destruct (func _) as [ym|]; cbn [bind] in H; [|discriminate].
    cbn [ndiv nadd nint RNum] in H.
    pose proof (inside_mid lo hi). pose proof (inside_l lo hi). pose proof (inside_r lo hi).
    destruct (nltb _ (nmul yl ym)).
    + destruct (match mi with Some m => _ | None => _ end).
      * destruct fl; [discriminate|]. injection H as <- _.
        eapply inside_trans; [| |apply inside_mid]; auto.
      * apply IH in H. eapply inside_trans; [| |exact H]; auto.
    + destruct (match mi with Some m => _ | None => _ end).
      * destruct fl; [discriminate|]. injection H as <- _.
        eapply inside_trans; [| |apply inside_mid]; auto.
      * apply IH in H. eapply inside_trans; [| |exact H]; auto.
Qed.

Lemma bisection_inside fuel lo hi tol mi fl x n :
  bisection func fuel lo hi tol mi fl = Ok (x, n) -> inside lo hi x.
Proof.
  unfold bisection. cbn [nisinf nisnan RNum orb].
  destruct (isclose hi lo tol) as [[]|]; cbn [bind]; try discriminate.
  destruct (match mi with Some m => _ | None => _ end); [discriminate|].
  apply bis_loop_inside.
Qed.

End Bis.

(** * Total functions *)

Section Tot.
Variable f : R -> R.

Definition next_lo lo hi := if Rltb 0 (f lo * f ((lo + hi) / 2)) then (lo + hi) / 2 else lo.
Definition next_hi lo hi := if Rltb 0 (f lo * f ((lo + hi) / 2)) then hi else (lo + hi) / 2.

(** The loop as an equation. *)
Lemma bis_loop_eq fuel lo hi tol mi fl i : 0 <= tol ->
  indistinguishable tol lo hi /\
    bis_loop (total f) fuel lo hi tol mi fl i = Ok ((lo + hi) / 2, i) \/
  ~ indistinguishable tol lo hi /\
  match fuel with
  | O => bis_loop (total f) fuel lo hi tol mi fl i = Err Diverges
  | S fuel' =>
      Rabs (f lo) <= tol /\ bis_loop (total f) fuel lo hi tol mi fl i = Ok (lo, i + 1)%Z \/
      tol < Rabs (f lo) /\ Rabs (f hi) <= tol /\
        bis_loop (total f) fuel lo hi tol mi fl i = Ok (hi, i + 1)%Z \/
      tol < Rabs (f lo) /\ tol < Rabs (f hi) /\ 0 < f lo * f hi /\
        bis_loop (total f) fuel lo hi tol mi fl i = Err ValueError \/
      tol < Rabs (f lo) /\ tol < Rabs (f hi) /\ f lo * f hi <= 0 /\
        bis_loop (total f) fuel lo hi tol mi fl i =
        (if match mi with Some m => (m <=? i + 1)%Z | None => false end
         then if fl then Err ValueError else Ok ((next_lo lo hi + next_hi lo hi) / 2, (i + 1)%Z)
         else bis_loop (total f) fuel' (next_lo lo hi) (next_hi lo hi) tol mi fl (i + 1))
  end.
Proof.
  intros Ht. destruct (keep_going_R hi lo tol Ht) as (g & _ & E & Hg).
  destruct g.
  - right. assert (Hn : ~ indistinguishable tol lo hi) by (rewrite indist_sym; now apply Hg).
    split; auto. destruct fuel as [|fuel]; cbn [bis_loop]; rewrite E; cbn [bind negb]; auto.
    change (total f lo) with (Ok (f lo)). change (total f hi) with (Ok (f hi)). cbn [bind]. rewrite zero_lit.
    destruct (isclose_R (f lo) 0 tol Ht) as (c & Ec & Hc). rewrite (indist_zero (f lo) tol Ht) in Hc.
    rewrite Ec. cbn [bind]. destruct c.
    { left. split; auto. now apply Hc. }
    destruct (isclose_R (f hi) 0 tol Ht) as (d & Ed & Hd). rewrite (indist_zero (f hi) tol Ht) in Hd.
    rewrite Ed. cbn [bind].
    assert (L1 : tol < Rabs (f lo)).
    { destruct (Rle_dec (Rabs (f lo)) tol) as [L|L]; [apply Hc in L; discriminate|lra]. }
    destruct d.
    { right. left. split; auto. split; auto. now apply Hd. }
    assert (L2 : tol < Rabs (f hi)).
    { destruct (Rle_dec (Rabs (f hi)) tol) as [L|L]; [apply Hd in L; discriminate|lra]. }
    right. right. cbn [nisinf nisnan nltb nmul ndiv nadd nint RNum orb].
    destruct (Rltb 0 (f lo * f hi)) eqn:S.
    + left. apply Rltb_true in S. auto.
    + right. apply Rltb_false in S. repeat split; auto.
  - left. assert (Hn : indistinguishable tol hi lo).
    { destruct (Rle_dec (Rabs (lo - hi)) (slack tol hi lo)) as [L|L]; auto.
      assert (false = true) by now apply Hg. discriminate. }
    split; [now apply indist_sym|]. destruct fuel as [|fuel]; cbn [bis_loop]; rewrite E; reflexivity.
Qed.

Lemma next_cases lo hi : f lo <> 0 -> f lo * f hi <= 0 ->
  (next_lo lo hi = (lo + hi) / 2 /\ next_hi lo hi = hi \/
   next_lo lo hi = lo /\ next_hi lo hi = (lo + hi) / 2) /\
  f (next_lo lo hi) * f (next_hi lo hi) <= 0.
Proof.
  intros N S. unfold next_lo, next_hi. set (m := (lo + hi) / 2).
  destruct (Rltb 0 (f lo * f m)) eqn:E.
  - apply Rltb_true in E. split; auto.
    destruct (Rle_dec (f m * f hi) 0) as [|P]; auto. exfalso.
    assert (0 < (f lo * f m) * (f m * f hi)) by (apply Rmult_lt_0_compat; lra).
    assert ((f lo * f m) * (f m * f hi) = (f lo * f hi) * (f m * f m)) by ring.
    assert (0 <= f m * f m) by nra. nra.
  - apply Rltb_false in E. split; auto.
Qed.

Lemma next_width lo hi : Rabs (next_hi lo hi - next_lo lo hi) = Rabs (hi - lo) / 2.
Proof.
  unfold next_lo, next_hi. destruct (Rltb _ _).
  - replace (hi - (lo + hi) / 2) with ((hi - lo) * / 2) by field.
    rewrite Rabs_mult, (Rabs_right (/ 2)) by lra. reflexivity.
  - replace ((lo + hi) / 2 - lo) with ((hi - lo) * / 2) by field.
    rewrite Rabs_mult, (Rabs_right (/ 2)) by lra. reflexivity.
Qed.

Lemma next_inside lo hi : inside lo hi (next_lo lo hi) /\ inside lo hi (next_hi lo hi).
Proof.
  pose proof (inside_mid lo hi). pose proof (inside_l lo hi). pose proof (inside_r lo hi).
  unfold next_lo, next_hi. destruct (Rltb _ _); auto.
Qed.

(** ** C41 *)

Lemma root_between lo hi : continuity f -> f lo * f hi <= 0 -> exists r, inside lo hi r /\ f r = 0.
Proof.
  intros C S. unfold inside, Rmin, Rmax. destruct (Rle_dec lo hi) as [L|L].
  - destruct (Rle_dec (f lo) 0) as [A|A].
    + destruct (Rle_dec 0 (f hi)) as [B|B].
      * destruct (IVT_cor f lo hi C L S) as (r & H1 & H2). eauto.
      * exists lo. split; [lra|]. destruct (Req_dec (f lo) 0); auto. exfalso.
        assert (0 < f lo * f hi) by nra. lra.
    + destruct (IVT_cor f lo hi C L S) as (r & H1 & H2). eauto.
  - assert (S' : f hi * f lo <= 0) by lra.
    destruct (IVT_cor f hi lo C) as (r & H1 & H2); [lra|auto|]. exists r. split; auto. 
Qed.

Lemma slack_inside tol lo hi a b : inside lo hi a -> inside lo hi b -> slack tol a b <= slack tol lo hi.
Proof.
  intros Ha Hb. unfold slack. apply Rle_max_compat_l. apply Rmult_le_compat_l; [lra|].
  assert (G : forall x, inside lo hi x -> Rabs x <= Rmax (Rabs lo) (Rabs hi)).
  { intros x. unfold inside, Rmin, Rmax. destruct (Rle_dec lo hi), (Rle_dec (Rabs lo) (Rabs hi));
      unfold Rabs in *; destruct (Rcase_abs x), (Rcase_abs lo), (Rcase_abs hi); lra. }
  apply Rmax_lub; auto.
Qed.

(** A root near the result, or a small value there; [fl = true]: only returns by
    convergence. *)
Lemma bis_loop_root (Hc : continuity f) lo0 hi0 tol mi : 0 <= tol -> forall fuel lo hi i x n,
  inside lo0 hi0 lo -> inside lo0 hi0 hi -> (f lo * f hi <= 0 \/ ~ indistinguishable tol lo hi) ->
  bis_loop (total f) fuel lo hi tol mi true i = Ok (x, n) ->
  Rabs (f x) <= tol \/
  exists r, inside lo0 hi0 r /\ f r = 0 /\ Rabs (x - r) <= slack tol lo0 hi0 / 2.
Proof.
  intros Ht. induction fuel as [|fuel IH]; intros lo hi i x n Il Ih Hs H.
  - destruct (bis_loop_eq 0 lo hi tol mi true i Ht) as [[D E]|[D E]]; rewrite E in H; [|discriminate].
    injection H as <- _. right. destruct Hs as [Hs|Hs]; [|contradiction].
    destruct (root_between lo hi Hc Hs) as (r & Ir & Hr).
    exists r. split; [exact (inside_trans lo0 hi0 lo hi r Il Ih Ir)|]. split; auto.
    pose proof (slack_inside tol lo0 hi0 lo hi Il Ih). unfold indistinguishable in D.
    unfold inside, Rmin, Rmax in Ir. unfold Rabs in *.
    destruct (Rle_dec lo hi), (Rcase_abs (hi - lo)), (Rcase_abs ((lo + hi) / 2 - r)); lra.
  - destruct (bis_loop_eq (S fuel) lo hi tol mi true i Ht)
      as [[D E]|[D [[L E]|[[L1 [L2 E]]|[(L1 & L2 & S & E)|(L1 & L2 & S & E)]]]]]; rewrite E in H.
    + injection H as <- _. right. destruct Hs as [Hs|Hs]; [|contradiction].
      destruct (root_between lo hi Hc Hs) as (r & Ir & Hr).
      exists r. split; [exact (inside_trans lo0 hi0 lo hi r Il Ih Ir)|]. split; auto.
      pose proof (slack_inside tol lo0 hi0 lo hi Il Ih). unfold indistinguishable in D.
      unfold inside, Rmin, Rmax in Ir. unfold Rabs in *.
      destruct (Rle_dec lo hi), (Rcase_abs (hi - lo)), (Rcase_abs ((lo + hi) / 2 - r)); lra.
    + injection H as <- _. auto.
    + injection H as <- _. auto.
    + discriminate.
    + destruct (match mi with Some m => _ | None => _ end); [discriminate|].
      destruct (next_inside lo hi) as [N1 N2].
      apply IH in H; auto.
      * exact (inside_trans lo0 hi0 lo hi _ Il Ih N1).
      * exact (inside_trans lo0 hi0 lo hi _ Il Ih N2).
      * left. apply next_cases; auto. intros Z. rewrite Z, Rabs_R0 in L1. lra.
Qed.

Lemma bisection_eq fuel lo hi tol mi fl : 0 <= tol -> ~ indistinguishable tol lo hi -> limit_ok mi ->
  bisection (total f) fuel lo hi tol mi fl = bis_loop (total f) fuel lo hi tol mi fl 0.
Proof.
  intros Ht Hd Hm. unfold bisection. cbn [nisinf nisnan RNum orb].
  destruct (isclose_R hi lo tol Ht) as (c & E & Hc). rewrite E. cbn [bind].
  rewrite (indist_sym tol hi lo) in Hc. destruct c; [exfalso; apply Hd; now apply Hc|].
  destruct mi as [m|]; auto. cbn in Hm. destruct (m <=? 1)%Z eqn:L; auto. apply Z.leb_le in L. lia.
Qed.

Lemma bisection_ok_inv func fuel lo hi tol mi fl r :
  bisection func fuel lo hi tol mi fl = Ok r ->
  0 <= tol /\ ~ indistinguishable tol lo hi /\ limit_ok mi.
Proof.
  unfold bisection. cbn [nisinf nisnan RNum orb]. intros H.
  destruct (Rlt_dec tol 0) as [L|L].
  { rewrite (isclose_neg hi lo tol L) in H. discriminate. }
  split; [lra|]. destruct (isclose_R hi lo tol) as (c & E & Hc); [lra|]. rewrite E in H. cbn [bind] in H.
  destruct c; [discriminate|]. split.
  - rewrite indist_sym. intros D. apply Hc in D. discriminate.
  - destruct mi as [m|]; cbn; auto. destruct (m <=? 1)%Z eqn:K; [discriminate|]. now apply Z.leb_gt in K.
Qed.

Lemma bisection_root fuel lo hi tol mi x n : continuity f ->
  bisection (total f) fuel lo hi tol mi true = Ok (x, n) ->
  Rabs (f x) <= tol \/
  exists r, inside lo hi r /\ f r = 0 /\ Rabs (x - r) <= slack tol lo hi / 2.
Proof.
  intros Hc H. destruct (bisection_ok_inv _ _ _ _ _ _ _ _ H) as (Ht & Hd & Hm).
  rewrite bisection_eq in H by auto.
  refine (bis_loop_root Hc lo hi tol mi Ht fuel lo hi 0%Z x n _ _ _ H); auto using inside_l, inside_r.
Qed.

(** ** C43, C45 *)

Lemma bis_loop_terminates fl tol : 0 < tol -> forall N lo hi i,
  f lo * f hi <= 0 -> Rabs (hi - lo) <= tol * 2 ^ N ->
  exists x n, bis_loop (total f) N lo hi tol None fl i = Ok (x, n) /\ (i <= n <= i + Z.of_nat N)%Z.
Proof.
  intros Ht. induction N as [|N IH]; intros lo hi i S W.
  - destruct (bis_loop_eq 0 lo hi tol None fl i) as [[D E]|[D E]]; [lra| |].
    + rewrite E. do 2 eexists. split; [reflexivity|]. lia.
    + exfalso. apply D. unfold indistinguishable. cbn in W. apply Rle_trans with tol; [lra|apply slack_tol].
  - destruct (bis_loop_eq (Datatypes.S N) lo hi tol None fl i)
      as [[D E]|[D [[L E]|[[L1 [L2 E]]|[(L1 & L2 & P & E)|(L1 & L2 & P & E)]]]]]; [lra| | | | |].
    + rewrite E. do 2 eexists. split; [reflexivity|]. lia.
    + rewrite E. do 2 eexists. split; [reflexivity|]. lia.
    + rewrite E. do 2 eexists. split; [reflexivity|]. lia.
    + lra.
    + rewrite E. destruct (IH (next_lo lo hi) (next_hi lo hi) (i + 1)%Z) as (x & n & E' & B).
      * apply next_cases; auto. intros Z. rewrite Z, Rabs_R0 in L1. lra.
      * rewrite next_width. cbn in W. lra.
      * rewrite E'. do 2 eexists. split; [reflexivity|]. lia.
Qed.

Lemma bisection_terminates N lo hi tol fl : 0 < tol -> ~ indistinguishable tol lo hi ->
  f lo * f hi <= 0 -> Rabs (hi - lo) <= tol * 2 ^ N ->
  exists x n, bisection (total f) N lo hi tol None fl = Ok (x, n) /\ (0 <= n <= Z.of_nat N)%Z.
Proof.
  intros Ht Hd S W. rewrite bisection_eq; auto; [|lra|exact I].
  apply bis_loop_terminates; auto.
Qed.

(** With any fuel, a bracketing bisection without limit can only return. *)
Lemma bis_loop_no_error fl tol : 0 <= tol -> forall fuel lo hi i,
  f lo * f hi <= 0 ->
  bis_loop (total f) fuel lo hi tol None fl i = Err Diverges \/
  exists r, bis_loop (total f) fuel lo hi tol None fl i = Ok r.
Proof.
  intros Ht. induction fuel as [|fuel IH]; intros lo hi i S.
  - destruct (bis_loop_eq 0 lo hi tol None fl i Ht) as [[D E]|[D E]]; rewrite E; eauto.
  - destruct (bis_loop_eq (Datatypes.S fuel) lo hi tol None fl i Ht)
      as [[D E]|[D [[L E]|[[L1 [L2 E]]|[(L1 & L2 & P & E)|(L1 & L2 & P & E)]]]]]; rewrite E; eauto; [lra|].
    apply IH. apply next_cases; auto. intros Z. rewrite Z, Rabs_R0 in L1. lra.
Qed.

Lemma bis_loop_limit_ok tol m : 0 <= tol -> forall fuel lo hi i,
  f lo * f hi <= 0 -> (i < m)%Z -> (m <= i + Z.of_nat fuel)%Z ->
  exists r, bis_loop (total f) fuel lo hi tol (Some m) false i = Ok r.
Proof.
  intros Ht. induction fuel as [|fuel IH]; intros lo hi i S Hi Hm; [lia|].
  destruct (bis_loop_eq (Datatypes.S fuel) lo hi tol (Some m) false i Ht)
      as [[D E]|[D [[L E]|[[L1 [L2 E]]|[(L1 & L2 & P & E)|(L1 & L2 & P & E)]]]]]; rewrite E; eauto; [lra|].
  destruct (m <=? i + 1)%Z eqn:K; eauto. apply Z.leb_gt in K.
  apply IH; try lia. apply next_cases; auto. intros Z. rewrite Z, Rabs_R0 in L1. lra.
Qed.

Lemma same_sign_rejected fuel lo hi tol mi fl :
  (tol < f lo /\ tol < f hi \/ f lo < - tol /\ f hi < - tol) -> (0 < fuel)%nat ->
  bisection (total f) fuel lo hi tol mi fl = Err ValueError.
Proof.
  intros Hs Hf. unfold bisection. cbn [nisinf nisnan RNum orb].
  destruct (Rlt_dec tol 0) as [L|L].
  { rewrite (isclose_neg hi lo tol L). reflexivity. }
  assert (Ht : 0 <= tol) by lra.
  destruct (isclose_R hi lo tol Ht) as (c & E & Hc). rewrite E. cbn [bind].
  destruct c; auto. destruct (match mi with Some m => _ | None => _ end); auto.
  assert (A1 : tol < Rabs (f lo)) by (unfold Rabs; destruct (Rcase_abs (f lo)); lra).
  assert (A2 : tol < Rabs (f hi)) by (unfold Rabs; destruct (Rcase_abs (f hi)); lra).
  assert (A3 : 0 < f lo * f hi) by nra.
  destruct fuel as [|fuel]; [lia|].
  destruct (bis_loop_eq (Datatypes.S fuel) lo hi tol mi fl 0 Ht)
      as [[D E']|[D [[L' E']|[[L1 [L2 E']]|[(L1 & L2 & P & E')|(L1 & L2 & P & E')]]]]]; try lra; auto.
  rewrite indist_sym in D. apply Hc in D. discriminate.
Qed.

(** ** C44 *)

Lemma bis_loop_limit tol m : 0 <= tol -> forall fuel lo hi i x n,
  (i < m)%Z ->
  bis_loop (total f) fuel lo hi tol (Some m) true i = Err ValueError ->
  bis_loop (total f) fuel lo hi tol None true i = Ok (x, n) -> (m <= n)%Z.
Proof.
  intros Ht. induction fuel as [|fuel IH]; intros lo hi i x n Hi H1 H2.
  - destruct (bis_loop_eq 0 lo hi tol None true i Ht) as [[D E]|[D E]]; rewrite E in H2; [|discriminate].
    destruct (bis_loop_eq 0 lo hi tol (Some m) true i Ht) as [[D' E']|[D' E']]; rewrite E' in H1; [discriminate|].
    discriminate.
  - destruct (bis_loop_eq (Datatypes.S fuel) lo hi tol (Some m) true i Ht)
      as [[D E]|[D [[L E]|[[L1 [L2 E]]|[(L1 & L2 & P & E)|(L1 & L2 & P & E)]]]]]; rewrite E in H1; try discriminate.
    + destruct (bis_loop_eq (Datatypes.S fuel) lo hi tol None true i Ht)
        as [[D' E']|[D' [[L' E']|[[L1' [L2' E']]|[(L1' & L2' & P' & E')|(L1' & L2' & P' & E')]]]]];
        rewrite E' in H2; try discriminate; try lra. contradiction.
    + destruct (bis_loop_eq (Datatypes.S fuel) lo hi tol None true i Ht)
        as [[D' E']|[D' [[L' E']|[[L1' [L2' E']]|[(L1' & L2' & P' & E')|(L1' & L2' & P' & E')]]]]];
        rewrite E' in H2; try discriminate; try lra; try contradiction.
      destruct (m <=? i + 1)%Z eqn:K.
      * apply Z.leb_le in K.
        enough (i + 1 <= n)%Z by lia.
        clear -Ht H2. revert H2. generalize (next_lo lo hi) (next_hi lo hi) (i + 1)%Z.
        clear. intros a b j H. revert a b j H. induction fuel as [|fuel IH]; intros a b j H.
        -- cbn [bis_loop] in H. destruct (keep_going _ _ _ _) as [[]|]; cbn in H; try discriminate.
           injection H as _ <-. lia.
        -- cbn [bis_loop] in H. destruct (keep_going _ _ _ _) as [[]|]; cbn [bind negb] in H; try discriminate.
           2:{ injection H as _ <-. lia. }
           unfold total in H. cbn [bind] in H.
           destruct (isclose (f a) _ _) as [[]|]; cbn [bind] in H; try discriminate.
           { injection H as _ <-. lia. }
           destruct (isclose (f b) _ _) as [[]|]; cbn [bind] in H; try discriminate.
           { injection H as _ <-. lia. }
           cbn [nisinf nisnan RNum orb] in H.
           destruct (nltb _ (nmul (f a) (f b))); [discriminate|].
           apply IH in H. lia.
      * apply Z.leb_gt in K. eapply IH; eauto.
Qed.

Lemma bisection_limit fuel lo hi tol m x n : (1 < m)%Z ->
  bisection (total f) fuel lo hi tol (Some m) true = Err ValueError ->
  bisection (total f) fuel lo hi tol None true = Ok (x, n) -> (m <= n)%Z.
Proof.
  intros Hm H1 H2. destruct (bisection_ok_inv _ _ _ _ _ _ _ _ H2) as (Ht & Hd & _).
  rewrite bisection_eq in H1, H2; auto; try exact I.
  refine (bis_loop_limit tol m Ht fuel lo hi 0%Z x n _ H1 H2). lia.
Qed.

End Tot.

(** * Secant *)

Section Sec.
Variable f : R -> R.

Definition next_x x1 x2 := (x1 * f x2 - x2 * f x1) / (f x2 - f x1).
Definition on_stop lo hi tol (fallback : bool) (nargs : nat) : res (R * Z * bool) :=
  if fallback then
    match nargs with
    | O => let! r := bisection (total f) (Z.to_nat 20000) lo hi tol default_max_its true in
           Ok (fst r, snd r, true)
    | S _ => Err TypeError
    end
  else Err ValueError.

Lemma sec_loop_eq fuel lo hi tol mi fb na x1 x2 x3 i : 0 <= tol ->
  indistinguishable tol x1 x2 /\
    sec_loop (total f) fuel lo hi tol mi fb na x1 x2 x3 i =
      match x3 with Some x => Ok (x, i, false) | None => Err AttributeError end \/
  ~ indistinguishable tol x1 x2 /\
  match fuel with
  | O => sec_loop (total f) fuel lo hi tol mi fb na x1 x2 x3 i = Err Diverges
  | S fuel' =>
      indistinguishable tol (f x2) (f x1) /\
        sec_loop (total f) fuel lo hi tol mi fb na x1 x2 x3 i = Err ValueError \/
      ~ indistinguishable tol (f x2) (f x1) /\
        sec_loop (total f) fuel lo hi tol mi fb na x1 x2 x3 i =
        (if match mi with Some m => (m <=? i + 1)%Z | None => false end
         then on_stop lo hi tol fb na
         else sec_loop (total f) fuel' lo hi tol mi fb na x2 (next_x x1 x2) (Some (next_x x1 x2)) (i + 1))
  end.
Proof.
  intros Ht. destruct (keep_going_R x1 x2 tol Ht) as (g & E & _ & Hg).
  destruct g.
  - right. split; [now apply Hg|]. destruct fuel as [|fuel]; cbn [sec_loop]; rewrite E; cbn [bind negb]; auto.
    change (total f x1) with (Ok (f x1)). change (total f x2) with (Ok (f x2)). cbn [bind].
    destruct (isclose_R (f x2) (f x1) tol Ht) as (c & Ec & Hc).
    cbn [nisinf RNum orb]. rewrite Ec. cbn [bind]. destruct c.
    { left. split; auto. now apply Hc. }
    right. split. { intros D. apply Hc in D. discriminate. }
    assert (N : f x2 - f x1 <> 0).
    { intros Z. assert (indistinguishable tol (f x2) (f x1)).
      { unfold indistinguishable. replace (f x1 - f x2) with (- (f x2 - f x1)) by ring. rewrite Z, Ropp_0, Rabs_R0.
        apply Rle_trans with tol; auto. apply slack_tol. }
      apply Hc in H. discriminate. }
    unfold pydiv. cbn [nsub nmul ndiv neqb nint RNum nisnan nisinf orb].
    destruct (Reqb _ _) eqn:Z.
    { apply Reqb_true in Z. rewrite ?zero_lit in Z. cbn in Z. contradiction. }
    cbn [bind]. unfold on_stop. fold (next_x x1 x2).
    destruct (match mi with Some m => _ | None => _ end); reflexivity.
  - left. assert (Hn : indistinguishable tol x1 x2).
    { destruct (Rle_dec (Rabs (x2 - x1)) (slack tol x1 x2)) as [L|L]; auto.
      assert (false = true) by now apply Hg. discriminate. }
    split; auto. destruct fuel as [|fuel]; cbn [sec_loop]; rewrite E; reflexivity.
Qed.

Lemma secant_eq fuel lo hi tol mi fb na : 0 <= tol -> ~ indistinguishable tol lo hi ->
  secant (total f) fuel lo hi tol mi fb na = sec_loop (total f) fuel lo hi tol mi fb na lo hi None 0.
Proof.
  intros Ht Hd. unfold secant. cbn [nisinf nisnan RNum orb].
  destruct (isclose_R hi lo tol Ht) as (c & E & Hc). rewrite E. cbn [bind].
  rewrite (indist_sym tol hi lo) in Hc. destruct c; auto. exfalso. apply Hd. now apply Hc.
Qed.

Lemma secant_cases fuel lo hi tol mi fb na :
  secant (total f) fuel lo hi tol mi fb na = Err ValueError \/
  0 <= tol /\ ~ indistinguishable tol lo hi /\
  secant (total f) fuel lo hi tol mi fb na = sec_loop (total f) fuel lo hi tol mi fb na lo hi None 0.
Proof.
  destruct (Rlt_dec tol 0) as [L|L].
  - left. unfold secant. cbn [nisinf nisnan RNum orb]. rewrite (isclose_neg hi lo tol L). reflexivity.
  - assert (Ht : 0 <= tol) by lra. destruct (isclose_R hi lo tol Ht) as (c & E & Hc).
    rewrite (indist_sym tol hi lo) in Hc. destruct c.
    + left. unfold secant. cbn [nisinf nisnan RNum orb]. rewrite E. reflexivity.
    + right. split; auto. assert (~ indistinguishable tol lo hi) by (intros D; apply Hc in D; discriminate).
      split; auto. now apply secant_eq.
Qed.

(** ** C46 *)
Lemma next_affine m q x1 x2 : (forall x, f x = m * x + q) -> f x2 - f x1 <> 0 -> next_x x1 x2 = - q / m.
Proof.
  intros F N. unfold next_x. rewrite !F in *.
  assert (m * (x2 - x1) <> 0) by (intros Z; apply N; ring_simplify; lra).
  assert (m <> 0) by (intros ->; apply H; ring).
  assert (x2 - x1 <> 0) by (intros Z; apply H; rewrite Z; ring).
  field. auto.
Qed.

Lemma indist_refl tol x : 0 <= tol -> indistinguishable tol x x.
Proof.
  intros H. unfold indistinguishable. rewrite Rminus_eq_0, Rabs_R0.
  apply Rle_trans with tol; auto. apply slack_tol.
Qed.

Lemma distinct_diff tol a b : 0 <= tol -> ~ indistinguishable tol a b -> a - b <> 0.
Proof.
  intros H D Z. apply D. assert (a = b) by lra. subst. now apply indist_refl.
Qed.

Lemma secant_affine fuel lo hi tol mi fb na m q : (forall x, f x = m * x + q) -> m <> 0 ->
  0 <= tol -> ~ indistinguishable tol lo hi -> ~ indistinguishable tol (f hi) (f lo) ->
  tol < Rabs (f hi) \/ indistinguishable tol hi (- q / m) ->
  (2 <= fuel)%nat -> match mi with Some k => (2 < k)%Z | None => True end ->
  secant (total f) fuel lo hi tol mi fb na = Ok (- q / m, 1%Z, false) \/
  secant (total f) fuel lo hi tol mi fb na = Ok (- q / m, 2%Z, false).
Proof.
  intros F Hm Ht D1 D2 D3 Hf Hk. rewrite secant_eq by auto.
  destruct fuel as [|[|fuel]]; [lia|lia|].
  destruct (sec_loop_eq (S (S fuel)) lo hi tol mi fb na lo hi None 0 Ht) as [[A E]|[_ [[A E]|[A E]]]];
    [contradiction|contradiction|].
  rewrite E. clear E.
  replace (match mi with Some m0 => (m0 <=? 0 + 1)%Z | None => false end) with false.
  2:{ destruct mi; auto. symmetry. apply Z.leb_gt. lia. }
  rewrite (next_affine m q) by (auto; apply distinct_diff with tol; auto).
  set (r := - q / m).
  assert (Fr : f r = 0) by (rewrite F; unfold r; field; auto).
  destruct (sec_loop_eq (S fuel) lo hi tol mi fb na hi r (Some r) (0 + 1) Ht) as [[B E]|[B [[C E]|[C E]]]].
  - left. rewrite E. reflexivity.
  - exfalso. rewrite Fr in C. apply indist_sym in C. apply (indist_zero (f hi) tol Ht) in C.
    destruct D3 as [D3|D3]; [lra|]. apply B, D3.
  - right. rewrite E.
    replace (match mi with Some m0 => (m0 <=? 0 + 1 + 1)%Z | None => false end) with false.
    2:{ destruct mi; auto. symmetry. apply Z.leb_gt. lia. }
    rewrite (next_affine m q) by (auto; apply distinct_diff with tol; auto). fold r.
    destruct (sec_loop_eq fuel lo hi tol mi fb na r r (Some r) (0 + 1 + 1) Ht) as [[G E']|[G _]].
    + rewrite E'. reflexivity.
    + exfalso. apply G. now apply indist_refl.
Qed.

(** ** C47 *)
Definition lipschitz L := 0 <= L /\ forall x y, Rabs (f x - f y) <= L * Rabs (x - y).

Lemma secant_last_step L tol x1 x2 : lipschitz L -> 0 <= tol ->
  ~ indistinguishable tol x1 x2 -> ~ indistinguishable tol (f x2) (f x1) ->
  indistinguishable tol x2 (next_x x1 x2) ->
  Rabs (f (next_x x1 x2)) <= 2 * L * slack tol (next_x x1 x2) x2.
Proof.
  intros [HL HF] Ht D1 D2 D3. set (x3 := next_x x1 x2) in *.
  assert (N : f x2 - f x1 <> 0) by (apply distinct_diff with tol; auto).
  assert (N' : x2 - x1 <> 0) by (intros Z; apply (distinct_diff tol x1 x2 Ht D1); lra).
  assert (E : f x2 * (x2 - x1) = - ((x3 - x2) * (f x2 - f x1))).
  { unfold x3, next_x. field. auto. }
  assert (A : Rabs (f x2) * Rabs (x2 - x1) = Rabs (x3 - x2) * Rabs (f x2 - f x1)).
  { rewrite <- !Rabs_mult, E, Rabs_Ropp. reflexivity. }
  pose proof (HF x2 x1) as B.
  assert (P : 0 < Rabs (x2 - x1)) by (apply Rabs_pos_lt; auto).
  assert (C : Rabs (f x2) <= L * Rabs (x3 - x2)).
  { apply Rmult_le_reg_r with (Rabs (x2 - x1)); auto. rewrite A.
    replace (L * Rabs (x3 - x2) * Rabs (x2 - x1)) with (Rabs (x3 - x2) * (L * Rabs (x2 - x1))) by ring.
    apply Rmult_le_compat_l; auto. apply Rabs_pos. }
  pose proof (HF x3 x2) as G.
  assert (T : Rabs (f x3) <= Rabs (f x3 - f x2) + Rabs (f x2)).
  { replace (f x3) with (f x3 - f x2 + f x2) at 1 by ring. apply Rabs_triang. }
  rewrite slack_sym. unfold indistinguishable in D3.
  assert (L * Rabs (x3 - x2) <= L * slack tol x2 x3) by (apply Rmult_le_compat_l; auto).
  lra.
Qed.

Lemma sec_loop_residual L tol mi lo hi na : lipschitz L -> 0 <= tol -> forall fuel x1 x2 x3 i x n,
  (forall y, x3 = Some y -> y = x2 /\ exists x0, x2 = next_x x0 x1 /\ ~ indistinguishable tol x0 x1 /\
     ~ indistinguishable tol (f x1) (f x0)) ->
  sec_loop (total f) fuel lo hi tol mi false na x1 x2 x3 i = Ok (x, n, false) ->
  exists prev, Rabs (x - prev) <= slack tol x prev /\ Rabs (f x) <= 2 * L * slack tol x prev.
Proof.
  intros HL Ht. 
  assert (K : forall x1 x2 x3 (i : Z) (x : R) (n : Z),
    (forall y, x3 = Some y -> y = x2 /\ exists x0, x2 = next_x x0 x1 /\ ~ indistinguishable tol x0 x1 /\
     ~ indistinguishable tol (f x1) (f x0)) -> indistinguishable tol x1 x2 ->
    match x3 with Some x => Ok (x, i, false) | None => Err AttributeError end = Ok (x, n, false) ->
    exists prev, Rabs (x - prev) <= slack tol x prev /\ Rabs (f x) <= 2 * L * slack tol x prev).
  { intros x1 x2 x3 i x n Inv D E. destruct x3 as [y|]; [|discriminate]. injection E as -> ->.
    destruct (Inv x eq_refl) as (-> & x0 & N & D1 & D2). exists x1.
    split; [rewrite slack_sym; exact D|]. rewrite N. apply secant_last_step; auto. now rewrite <- N. }
  induction fuel as [|fuel IH]; intros x1 x2 x3 i x n Inv H.
  - destruct (sec_loop_eq 0 lo hi tol mi false na x1 x2 x3 i Ht) as [[A E]|[A E]]; rewrite E in H; [|discriminate].
    eauto.
  - destruct (sec_loop_eq (S fuel) lo hi tol mi false na x1 x2 x3 i Ht) as [[A E]|[A [[B E]|[B E]]]];
      rewrite E in H; [eauto|discriminate|].
    destruct (match mi with Some m => _ | None => _ end); [discriminate|].
    eapply IH; [|exact H]. intros y Hy. injection Hy as <-. split; auto. exists x1. auto.
Qed.

Lemma secant_residual L fuel lo hi tol mi na x n : lipschitz L ->
  secant (total f) fuel lo hi tol mi false na = Ok (x, n, false) ->
  exists prev, Rabs (x - prev) <= slack tol x prev /\ Rabs (f x) <= 2 * L * slack tol x prev.
Proof.
  intros HL H. destruct (secant_cases fuel lo hi tol mi false na) as [E|(Ht & D & E)]; rewrite E in H; [discriminate|].
  eapply sec_loop_residual; eauto. discriminate.
Qed.

(** ** C48, C49 *)
Lemma sec_loop_outcome tol mi lo hi na : 0 <= tol -> forall fuel x1 x2 x3 i,
  (x3 = None -> ~ indistinguishable tol x1 x2) -> (x3 <> None -> 1 <= i)%Z -> (0 <= i)%Z ->
  (exists x n, sec_loop (total f) fuel lo hi tol mi false na x1 x2 x3 i = Ok (x, n, false) /\ (1 <= n)%Z /\
     (forall m, mi = Some m -> (i < m)%Z -> (n <= m)%Z)) \/
  sec_loop (total f) fuel lo hi tol mi false na x1 x2 x3 i = Err ValueError \/
  sec_loop (total f) fuel lo hi tol mi false na x1 x2 x3 i = Err Diverges /\
    (forall m, mi = Some m -> (i < m)%Z -> (i + Z.of_nat fuel < m)%Z).
Proof.
  intros Ht. induction fuel as [|fuel IH]; intros x1 x2 x3 i Inv Hi Hi0.
  - destruct (sec_loop_eq 0 lo hi tol mi false na x1 x2 x3 i Ht) as [[A E]|[A E]]; rewrite E.
    + destruct x3 as [y|]; [|now destruct Inv]. left. do 2 eexists. split; [reflexivity|].
      split; [apply Hi; discriminate|]. intros; lia.
    + right. right. split; auto. intros; lia.
  - destruct (sec_loop_eq (S fuel) lo hi tol mi false na x1 x2 x3 i Ht) as [[A E]|[A [[B E]|[B E]]]];
      rewrite E.
    + destruct x3 as [y|]; [|now destruct Inv]. left. do 2 eexists. split; [reflexivity|].
      split; [apply Hi; discriminate|]. intros; lia.
    + auto.
    + destruct (match mi with Some m => _ | None => _ end) eqn:K; [auto|].
      assert (K' : forall m, mi = Some m -> (i + 1 < m)%Z).
      { intros m ->. now apply Z.leb_gt in K. }
      destruct (IH x2 (next_x x1 x2) (Some (next_x x1 x2)) (i + 1)%Z) as [(x & n & E' & H1 & H2)|[E'|[E' H]]];
        try discriminate; try lia.
      * left. rewrite E'. do 2 eexists. split; [reflexivity|]. split; auto.
      * auto.
      * right. right. split; auto. intros m Hm _. specialize (H m Hm (K' m Hm)). lia.
Qed.

Lemma secant_outcome tol mi lo hi na fuel :
  (forall m, mi = Some m -> (1 <= m)%Z) ->
  (exists x n, secant (total f) fuel lo hi tol mi false na = Ok (x, n, false) /\ (1 <= n)%Z /\
     (forall m, mi = Some m -> (n <= m)%Z)) \/
  secant (total f) fuel lo hi tol mi false na = Err ValueError \/
  secant (total f) fuel lo hi tol mi false na = Err Diverges /\
    (forall m, mi = Some m -> (Z.of_nat fuel < m)%Z).
Proof.
  intros Hm. destruct (secant_cases fuel lo hi tol mi false na) as [E|(Ht & D & E)]; rewrite E; [auto|].
  destruct (sec_loop_outcome tol mi lo hi na Ht fuel lo hi None 0) as [(x & n & E' & H1 & H2)|[E'|[E' H]]];
    auto; try lia; try congruence.
  - left. rewrite E'. do 2 eexists. split; [reflexivity|]. split; auto.
    intros m Em. apply H2; auto. specialize (Hm m Em). lia.
  - right. right. split; auto. intros m Em. specialize (Hm m Em). specialize (H m Em). lia.
Qed.

Lemma secant_limit_one tol m lo hi na fuel : (m <= 1)%Z -> (1 <= fuel)%nat ->
  secant (total f) fuel lo hi tol (Some m) false na = Err ValueError.
Proof.
  intros Hm Hf. destruct (secant_cases fuel lo hi tol (Some m) false na) as [E|(Ht & D & E)]; rewrite E; [auto|].
  destruct fuel as [|fuel]; [lia|].
  destruct (sec_loop_eq (S fuel) lo hi tol (Some m) false na lo hi None 0 Ht) as [[A F]|[A [[B F]|[B F]]]];
    rewrite F; [contradiction|auto|].
  replace (m <=? 0 + 1)%Z with true; [reflexivity|]. symmetry. apply Z.leb_le. lia.
Qed.

(** The limited run agrees with the unlimited one until the limit, then falls back. *)
Lemma sec_loop_fallback tol m lo hi fb na : 0 <= tol -> forall fuel x1 x2 x3 i,
  (i < m)%Z -> (m <= i + Z.of_nat fuel)%Z ->
  sec_loop (total f) (Z.to_nat (m - i)) lo hi tol None fb na x1 x2 x3 i = Err Diverges \/
  (exists x, sec_loop (total f) (Z.to_nat (m - i)) lo hi tol None fb na x1 x2 x3 i = Ok (x, m, false)) ->
  sec_loop (total f) fuel lo hi tol (Some m) fb na x1 x2 x3 i = on_stop lo hi tol fb na.
Proof.
  intros Ht. induction fuel as [|fuel IH]; intros x1 x2 x3 i Hi Hm H; [lia|].
  replace (Z.to_nat (m - i)) with (S (Z.to_nat (m - (i + 1)))) in H by lia.
  set (k := Z.to_nat (m - (i + 1))) in *.
  destruct (sec_loop_eq (S k) lo hi tol None fb na x1 x2 x3 i Ht) as [[A E]|[A [[B E]|[B E]]]];
    rewrite E in H.
  - exfalso. destruct x3; destruct H as [H|[x H]]; try discriminate. injection H as _ H. lia.
  - exfalso. destruct H as [H|[x H]]; discriminate.
  - destruct (sec_loop_eq (S fuel) lo hi tol (Some m) fb na x1 x2 x3 i Ht) as [[A' E']|[A' [[B' E']|[B' E']]]];
      try contradiction. rewrite E'.
    destruct (m <=? i + 1)%Z eqn:K; auto. apply Z.leb_gt in K. apply IH; auto; lia.
Qed.

Lemma secant_fallback tol m lo hi fb na fuel : (1 <= m)%Z -> (m <= Z.of_nat fuel)%Z ->
  secant (total f) (Z.to_nat m) lo hi tol None fb na = Err Diverges \/
  (exists x, secant (total f) (Z.to_nat m) lo hi tol None fb na = Ok (x, m, false)) ->
  secant (total f) fuel lo hi tol (Some m) fb na = on_stop lo hi tol fb na.
Proof.
  intros Hm Hf H. destruct (secant_cases (Z.to_nat m) lo hi tol None fb na) as [E|(Ht & D & E)]; rewrite E in H.
  { destruct H as [H|[x H]]; discriminate. }
  rewrite secant_eq by auto. apply sec_loop_fallback; auto; try lia. now rewrite Z.sub_0_r.
Qed.
End Sec.
