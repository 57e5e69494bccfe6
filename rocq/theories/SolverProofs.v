(** Remaining proofs and worked cases for the root finders. *)

From Coq Require Import ZArith Reals Lra Lia Bool List.
From Verif Require Import Base Num RNum PyNum Solvers SolverSpec SolverFacts.
Import ListNotations.
Open Scope R_scope.

(** * Iteration limits, for every number type (so also for doubles) *)
Section Generic.
Context {T : Type} `{Num T}.
Variable func : T -> res T.

Lemma gen_loop_count fuel : forall lo hi tol m fl i x n,
  bis_loop func fuel lo hi tol (Some m) fl i = Ok (x, n) -> (i < m)%Z -> (i <= n <= m)%Z.
Proof.
  induction fuel as [|fuel IH]; intros lo hi tol m fl i x n E Hi; cbn [bis_loop] in E.
  - destruct (keep_going _ _ _ _) as [[]|]; cbn in E; try discriminate.
    injection E as _ <-. lia.
  - destruct (keep_going _ _ _ _) as [[]|]; cbn [bind negb] in E; try discriminate.
    2:{ injection E as _ <-. lia. }
    destruct (func lo) as [yl|]; cbn [bind] in E; [|discriminate].
    destruct (func hi) as [yh|]; cbn [bind] in E; [|discriminate].
    destruct (isclose yl _ _) as [[]|]; cbn [bind] in E; try discriminate.
    { injection E as _ <-. lia. }
    destruct (isclose yh _ _) as [[]|]; cbn [bind] in E; try discriminate.
    { injection E as _ <-. lia. }
    destruct (nisinf yl || nisinf yh); [discriminate|].
    destruct (nisnan yl || nisnan yh); [discriminate|].
    destruct (nltb _ (nmul yl yh)); [discriminate|].
    destruct (func (ndiv _ _)) as [ym|]; cbn [bind] in E; [|discriminate].
    destruct (m <=? i + 1)%Z eqn:L.
    + destruct fl; [discriminate|]. injection E as _ <-. apply Z.leb_le in L. lia.
    + apply Z.leb_gt in L. apply IH in E; lia.
Qed.

Lemma isclose_terminates a b tol : isclose a b tol <> Err Diverges.
Proof.
  unfold isclose. destruct (nltb tol _); [discriminate|]. destruct (neqb _ _); [discriminate|].
  destruct (nisinf _ || _); discriminate.
Qed.
Lemma keep_going_terminates a b tol d : keep_going a b tol d <> Err Diverges.
Proof.
  unfold keep_going. destruct (nltb _ _); [|discriminate].
  pose proof (isclose_terminates a b tol). destruct (isclose a b tol); cbn; congruence.
Qed.

Lemma gen_loop_fuel fuel : forall lo hi tol m fl i,
  (forall x, func x <> Err Diverges) ->
  (i < m)%Z -> (m <= i + Z.of_nat fuel)%Z ->
  bis_loop func fuel lo hi tol (Some m) fl i <> Err Diverges.
Proof.
  induction fuel as [|fuel IH]; intros lo hi tol m fl i Hf Hi Hm; [lia|]. cbn [bis_loop].
  pose proof (keep_going_terminates hi lo tol (nsub hi lo)) as K.
  destruct (keep_going _ _ _ _) as [[]|e]; cbn [bind negb]; try discriminate; [|congruence].
  pose proof (Hf lo). destruct (func lo) as [yl|]; cbn [bind]; [|congruence].
  pose proof (Hf hi). destruct (func hi) as [yh|]; cbn [bind]; [|congruence].
  pose proof (isclose_terminates yl (nflt 0 1) tol).
  destruct (isclose yl _ _) as [[]|]; cbn [bind]; try discriminate; [|congruence].
  pose proof (isclose_terminates yh (nflt 0 1) tol).
  destruct (isclose yh _ _) as [[]|]; cbn [bind]; try discriminate; [|congruence].
  destruct (nisinf yl || nisinf yh); [discriminate|].
  destruct (nisnan yl || nisnan yh); [discriminate|].
  destruct (nltb _ (nmul yl yh)); [discriminate|].
  pose proof (Hf (ndiv (nadd lo hi) (nint 2))).
  destruct (func (ndiv _ _)) as [ym|]; cbn [bind]; [|congruence].
  destruct (m <=? i + 1)%Z eqn:E.
  - destruct fl; discriminate.
  - apply Z.leb_gt in E. apply IH; auto; lia.
Qed.

Lemma budget fuel lo hi tol m fl :
  (forall x, func x <> Err Diverges) -> (m <= Z.of_nat fuel)%Z ->
  bisection func fuel lo hi tol (Some m) fl <> Err Diverges /\
  forall x n, bisection func fuel lo hi tol (Some m) fl = Ok (x, n) -> (0 <= n <= m)%Z.
Proof.
  intros Hf Hm. unfold bisection.
  destruct (nisinf lo || nisinf hi); [split; discriminate|].
  destruct (nisnan lo || nisnan hi); [split; discriminate|].
  pose proof (isclose_terminates hi lo tol).
  destruct (isclose hi lo tol) as [[]|]; cbn [bind]; try (split; (discriminate || congruence)).
  destruct (m <=? 1)%Z eqn:L; [split; discriminate|]. apply Z.leb_gt in L.
  split; [apply gen_loop_fuel; auto; lia|].
  intros x n E. apply gen_loop_count in E; lia.
Qed.
End Generic.

(** * C41, C42 *)
Lemma near_root_absolute f fuel lo hi tol mi x n : continuity f ->
  / 1000000000 * Rmax (Rabs lo) (Rabs hi) <= tol ->
  bisection (total f) fuel lo hi tol mi true = Ok (x, n) ->
  Rabs (f x) <= tol \/ exists r, inside lo hi r /\ f r = 0 /\ Rabs (x - r) <= tol / 2.
Proof.
  intros C S H. destruct (bisection_root f fuel lo hi tol mi x n C H) as [B|(r & I & Z & B)]; auto.
  right. exists r. repeat split; try apply I; auto. unfold slack in B. rewrite Rmax_left in B; auto.
Qed.

(** Deciding [indistinguishable] for positive numbers. *)
Lemma indist_pos tol a b : 0 <= tol -> 0 <= a <= b ->
  indistinguishable tol a b <-> b - a <= tol \/ b - a <= / 1000000000 * b.
Proof.
  intros Ht H. unfold indistinguishable, slack.
  rewrite !Rabs_right by lra. rewrite (Rmax_right a b) by lra.
  unfold Rmax. destruct (Rle_dec tol (/ 1000000000 * b)); lra.
Qed.

(** A straight line through 1000000000.1, bracketed by [1e9, 1e9 + 2], tol = 1e-9. *)
Definition line x := x - (1000000000 + / 10).

Lemma bis_case fuel : (5 <= fuel)%nat ->
  bisection (total line) fuel 1000000000 1000000002 (/ 1000000000) None true = Ok (1000000000 + / 2, 1%Z).
Proof.
  intros Hf. destruct fuel as [|fuel]; [lia|].
  assert (N : ~ indistinguishable (/ 1000000000) 1000000000 1000000002).
  { rewrite indist_pos by lra. lra. }
  assert (F1 : line 1000000000 = - / 10) by (unfold line; lra).
  assert (F2 : line 1000000002 = 19 / 10) by (unfold line; lra).
  rewrite bisection_eq; [|lra|exact N|exact I].
  assert (Ht : 0 <= / 1000000000) by lra.
  destruct (bis_loop_eq line (S fuel) 1000000000 1000000002 (/ 1000000000) None true 0 Ht)
    as [[D E]|[D [[L E]|[[L1 [L2 E]]|[(L1 & L2 & P & E)|(L1 & L2 & P & E)]]]]].
  - contradiction.
  - exfalso. rewrite F1, Rabs_Ropp, Rabs_right in L; lra.
  - exfalso. rewrite F2, Rabs_right in L2; lra.
  - exfalso. rewrite F1, F2 in P. lra.
  - rewrite E. clear E.
    assert (E1 : next_lo line 1000000000 1000000002 = 1000000000).
    { unfold next_lo. rewrite (proj2 (Rltb_false _ _)); [reflexivity|]. rewrite F1. unfold line. lra. }
    assert (E2 : next_hi line 1000000000 1000000002 = 1000000001).
    { unfold next_hi. rewrite (proj2 (Rltb_false _ _)); [lra|]. rewrite F1. unfold line. lra. }
    rewrite E1, E2.
    destruct (bis_loop_eq line fuel 1000000000 1000000001 (/ 1000000000) None true (0 + 1) Ht)
      as [[D' E]|[D' _]]; [|exfalso; apply D'; apply indist_pos; lra].
    rewrite E. f_equal. f_equal. lra.
Qed.

Lemma line_continuous : continuity line.
Proof. unfold line. reg. Qed.

Lemma not_absolute : exists f lo hi tol x n, continuity f /\ 0 < tol /\
  (forall fuel, (5 <= fuel)%nat -> bisection (total f) fuel lo hi tol None true = Ok (x, n)) /\
  tol < Rabs (f x) /\ forall r, f r = 0 -> tol < Rabs (x - r).
Proof.
  exists line, 1000000000, 1000000002, (/ 1000000000), (1000000000 + / 2), 1%Z.
  split; [apply line_continuous|]. split; [lra|]. split; [apply bis_case|].
  split; [unfold line; rewrite Rabs_right; lra|].
  intros r Hr. unfold line in Hr. rewrite Rabs_right; lra.
Qed.

(** * C43 *)
Lemma unlimited_terminates f N lo hi tol fl : 0 < tol -> Rabs (hi - lo) <= tol * 2 ^ N ->
  bisection (total f) N lo hi tol None fl = Err ValueError \/
  exists x n, bisection (total f) N lo hi tol None fl = Ok (x, n) /\ (1 <= n <= Z.of_nat N)%Z.
Proof.
  intros Ht W. assert (Ht0 : 0 <= tol) by lra.
  destruct (isclose_R hi lo tol Ht0) as (c & E & Hc). destruct c.
  { left. unfold bisection. cbn [nisinf nisnan RNum orb]. rewrite E. reflexivity. }
  assert (D : ~ indistinguishable tol lo hi).
  { rewrite indist_sym. intros D. apply Hc in D. discriminate. }
  rewrite bisection_eq by (auto; exact I).
  destruct N as [|N].
  { exfalso. apply D. unfold indistinguishable. cbn in W. apply Rle_trans with tol; [lra|apply slack_tol]. }
  destruct (bis_loop_eq f (S N) lo hi tol None fl 0 Ht0)
    as [[D' E']|[D' [[L E']|[[L1 [L2 E']]|[(L1 & L2 & P & E')|(L1 & L2 & P & E')]]]]]; rewrite E'.
  - contradiction.
  - right. do 2 eexists. split; [reflexivity|]. lia.
  - right. do 2 eexists. split; [reflexivity|]. lia.
  - auto.
  - right. destruct (bis_loop_terminates f fl tol Ht N (next_lo f lo hi) (next_hi f lo hi) (0 + 1)) as (x & n & E2 & B).
    + apply next_cases; auto. intros Z. rewrite Z, Rabs_R0 in L1. lra.
    + rewrite next_width. cbn in W. lra.
    + rewrite E2. do 2 eexists. split; [reflexivity|]. lia.
Qed.

Lemma bis_loop_more f tol mi fl : 0 <= tol -> forall fuel lo hi i k,
  bis_loop (total f) fuel lo hi tol mi fl i <> Err Diverges ->
  bis_loop (total f) (fuel + k) lo hi tol mi fl i = bis_loop (total f) fuel lo hi tol mi fl i.
Proof.
  intros Ht. induction fuel as [|fuel IH]; intros lo hi i k H.
  - destruct (bis_loop_eq f 0 lo hi tol mi fl i Ht) as [[D E]|[D E]]; [|congruence].
    rewrite E. destruct (bis_loop_eq f (0 + k) lo hi tol mi fl i Ht) as [[D' E']|[D' E']]; [auto|contradiction].
  - destruct (bis_loop_eq f (S fuel) lo hi tol mi fl i Ht)
      as [[D E]|[D [[L E]|[[L1 [L2 E]]|[(L1 & L2 & P & E)|(L1 & L2 & P & E)]]]]];
    destruct (bis_loop_eq f (S fuel + k) lo hi tol mi fl i Ht)
      as [[D' E']|[D' [[L' E']|[[L1' [L2' E']]|[(L1' & L2' & P' & E')|(L1' & L2' & P' & E')]]]]];
      try contradiction; try lra; try congruence.
    change (S fuel + k)%nat with (S (fuel + k)) in *. rewrite E', E. rewrite E in H.
    destruct (match mi with Some m => _ | None => _ end); auto.
Qed.

(** * C44: f = 100 (x - 0.3) on [0, 1], tol = 1/3, limit 2: the second halving leaves
    the bracket [0.25, 0.5], narrower than the tolerance, and still the limit error. *)
Definition steep x := 100 * (x - 3 / 10).

Lemma late_check : 
  bisection (total steep) 5 0 1 (/ 3) (Some 2%Z) true = Err ValueError /\
  bisection (total steep) 5 0 1 (/ 3) None true = Ok (3 / 8, 2%Z).
Proof.
  assert (Ht : 0 <= / 3) by lra.
  assert (N : ~ indistinguishable (/ 3) 0 1) by (rewrite indist_pos by lra; lra).
  assert (N2 : ~ indistinguishable (/ 3) 0 (/ 2)) by (rewrite indist_pos by lra; lra).
  assert (F0 : steep 0 = -30) by (unfold steep; lra).
  assert (F1 : steep 1 = 70) by (unfold steep; lra).
  assert (F2 : steep (/ 2) = 20) by (unfold steep; lra).
  assert (F3 : steep (/ 4) = -5) by (unfold steep; lra).
  assert (A0 : / 3 < Rabs (steep 0)) by (rewrite F0, Rabs_left; lra).
  assert (A1 : / 3 < Rabs (steep 1)) by (rewrite F1, Rabs_right; lra).
  assert (A2 : / 3 < Rabs (steep (/ 2))) by (rewrite F2, Rabs_right; lra).
  assert (M1 : (0 + 1) / 2 = / 2) by lra. assert (M2 : (0 + / 2) / 2 = / 4) by lra.
  assert (E1 : next_lo steep 0 1 = 0).
  { unfold next_lo. rewrite (proj2 (Rltb_false _ _)); [lra|]. rewrite M1, F0, F2. lra. }
  assert (E2 : next_hi steep 0 1 = / 2).
  { unfold next_hi. rewrite (proj2 (Rltb_false _ _)); [lra|]. rewrite M1, F0, F2. lra. }
  assert (E3 : next_lo steep 0 (/ 2) = / 4).
  { unfold next_lo. rewrite (proj2 (Rltb_true _ _)); [lra|]. rewrite M2, F0, F3. lra. }
  assert (E4 : next_hi steep 0 (/ 2) = / 2).
  { unfold next_hi. rewrite (proj2 (Rltb_true _ _)); [lra|]. rewrite M2, F0, F3. lra. }
  assert (G : forall mi, match mi with Some m => (1 < m)%Z | None => True end ->
    bisection (total steep) 5 0 1 (/ 3) mi true =
    if match mi with Some m => (m <=? 2)%Z | None => false end then Err ValueError else Ok (3 / 8, 2%Z)).
  { intros mi Hm. rewrite bisection_eq; [|exact Ht|exact N|exact Hm].
    destruct (bis_loop_eq steep 5 0 1 (/ 3) mi true 0 Ht)
      as [[D E]|[D [[L E]|[[L1 [L2 E]]|[(L1 & L2 & P & E)|(L1 & L2 & P & E)]]]]];
      [contradiction|lra|lra|rewrite F0, F1 in P; lra|].
    rewrite E, E1, E2. clear E.
    replace (match mi with Some m => (m <=? 0 + 1)%Z | None => false end) with false
      by (destruct mi; auto; symmetry; apply Z.leb_gt; lia).
    destruct (bis_loop_eq steep 4 0 (/ 2) (/ 3) mi true (0 + 1) Ht)
      as [[D' E]|[D' [[L' E]|[[L1' [L2' E]]|[(L1' & L2' & P' & E)|(L1' & L2' & P' & E)]]]]];
      [contradiction|lra|lra|rewrite F0, F2 in P'; lra|].
    rewrite E, E3, E4. clear E. change (0 + 1 + 1)%Z with 2%Z.
    destruct (match mi with Some m => _ | None => _ end); auto.
    destruct (bis_loop_eq steep 3 (/ 4) (/ 2) (/ 3) mi true 2 Ht) as [[D3 E]|[D3 _]].
    - rewrite E. f_equal. f_equal. lra.
    - exfalso. apply D3. apply indist_pos; lra. }
  split; rewrite G; auto; cbn; lia.
Qed.

(** * C45 *)
Lemma bracketing_accepted f lo hi tol fl fuel : 0 <= tol -> ~ indistinguishable tol lo hi ->
  f lo * f hi <= 0 ->
  bisection (total f) fuel lo hi tol None fl = Err Diverges \/
  exists r, bisection (total f) fuel lo hi tol None fl = Ok r.
Proof. intros. rewrite bisection_eq by (auto; exact I). now apply bis_loop_no_error. Qed.

Lemma bracketing_accepted_limit f lo hi tol m fuel : 0 <= tol -> ~ indistinguishable tol lo hi ->
  f lo * f hi <= 0 -> (1 < m <= Z.of_nat fuel)%Z ->
  exists r, bisection (total f) fuel lo hi tol (Some m) false = Ok r.
Proof.
  intros. rewrite bisection_eq by (auto; cbn; lia). apply bis_loop_limit_ok; auto; lia.
Qed.

(** * C49 *)
Lemma fallback_positional f tol m lo hi na fuel : (1 <= m)%Z -> (m <= Z.of_nat fuel)%Z ->
  secant (total f) (Z.to_nat m) lo hi tol None true (S na) = Err Diverges \/
  (exists x, secant (total f) (Z.to_nat m) lo hi tol None true (S na) = Ok (x, m, false)) ->
  secant (total f) fuel lo hi tol (Some m) true (S na) = Err TypeError.
Proof. intros H1 H2 H3. rewrite (secant_fallback f tol m lo hi true (S na) fuel H1 H2 H3). reflexivity. Qed.

Lemma fallback_none f tol m lo hi fuel : (1 <= m)%Z -> (m <= Z.of_nat fuel)%Z ->
  secant (total f) (Z.to_nat m) lo hi tol None true 0 = Err Diverges \/
  (exists x, secant (total f) (Z.to_nat m) lo hi tol None true 0 = Ok (x, m, false)) ->
  secant (total f) fuel lo hi tol (Some m) true 0 =
  let! r := bisection (total f) (Z.to_nat 20000) lo hi tol (Some 20000%Z) true in
  Ok (fst r, snd r, true).
Proof. intros H1 H2 H3. rewrite (secant_fallback f tol m lo hi true 0 fuel H1 H2 H3). reflexivity. Qed.

(** The identity from guesses -1 and 2 is still running after one iteration. *)
Lemma still_running na : secant (total (fun x => x)) (Z.to_nat 1) (-1) 2 (/ 1000) None true na = Err Diverges.
Proof.
  assert (Ht : 0 <= / 1000) by lra.
  assert (N : ~ indistinguishable (/ 1000) (-1) 2).
  { unfold indistinguishable, slack. rewrite (Rabs_left (-1)), !Rabs_right by lra.
    rewrite (Rmax_right (- -1) 2) by lra. rewrite Rmax_left by lra. lra. }
  rewrite secant_eq by auto. change (Z.to_nat 1) with 1%nat.
  destruct (sec_loop_eq (fun x => x) 1 (-1) 2 (/ 1000) None true na (-1) 2 None 0 Ht) as [[A E]|[A [[B E]|[B E]]]];
    [contradiction|apply indist_sym in B; contradiction|].
  rewrite E. unfold next_x. replace ((-1 * 2 - 2 * -1) / (2 - -1)) with 0 by lra.
  destruct (sec_loop_eq (fun x => x) 0 (-1) 2 (/ 1000) None true na 2 0 (Some 0) (0 + 1) Ht) as [[A' E']|[A' E']].
  - exfalso. apply (indist_zero 2 (/ 1000) Ht) in A'. rewrite Rabs_right in A'; lra.
  - exact E'.
Qed.

(** * Doubles: the midpoint of a huge bracket overflows *)
Definition e308 (k : Z) : pynum := fl (k * 10 ^ 307) 1.
Definition jump (x : pynum) : res pynum := Ok (if nltb x (e308 13) then fl (-1) 1 else fl 1 1).

Lemma overflow_leaves : exists x n,
  bisection jump 9 (e308 10) (e308 17) (fl 1 1000000000) (Some 5%Z) false = Ok (x, n) /\
  nltb (e308 17) x = true /\ nisinf x = true.
Proof.
  do 2 eexists. split; [vm_compute; reflexivity|]. split; vm_compute; reflexivity.
Qed.

Lemma huge_bracket :
  exists (func : pynum -> res pynum) lo hi x n,
  bisection func 9 lo hi (fl 1 1000000000) (Some 5%Z) false = Ok (x, n)
  /\ nltb lo hi = true /\ nisinf hi = false /\ nltb hi x = true /\ nisinf x = true.
Proof.
  destruct overflow_leaves as (x & n & E & L & I).
  exists jump, (e308 10), (e308 17), x, n. split; [exact E|].
  split; [vm_compute; reflexivity|]. split; [vm_compute; reflexivity|]. auto.
Qed.

(** * Worked cases *)
Lemma small_magnitude : / 1000000000 * Rmax (Rabs 0) (Rabs 1) <= / 3.
Proof. rewrite Rabs_R0, Rabs_R1, Rmax_right; lra. Qed.
Lemma steep_width : 0 < / 3 /\ Rabs (1 - 0) <= / 3 * 2 ^ 2.
Proof. split; [lra|]. rewrite Rabs_right; lra. Qed.
Lemma limit_too_early :
  exists f lo hi tol m x n, (1 < m)%Z
  /\ bisection (total f) 5 lo hi tol (Some m) true = Err ValueError
  /\ bisection (total f) 5 lo hi tol None true = Ok (x, n) /\ (n <= m)%Z.
Proof.
  exists steep, 0, 1, (/ 3), 2%Z, (3 / 8), 2%Z. destruct late_check. repeat split; auto; lia.
Qed.
Lemma steep_positive : / 3 < steep 1 /\ / 3 < steep (/ 2).
Proof. unfold steep. lra. Qed.
Lemma apart01 : ~ indistinguishable (/ 3) 0 1.
Proof. rewrite indist_pos by lra. lra. Qed.
Lemma steep_brackets : ~ indistinguishable (/ 3) 0 1 /\ steep 0 * steep 1 <= 0.
Proof. split; [apply apart01|unfold steep; lra]. Qed.
Lemma steep_affine : (forall x, steep x = 100 * x + -30) /\ 100 <> 0
  /\ ~ indistinguishable (/ 3) 0 1 /\ ~ indistinguishable (/ 3) (steep 1) (steep 0)
  /\ / 3 < Rabs (steep 1).
Proof.
  assert (F0 : steep 0 = -30) by (unfold steep; lra).
  assert (F1 : steep 1 = 70) by (unfold steep; lra).
  split; [intros; unfold steep; lra|]. split; [lra|]. split; [apply apart01|].
  split; [|rewrite F1, Rabs_right; lra].
  rewrite F0, F1. unfold indistinguishable, slack.
  rewrite (Rabs_left (-30 - 70)), (Rabs_left (-30)), (Rabs_right 70) by lra.
  rewrite (Rmax_left 70 _) by lra. rewrite Rmax_left by lra. lra.
Qed.
Lemma steep_lipschitz : 0 <= 100 /\ forall a b, Rabs (steep a - steep b) <= 100 * Rabs (a - b).
Proof.
  split; [lra|]. intros a b. unfold steep.
  replace (100 * (a - 3 / 10) - 100 * (b - 3 / 10)) with (100 * (a - b)) by ring.
  rewrite Rabs_mult, (Rabs_right 100) by lra. lra.
Qed.
Lemma steep_secant : exists n, secant (total steep) 2 0 1 (/ 3) None false 0 = Ok (3 / 10, n, false).
Proof.
  destruct steep_affine as (F & N & D1 & D2 & D3).
  replace (3 / 10) with (- -30 / 100) by lra.
  destruct (secant_affine steep 2 0 1 (/ 3) None false 0 100 (-30) F N) as [E|E]; eauto; try lra; exact I.
Qed.
