(** Facts about the beam model over the reals. *)

From Coq Require Import ZArith Reals List Bool Sorted Lra Lia.
From Verif Require Import Base Num RNum Numpy LoadCase OrdFacts LoadFacts LoadSpec LoadProofs
  Beam BeamSpec.
Import ListNotations.
Open Scope R_scope.

(** ** Extents *)

Lemma span_app a b : span (a ++ b) = span a + span b.
Proof. unfold span. induction a as [|x a IH]; cbn; [|rewrite IH]; ring. Qed.

Lemma span_nonneg ls : Forall (fun l => 0 <= l) ls -> 0 <= span ls.
Proof. unfold span. induction 1; cbn; lra. Qed.

Lemma start_0 ls : start_of ls 0 = 0.
Proof. reflexivity. Qed.

Lemma end_start ls i : end_of ls i = start_of ls (S i).
Proof. reflexivity. Qed.

Lemma end_length ls i : (i < List.length ls)%nat -> end_of ls i = start_of ls i + nth i ls 0.
Proof.
  revert i. induction ls as [|l ls IH]; intros i Hi; [cbn in Hi; lia|].
  destruct i as [|i]; unfold end_of, start_of in *; cbn; [unfold span; cbn; lra|].
  cbn in Hi. specialize (IH i ltac:(lia)). unfold span in IH |- *. cbn [fold_right firstn] in *.
  rewrite IH. ring.
Qed.

Lemma start_full ls n : (List.length ls <= n)%nat -> start_of ls n = span ls.
Proof. intros H. unfold start_of. now rewrite firstn_all2. Qed.

Lemma nth_nonneg ls i : Forall (fun l => 0 <= l) ls -> 0 <= nth i ls 0.
Proof.
  intros H. destruct (Nat.lt_ge_cases i (List.length ls)).
  - rewrite Forall_forall in H. apply H. now apply nth_In.
  - rewrite nth_overflow by lia. lra.
Qed.

Lemma start_mono ls i j : Forall (fun l => 0 <= l) ls -> (i <= j)%nat -> start_of ls i <= start_of ls j.
Proof.
  intros H. induction 1 as [|j Hj IH]; [lra|].
  destruct (Nat.lt_ge_cases j (List.length ls)).
  - rewrite <- end_start, end_length by auto. pose proof (nth_nonneg ls j H). lra.
  - rewrite (start_full ls (S j)) by lia. rewrite (start_full ls j) in IH by lia. lra.
Qed.

Lemma start_nonneg ls i : Forall (fun l => 0 <= l) ls -> 0 <= start_of ls i.
Proof. intros H. pose proof (start_mono ls 0 i H ltac:(lia)). rewrite start_0 in *. lra. Qed.

Lemma start_le_span ls i : Forall (fun l => 0 <= l) ls -> start_of ls i <= span ls.
Proof.
  intros H. rewrite <- (start_full ls (Nat.max i (List.length ls))) by lia.
  apply start_mono; auto. lia.
Qed.

Lemma covers_on_beam ls i p : Forall (fun l => 0 <= l) ls -> covers ls i p -> 0 <= p <= span ls.
Proof.
  intros H [Hi Hp]. pose proof (start_nonneg ls i H). rewrite end_start in Hp.
  pose proof (start_le_span ls (S i) H). lra.
Qed.

Lemma some_cover ls p : ls <> [] -> Forall (fun l => 0 <= l) ls -> 0 <= p <= span ls ->
  exists i, covers ls i p.
Proof.
  intros N H. revert p. induction H as [|l ls Hl H IH]; intros p Hp; [congruence|].
  destruct (Rle_dec p l) as [L|L].
  - exists 0%nat. split; [cbn; lia|]. unfold start_of, end_of, span. cbn. lra.
  - destruct ls as [|l' ls].
    + cbn in Hp. lra.
    + destruct (IH ltac:(discriminate) (p - l)) as (i & Hi & Hq).
      * unfold span in *. cbn [fold_right] in *. lra.
      * exists (S i). split; [cbn in *; lia|]. unfold start_of, end_of, span in *.
        cbn [firstn fold_right] in *. lra.
Qed.

Lemma covers_consecutive ls i j k p : Forall (fun l => 0 <= l) ls ->
  covers ls i p -> covers ls k p -> (i <= j <= k)%nat -> covers ls j p.
Proof.
  intros H [Hi Hp] [Hk Hq] Hj. split; [lia|].
  pose proof (start_mono ls j k H ltac:(lia)).
  assert (j = i \/ (i < j)%nat) as [->|L] by lia; [lra|].
  pose proof (start_mono ls (S i) (S j) H ltac:(lia)).
  rewrite !end_start in *. lra.
Qed.

Lemma inside_only ls i j p : Forall (fun l => 0 <= l) ls ->
  start_of ls i < p < end_of ls i -> covers ls j p -> j = i.
Proof.
  intros H Hp [Hj Hq]. rewrite !end_start in *.
  destruct (Nat.lt_trichotomy i j) as [L|[L|L]]; auto; exfalso.
  - pose proof (start_mono ls (S i) j H ltac:(lia)). lra.
  - pose proof (start_mono ls (S j) i H ltac:(lia)). lra.
Qed.

(** ** Lengths, ends, ids *)

Section B.
Context {Sec : Type}.
Implicit Types b : beam_t R Sec.

Lemma lengths_len b ls : has_lengths b ls -> List.length b = List.length ls.
Proof. induction 1; cbn; congruence. Qed.

Lemma lengths_nonneg b ls : has_lengths b ls -> Forall (fun l => 0 <= l) ls.
Proof. induction 1; constructor; tauto. Qed.

Lemma lengths_nth b ls i e : has_lengths b ls -> nth_error b i = Some e ->
  elength e = Some (nth i ls 0) /\ 0 <= nth i ls 0 /\ (i < List.length ls)%nat.
Proof.
  intros H. revert i. induction H as [|e' l b ls [E L] H IH]; intros i Hi.
  - destruct i; discriminate.
  - destruct i as [|i]; cbn in *.
    + injection Hi as <-. repeat split; auto. lia.
    + destruct (IH i Hi) as (A & B & C). repeat split; auto. lia.
Qed.

Lemma lengths_has b ls i : has_lengths b ls -> (i < List.length ls)%nat ->
  exists e, nth_error b i = Some e.
Proof.
  intros H L. rewrite <- (lengths_len b ls H) in L.
  destruct (nth_error b i) eqn:E; eauto. apply nth_error_None in E. lia.
Qed.

Lemma sum_lengths_R b ls acc : has_lengths b ls -> sum_lengths acc b = Ok (acc + span ls).
Proof.
  intros H. revert acc. induction H as [|e l b ls [E L] H IH]; intros acc; cbn.
  - f_equal. lra.
  - rewrite E. cbn. rewrite IH. f_equal. unfold span. lra.
Qed.

Lemma beam_length_R b ls : has_lengths b ls -> beam_length b = Ok (span ls).
Proof. intros H. unfold beam_length. rewrite (sum_lengths_R b ls) by auto. cbn. f_equal. lra. Qed.

Definition ends (ls : list R) : list (R * option R) :=
  map (fun i => (start_of ls i, Some (end_of ls i))) (seq 0 (List.length ls)).

Lemma ends_from_R b ls s : has_lengths b ls ->
  ends_from (Some s) b =
  Ok (map (fun i => (s + start_of ls i, Some (s + end_of ls i))) (seq 0 (List.length ls))).
Proof.
  intros H. revert s. induction H as [|e l b ls [E L] H IH]; intros s; cbn [ends_from]; [reflexivity|].
  rewrite E. cbn [add_opt bind nadd RNum]. rewrite IH. cbn [bind]. f_equal.
  change (List.length (l :: ls)) with (S (List.length ls)). rewrite <- cons_seq. cbn [map].
  f_equal.
  - unfold start_of, end_of, span. cbn. (apply f_equal2; [|apply f_equal]); lra.
  - rewrite <- seq_shift, map_map. apply map_ext. intros i. unfold start_of, end_of, span.
    cbn [firstn fold_right]. (apply f_equal2; [|apply f_equal]); lra.
Qed.

Lemma element_ends_R b ls : has_lengths b ls -> element_ends b = Ok (ends ls).
Proof.
  intros H. destruct H as [|e l b ls [E L] H]; [reflexivity|].
  unfold element_ends. rewrite E. rewrite (ends_from_R b ls l H). cbn [bind]. f_equal.
  unfold ends. change (List.length (l :: ls)) with (S (List.length ls)). rewrite <- cons_seq. cbn [map].
  f_equal.
  - unfold start_of, end_of, span. cbn. (apply f_equal2; [|apply f_equal]); lra.
  - rewrite <- seq_shift, map_map. apply map_ext. intros i. unfold start_of, end_of, span.
    cbn [firstn fold_right]. (apply f_equal2; [|apply f_equal]); lra.
Qed.

Lemma py_index_ok {A} (l : list A) e i : designated (List.length l) e i ->
  py_index l e = match nth_error l i with Some a => Ok a | None => Err IndexError end.
Proof.
  intros [Hi D]. unfold py_index. set (n := Z.of_nat (List.length l)) in *.
  assert (E : (if (e <? 0)%Z then (e + n)%Z else e) = Z.of_nat i).
  { destruct (e <? 0)%Z eqn:L; [apply Z.ltb_lt in L|apply Z.ltb_ge in L]; lia. }
  rewrite E. assert ((Z.of_nat i <? 0) || (n <=? Z.of_nat i) = false)%Z as ->.
  { apply orb_false_iff. split; [apply Z.ltb_ge|apply Z.leb_gt]; lia. }
  now rewrite Nat2Z.id.
Qed.

Lemma py_index_bad {A} (l : list A) e : (forall i, ~ designated (List.length l) e i) ->
  py_index l e = Err IndexError.
Proof.
  intros H. unfold py_index. set (n := Z.of_nat (List.length l)) in *.
  destruct ((_ <? 0) || _)%Z eqn:E; auto. exfalso. apply orb_false_iff in E. destruct E as [E1 E2].
  apply Z.ltb_ge in E1. apply Z.leb_gt in E2.
  destruct (e <? 0)%Z eqn:L; [apply Z.ltb_lt in L|apply Z.ltb_ge in L].
  - apply (H (Z.to_nat (e + n))). split; lia.
  - apply (H (Z.to_nat e)). split; lia.
Qed.

Lemma designated_nat n i : (i < n)%nat -> designated n (Z.of_nat i) i.
Proof. split; auto. Qed.

Lemma py_index_nat {A} (l : list A) i a : nth_error l i = Some a -> py_index l (Z.of_nat i) = Ok a.
Proof.
  intros H. assert (i < List.length l)%nat by (apply nth_error_Some; congruence).
  rewrite (py_index_ok l _ i) by now apply designated_nat. now rewrite H.
Qed.

Lemma nth_ends ls i : (i < List.length ls)%nat ->
  nth_error (ends ls) i = Some (start_of ls i, Some (end_of ls i)).
Proof.
  intros H. unfold ends.
  rewrite nth_error_map. rewrite (nth_error_nth' _ 0%nat) by (rewrite seq_length; lia).
  rewrite seq_nth by lia. reflexivity.
Qed.

Lemma ends_len ls : List.length (ends ls) = List.length ls.
Proof. unfold ends. now rewrite map_length, seq_length. Qed.

Lemma start_end_R b ls e i : has_lengths b ls -> designated (List.length b) e i ->
  element_start_end b e = Ok (start_of ls i, Some (end_of ls i)).
Proof.
  intros H D. unfold element_start_end. rewrite (element_ends_R b ls H). cbn [bind].
  rewrite (lengths_len b ls H) in D.
  rewrite (py_index_ok (ends ls) e i) by now rewrite ends_len.
  rewrite nth_ends; auto. apply D.
Qed.

(** in_elements. *)
Definition in_ext (ls : list R) (p : R) (i : nat) : bool :=
  Rleb (start_of ls i) p && Rleb p (end_of ls i).
Definition ids (ls : list R) (p : R) : list nat := filter (in_ext ls p) (seq 0 (List.length ls)).

Lemma in_ends_R p (f : nat -> R * option R) (s e : nat -> R) k is :
  (forall i, f i = (s i, Some (e i))) ->
  forall m, is = seq m k ->
  in_ends p (Z.of_nat m) (map f is) =
  Ok (map Z.of_nat (filter (fun i => Rleb (s i) p && Rleb p (e i)) is)).
Proof.
  intros Hf. revert is. induction k as [|k IH]; intros is m ->; [reflexivity|].
  cbn [seq map in_ends]. rewrite Hf. cbn [nleb RNum].
  replace (Z.of_nat m + 1)%Z with (Z.of_nat (S m)) by lia.
  rewrite (IH (seq (S m) k) (S m) eq_refl). cbn [filter].
  destruct (Rleb (s m) p); cbn [bind]; [|reflexivity].
  destruct (Rleb p (e m)); reflexivity.
Qed.

Lemma in_elements_R b ls p : has_lengths b ls -> in_elements b p = Ok (map Z.of_nat (ids ls p)).
Proof.
  intros H. unfold in_elements. rewrite (element_ends_R b ls H). cbn [bind].
  unfold ends, ids. change 0%Z with (Z.of_nat 0).
  apply (in_ends_R p _ (start_of ls) (end_of ls) (List.length ls)); auto.
Qed.

Lemma in_ids ls p i : In i (ids ls p) <-> covers ls i p.
Proof.
  unfold ids, covers, in_ext. rewrite filter_In, in_seq, andb_true_iff, !Rleb_true. split; intros; lia || split; try lia; tauto.
Qed.

Lemma seq_sorted n : forall m, StronglySorted Peano.lt (seq m n).
Proof.
  induction n as [|n IH]; intros m; cbn; constructor; auto.
  apply Forall_forall. intros x Hx. apply in_seq in Hx. lia.
Qed.

Lemma filter_SS {A} (r : A -> A -> Prop) f l : StronglySorted r l -> StronglySorted r (filter f l).
Proof.
  induction 1 as [|x l H IH F]; cbn; [constructor|]. destruct (f x); auto. constructor; auto.
  rewrite Forall_forall in *. intros y Hy. apply filter_In in Hy. now apply F.
Qed.

Lemma ids_spec ls p : ids_at ls p (ids ls p).
Proof. split; [apply filter_SS, seq_sorted|]. apply in_ids. Qed.

(** ** beam_to_local and local_to_beam *)

Lemma designated_elem b ls e i : has_lengths b ls -> designated (List.length b) e i ->
  exists el, py_index b e = Ok el /\ nth_error b i = Some el /\ elength el = Some (nth i ls 0)
             /\ 0 <= nth i ls 0 /\ (i < List.length ls)%nat.
Proof.
  intros H D. rewrite (py_index_ok b e i D).
  destruct (lengths_has b ls i H) as (el & E); [rewrite <- (lengths_len b ls H); apply D|].
  rewrite E. destruct (lengths_nth b ls i el H E) as (A & B & C). eauto 10.
Qed.

Lemma beam_to_local_R b ls p e i : has_lengths b ls -> designated (List.length b) e i ->
  beam_to_local b p e =
  if in_ext ls p i
  then if Reqb (nth i ls 0) 0 then Err ElementLengthError
       else Ok ((p - start_of ls i) / nth i ls 0)
  else Err PositionNotInElementError.
Proof.
  intros H D. unfold beam_to_local. rewrite (start_end_R b ls e i H D). cbn [bind fst].
  destruct (designated_elem b ls e i H D) as (el & -> & _ & E & L & Hi). cbn [bind]. rewrite E.
  unfold in_ext. rewrite end_length by auto.
  cbn [nltb nsub neqb nflt nint ndiv RNum].
  replace (Reqb (nth i ls 0) (0 / 1)) with (Reqb (nth i ls 0) 0) by (f_equal; lra).
  destruct (Rltb (p - start_of ls i) 0) eqn:E1.
  - apply Rltb_true in E1. destruct (Rleb (start_of ls i) p) eqn:E2; auto.
    apply Rleb_true in E2. lra.
  - apply Rltb_false in E1. assert (Rleb (start_of ls i) p = true) as -> by (apply Rleb_true; lra).
    cbn [andb]. destruct (Rltb (nth i ls 0) (p - start_of ls i)) eqn:E2.
    + apply Rltb_true in E2. destruct (Rleb _ _) eqn:E3; auto. apply Rleb_true in E3. lra.
    + apply Rltb_false in E2. destruct (Rleb _ _) eqn:E3; auto. apply Rleb_false in E3. lra.
Qed.

Lemma local_to_beam_R b ls p e i : has_lengths b ls -> designated (List.length b) e i ->
  local_to_beam b p e =
  if Rltb p 0 || Rltb 1 p then Err PositionNotInElementError
  else Ok (start_of ls i + p * nth i ls 0).
Proof.
  intros H D. unfold local_to_beam. rewrite (start_end_R b ls e i H D). cbn [bind fst].
  destruct (designated_elem b ls e i H D) as (el & -> & _ & E & L & Hi). cbn [bind]. rewrite E.
  cbn [nltb nsub neqb nflt nint ndiv nadd nmul RNum].
  replace (Rltb (1 / 1) p) with (Rltb 1 p) by (f_equal; lra). reflexivity.
Qed.
End B.
