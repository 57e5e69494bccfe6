(** How many locations and rows the queries of LoadCase and Beam return (C161): counting
    lemmas, then bounds that are linear in the request, the stored rows and the elements. *)

From Coq Require Import ZArith Reals List Bool Lia Lra Sorted Permutation.
From Verif Require Import Base Num RNum OrdFacts Numpy LoadCase LoadSpec LoadFacts LoadProofs
  Beam BeamSpec BeamFacts BeamPositions BeamProofs BeamLoads.
Import ListNotations.
Open Scope R_scope.

(** * Sums of naturals over lists *)

Definition sumf {A} (f : A -> nat) (l : list A) : nat := list_sum (map f l).

Lemma sumf_cons {A} (f : A -> nat) a l : sumf f (a :: l) = (f a + sumf f l)%nat.
Proof. reflexivity. Qed.

Lemma sumf_app {A} (f : A -> nat) l l' : sumf f (l ++ l') = (sumf f l + sumf f l')%nat.
Proof. unfold sumf. now rewrite map_app, list_sum_app. Qed.

Lemma sumf_le {A} (f g : A -> nat) l : (forall a, In a l -> f a <= g a)%nat -> (sumf f l <= sumf g l)%nat.
Proof.
  induction l as [|a l IH]; intros H; [auto|]. rewrite !sumf_cons.
  pose proof (H a (or_introl eq_refl)). assert (sumf f l <= sumf g l)%nat by (apply IH; intros; apply H; now right). lia.
Qed.

Lemma sumf_ext {A} (f g : A -> nat) l : (forall a, In a l -> f a = g a) -> sumf f l = sumf g l.
Proof. intros H. unfold sumf. f_equal. now apply map_ext_in. Qed.

Lemma sumf_add {A} (f g : A -> nat) l : sumf (fun a => f a + g a)%nat l = (sumf f l + sumf g l)%nat.
Proof. induction l as [|a l IH]; [auto|]. rewrite !sumf_cons, IH. lia. Qed.

Lemma sumf_zero {A} (l : list A) : sumf (fun _ => 0%nat) l = 0%nat.
Proof. induction l; auto. Qed.

Lemma sumf_const {A} (k : nat) (l : list A) : sumf (fun _ => k) l = (k * List.length l)%nat.
Proof. induction l as [|a l IH]; [cbn; lia|]. rewrite sumf_cons, IH. cbn. lia. Qed.

Lemma sumf_swap {A B} (f : A -> B -> nat) l l' :
  sumf (fun a => sumf (f a) l') l = sumf (fun b => sumf (fun a => f a b) l) l'.
Proof.
  induction l as [|a l IH]; [cbn; now rewrite sumf_zero|]. rewrite sumf_cons, IH, <- sumf_add. reflexivity.
Qed.

Lemma sumf_concat {A} (f : A -> nat) ll : sumf f (List.concat ll) = sumf (sumf f) ll.
Proof. induction ll as [|l ll IH]; auto. cbn [List.concat]. now rewrite sumf_app, sumf_cons, IH. Qed.

Lemma sumf_filter {A} (f : A -> nat) (g : A -> bool) l :
  sumf f (filter g l) = sumf (fun a => if g a then f a else 0%nat) l.
Proof.
  induction l as [|a l IH]; auto. cbn [filter]. rewrite (sumf_cons _ a l), <- IH.
  destruct (g a); [now rewrite sumf_cons|reflexivity].
Qed.

Lemma sumf_length {A} (l : list A) : sumf (fun _ => 1%nat) l = List.length l.
Proof. rewrite sumf_const. lia. Qed.

(** At most one summand differs from 0. *)
Lemma sumf_one {A} (f : A -> nat) l k : NoDup l -> (forall a, In a l -> f a <= k)%nat ->
  (forall a b, In a l -> In b l -> f a <> 0%nat -> f b <> 0%nat -> a = b) -> (sumf f l <= k)%nat.
Proof.
  induction 1 as [|a l Na Nd IH]; intros Hk Hu; [cbn; lia|]. rewrite sumf_cons.
  destruct (Nat.eq_dec (f a) 0) as [E|E].
  - rewrite E. apply IH; intros; [apply Hk; now right|apply Hu; auto; now right].
  - assert (sumf f l = 0)%nat as ->.
    { rewrite (sumf_ext _ (fun _ => 0%nat)); [apply sumf_zero|]. intros b Hb.
      destruct (Nat.eq_dec (f b) 0) as [|Eb]; auto. exfalso. apply Na.
      rewrite (Hu a b (or_introl eq_refl) (or_intror Hb) E Eb). auto. }
    specialize (Hk a (or_introl eq_refl)). lia.
Qed.

Lemma filter_length {A} (f : A -> bool) l : (List.length (filter f l) <= List.length l)%nat.
Proof. induction l as [|x l IH]; cbn; [lia|]. destruct (f x); cbn; lia. Qed.

(** Number of occurrences of a real. *)
Definition cnt (p : R) (l : list R) : nat := sumf (fun x => if Reqb x p then 1%nat else 0%nat) l.

Lemma cnt_in p l : In p l -> (1 <= cnt p l)%nat.
Proof.
  unfold cnt. induction l as [|x l IH]; intros H; [easy|]. rewrite sumf_cons. destruct H as [<-|H].
  - rewrite (proj2 (Reqb_true x x) eq_refl). lia.
  - specialize (IH H). lia.
Qed.

Lemma sum_cnt P l : NoDup P -> (sumf (fun p => cnt p l) P <= List.length l)%nat.
Proof.
  intros N. unfold cnt. rewrite sumf_swap. rewrite <- (sumf_length l). apply sumf_le. intros x _.
  apply sumf_one; auto.
  - intros p _. destruct (Reqb x p); lia.
  - intros p q _ _ Hp Hq. destruct (Reqb x p) eqn:E1; [|easy]. destruct (Reqb x q) eqn:E2; [|easy].
    apply Reqb_true in E1, E2. congruence.
Qed.

(** * Positions and elements *)

Definition marks (ls : list R) (xss : list (list R)) (i : nat) : list R :=
  start_of ls i :: end_of ls i :: map (fun x => start_of ls i + x * nth i ls 0) (nth i xss []).

Definition inner (ls : list R) (i : nat) (p : R) : bool := Rltb (start_of ls i) p && Rltb p (end_of ls i).

Lemma sum_nth {A} (f : A -> nat) (d : A) l : sumf (fun i => f (nth i l d)) (seq 0 (List.length l)) = sumf f l.
Proof.
  induction l as [|a l IH]; auto. cbn [List.length seq]. rewrite !sumf_cons. cbn [nth]. f_equal.
  rewrite <- seq_shift. unfold sumf in *. rewrite map_map. exact IH.
Qed.

Lemma counting ls xss P lin (w : R -> nat -> nat) : Forall (fun l => 0 <= l) ls ->
  List.length xss = List.length ls -> NoDup P ->
  (forall p i, In p P -> (i < List.length ls)%nat ->
     (w p i <= cnt p (marks ls xss i) + if inner ls i p then cnt p lin else 0)%nat) ->
  (sumf (fun p => sumf (w p) (seq 0 (List.length ls))) P
   <= List.length lin + sumf (@List.length R) xss + 2 * List.length ls)%nat.
Proof.
  intros Nn Hx N H.
  eapply Nat.le_trans with (m := (sumf (fun p => sumf (fun i => cnt p (marks ls xss i)) (seq 0 (List.length ls))
     + sumf (fun i => if inner ls i p then cnt p lin else 0) (seq 0 (List.length ls)))%nat P)).
  { apply sumf_le. intros p Hp. rewrite <- sumf_add. apply sumf_le. intros i Hi. apply in_seq in Hi. apply H; auto. lia. }
  rewrite sumf_add. rewrite sumf_swap.
  assert (A : (sumf (fun i => sumf (fun p => cnt p (marks ls xss i)) P) (seq 0 (List.length ls))
               <= sumf (@List.length R) xss + 2 * List.length ls)%nat).
  { rewrite <- (sum_nth (@List.length R) [] xss), Hx.
    eapply Nat.le_trans with (m := sumf (fun i => (List.length (nth i xss []) + 2)%nat) (seq 0 (List.length ls))).
    - apply sumf_le. intros i _. eapply Nat.le_trans; [now apply sum_cnt|]. unfold marks. cbn [List.length].
      rewrite map_length. lia.
    - rewrite sumf_add, sumf_const, seq_length. lia. }
  assert (B : (sumf (fun p => sumf (fun i => if inner ls i p then cnt p lin else 0) (seq 0 (List.length ls))) P
               <= List.length lin)%nat).
  { eapply Nat.le_trans; [|now apply (sum_cnt P lin)]. apply sumf_le. intros p _.
    apply sumf_one; [apply seq_NoDup|intros i _; destruct (inner ls i p); lia|].
    intros i j Hi Hj Ei Ej. apply in_seq in Hi, Hj.
    destruct (inner ls i p) eqn:E1; [|easy]. destruct (inner ls j p) eqn:E2; [|easy].
    apply andb_true_iff in E1, E2. rewrite !Rltb_true in *.
    symmetry. apply (inside_only ls i j p); auto. split; [lia|lra]. }
  lia.
Qed.

Section B.
Context {Sec : Type}.
Implicit Types b : beam_t R Sec.

(** Total of a measure over the locations. *)
Lemma locations_sum b ls lc ps locs (m : location R -> nat) : has_lengths b ls ->
  locations b lc ps = Ok locs ->
  sumf m locs = sumf (fun p => sumf (fun i => if in_ext ls p i then
      match locations_at b lc p (Z.of_nat i) with Ok ts => sumf m ts | Err _ => 0%nat end else 0%nat)
    (seq 0 (List.length ls))) ps.
Proof.
  intros H E. rewrite (locations_R b ls lc ps H) in E.
  destruct (mapM _ _) as [tss|] eqn:M; [|discriminate]. injection E as <-. rewrite sumf_concat.
  apply mapM_inv in M. induction M as [|p ts ps tss Hp M IH]; auto. rewrite !sumf_cons, IH. f_equal.
  unfold locs_at in Hp. destruct (mapM _ _) as [us|] eqn:Mu; [|discriminate]. injection Hp as <-.
  rewrite sumf_concat. rewrite <- (sumf_filter _ (in_ext ls p)). fold (ids ls p).
  apply mapM_inv in Mu. clear - Mu. induction Mu as [|i u is us Hi Mu IH]; auto. rewrite !sumf_cons, IH, Hi. reflexivity.
Qed.

(** What is known of the positions answered. *)
Lemma locations_bound b ls lc ps locs (m : location R -> nat) xss lin : has_lengths b ls ->
  List.length xss = List.length ls ->
  locations b lc (py_sorted (py_set ps)) = Ok locs ->
  (forall p i, In p ps -> (i < List.length ls)%nat -> inner ls i p = true ->
     In p lin \/ In p (marks ls xss i)) ->
  (forall p i ts, In p ps -> covers ls i p -> locations_at b lc p (Z.of_nat i) = Ok ts ->
     sumf m ts <= Nat.max 1 (cnt p (marks ls xss i)))%nat ->
  (sumf m locs <= List.length lin + sumf (@List.length R) xss + 2 * List.length b)%nat.
Proof.
  intros H Hx E Hin Hm. rewrite (locations_sum b ls lc _ locs m H E). rewrite (lengths_len b ls H).
  apply counting; auto; [now apply (lengths_nonneg b)|..].
  - pose proof (sorted_set_R ps) as S. clear - S. induction S as [|x l S IH F]; constructor; auto.
    intros Hx. rewrite Forall_forall in F. specialize (F x Hx). lra.
  - intros p i Hp Hi. apply (proj1 (Rin_sorted_set _ _)) in Hp. destruct (in_ext ls p i) eqn:C; [|lia].
    unfold in_ext in C. apply andb_true_iff in C. rewrite !Rleb_true in C.
    assert (Cv : covers ls i p) by now split.
    destruct (locations_at b lc p (Z.of_nat i)) as [ts|] eqn:El; [|lia].
    specialize (Hm p i ts Hp Cv El).
    destruct (inner ls i p) eqn:In_.
    + destruct (Hin p i Hp Hi In_) as [A|A]; apply cnt_in in A; lia.
    + assert (A : In p (marks ls xss i)).
      { unfold inner in In_. apply andb_false_iff in In_. rewrite !Rltb_false in In_. unfold marks.
        destruct In_; [left; lra|right; left; lra]. }
      apply cnt_in in A. lia.
Qed.

(** ** Tables *)

Definition tables_of (b : beam_t R Sec) (c : Z) (ts : list (list (lrow R))) : Prop :=
  Forall2 (fun e rows => dict_get c (eloads e) = Ok (Some rows) /\ accepted (Some rows) /\ rows <> []) b ts.

Lemma tables_nth b c ts i e : tables_of b c ts -> nth_error b i = Some e ->
  dict_get c (eloads e) = Ok (Some (nth i ts [])) /\ accepted (Some (nth i ts [])) /\ nth i ts [] <> [].
Proof.
  intros F. revert i. induction F as [|e' t b' ts' A F IH]; intros [|i] E; try discriminate.
  - injection E as ->. exact A.
  - now apply IH.
Qed.

Definition stored_positions (ts : list (list (lrow R))) : list (list R) := map (map lpos) ts.

Lemma nth_stored ts i : nth i (stored_positions ts) [] = map lpos (nth i ts []).
Proof. exact (map_nth (map lpos) ts [] i). Qed.

Lemma sum_stored ts : sumf (@List.length R) (stored_positions ts) = list_sum (map (@List.length (lrow R)) ts).
Proof. unfold sumf, stored_positions. rewrite map_map. f_equal. apply map_ext. intros. apply map_length. Qed.

(** All stored positions of an element of zero length are at its start. *)
Lemma cnt_zero ls xss i p : (i < List.length ls)%nat -> nth i ls 0 = 0 -> covers ls i p ->
  cnt p (marks ls xss i) = (2 + List.length (nth i xss []))%nat.
Proof.
  intros Hi Z [_ C]. rewrite end_length in C by auto. rewrite Z in C.
  assert (E : p = start_of ls i) by lra.
  unfold cnt, marks. rewrite !sumf_cons, end_length, Z, Rplus_0_r by auto.
  rewrite (proj2 (Reqb_true _ _) (eq_sym E)). cbn [Nat.add]. do 2 f_equal.
  unfold sumf. rewrite map_map, <- (sumf_length (nth i xss [])). unfold sumf. f_equal. apply map_ext. intros x.
  rewrite Rmult_0_r, Rplus_0_r, (proj2 (Reqb_true _ _) (eq_sym E)). reflexivity.
Qed.

Lemma zero_length_size (e : elem R Sec) c rows locals : dict_get c (eloads e) = Ok (Some rows) ->
  zero_length_positions e (Some c) = Ok locals -> List.length locals = List.length rows.
Proof.
  intros Ed. unfold zero_length_positions, el_load_positions. rewrite Ed. cbn [bind load_positions].
  rewrite <- (map_length lpos rows). destruct (map lpos rows) as [|p0 l]; [discriminate|]. cbv zeta.
  intros E. apply (f_equal (fun r => match r with Ok x => x | Err _ => [] end)) in E. subst locals.
  destruct (negb (neqb p0 (nint 0))); match goal with |- context [if ?x then _ else _] => destruct x end;
    rewrite ?map_length; reflexivity.
Qed.

(** Number of locations at one position of one element. *)
Lemma at_size b ls c ts p i us : has_lengths b ls -> tables_of b c ts -> covers ls i p ->
  locations_at b (Some c) p (Z.of_nat i) = Ok us ->
  (sumf (fun _ => 1%nat) us <= Nat.max 1 (cnt p (marks ls (stored_positions ts) i)))%nat.
Proof.
  intros H HT C E. destruct (lengths_has b ls i H (proj1 C)) as (e & He).
  rewrite (locations_at_R b ls (Some c) p i e H C He) in E. unfold locals_at in E. rewrite sumf_length.
  destruct (Reqb (nth i ls 0) 0) eqn:Z.
  - apply Reqb_true in Z. destruct (zero_length_positions e (Some c)) as [locals|] eqn:El; [|discriminate].
    cbn in E. injection E as <-. rewrite map_length.
    rewrite (zero_length_size e c _ locals (proj1 (tables_nth b c ts i e HT He)) El).
    rewrite cnt_zero; auto; [|apply C]. rewrite nth_stored, map_length. lia.
  - cbn in E. injection E as <-. cbn [List.length map]. lia.
Qed.

Lemma at_size_none b ls p i us xss : has_lengths b ls -> covers ls i p ->
  locations_at b None p (Z.of_nat i) = Ok us ->
  (sumf (fun _ => 1%nat) us <= Nat.max 1 (cnt p (marks ls xss i)))%nat.
Proof.
  intros H C E. destruct (lengths_has b ls i H (proj1 C)) as (e & He).
  rewrite (locations_at_R b ls None p i e H C He) in E. unfold locals_at in E. rewrite sumf_length.
  destruct (Reqb (nth i ls 0) 0) eqn:Z; cbn in E; injection E as <-; cbn [List.length map]; [|lia].
  apply Reqb_true in Z. rewrite cnt_zero; auto; [lia|apply C].
Qed.

(** ** What is asked for when [min_positions] is given *)

Lemma min_points b ls lc n locs : has_lengths b ls ->
  (forall e, In e b -> exists xs, considered e lc xs /\ Forall (fun x => 0 <= x <= 1) xs) ->
  beam_list_positions b PosNone (Some n) lc = Ok locs ->
  exists ps lin, locations b lc (py_sorted (py_set ps)) = Ok locs /\ List.length lin = Z.to_nat n /\
    forall p, In p ps -> In p lin \/ (exists i, p = start_of ls i \/ p = end_of ls i) \/
      exists j e xs x, nth_error b j = Some e /\ considered e lc xs /\ In x xs /\ p = start_of ls j + x * nth j ls 0.
Proof.
  intros H Hc E. unfold beam_list_positions in E. rewrite (beam_length_R b ls H) in E. cbn [bind] in E.
  destruct (Z_lt_le_dec n 0) as [L|L].
  { unfold linspace in E. rewrite (proj2 (Z.ltb_lt n 0) L) in E. discriminate. }
  rewrite (linspace_R _ n L) in E. cbn [bind] in E. rewrite (element_ends_R b ls H) in E. cbn [bind] in E.
  destruct (real_positions_R b ls lc H b 0 ltac:(auto) Hc) as (real & Er & Ir).
  change (Z.of_nat 0) with 0%Z in Er. rewrite Er in E. cbn [bind] in E.
  set (lin := map (fun i => even_point n i * span ls) (seq 0 (Z.to_nat n))) in *.
  exists ((flatten_ends (ends ls) ++ real) ++ lin), lin. split; [|split].
  - unfold py_set, set_update in *. rewrite fold_left_app. exact E.
  - unfold lin. now rewrite map_length, seq_length.
  - intros p Hp. rewrite !in_app_iff in Hp. destruct Hp as [[Hp|Hp]|Hp]; auto.
    + apply flatten_ends_R in Hp. destruct Hp as (i & _ & Hp). eauto.
    + right. right. apply Ir in Hp. exact Hp.
Qed.

(** No element end is strictly inside an element. *)
Lemma ends_not_inner ls i j p : Forall (fun l => 0 <= l) ls -> inner ls i p = true ->
  p = start_of ls j \/ p = end_of ls j -> False.
Proof.
  intros Nn In_ [->| ->]; unfold inner in In_; apply andb_true_iff in In_; rewrite !Rltb_true, !end_start in In_;
    destruct In_ as [A B].
  - destruct (Nat.le_gt_cases j i) as [L|L].
    + pose proof (start_mono ls j i Nn L). lra.
    + pose proof (start_mono ls (S i) j Nn ltac:(lia)). lra.
  - destruct (Nat.le_gt_cases (S j) i) as [L|L].
    + pose proof (start_mono ls (S j) i Nn L). lra.
    + pose proof (start_mono ls (S i) (S j) Nn ltac:(lia)). lra.
Qed.

Lemma inner_stored ls i j x p : Forall (fun l => 0 <= l) ls -> (i < List.length ls)%nat -> (j < List.length ls)%nat ->
  inner ls i p = true -> 0 <= x <= 1 -> p = start_of ls j + x * nth j ls 0 -> j = i.
Proof.
  intros Nn Hi Hj In_ Hx ->. unfold inner in In_. apply andb_true_iff in In_. rewrite !Rltb_true in In_.
  apply (inside_only ls i j (start_of ls j + x * nth j ls 0)); auto. split; auto. rewrite end_length by auto.
  assert (0 <= nth j ls 0). { rewrite Forall_forall in Nn. apply Nn, nth_In, Hj. } nra.
Qed.

Lemma tables_considered b c ts e : tables_of b c ts -> In e b ->
  exists xs, considered e (Some c) xs /\ Forall (fun x => 0 <= x <= 1) xs.
Proof.
  intros HT He. apply In_nth_error in He. destruct He as (i & He). destruct (tables_nth b c ts i e HT He) as (Ed & Ha & _).
  exists (map lpos (nth i ts [])). split.
  - cbn. unfold el_load_positions. now rewrite Ed.
  - destruct (proj1 (accepted_rows _) Ha) as (_ & F). apply Forall_forall. intros x Hx. apply in_map_iff in Hx.
    destruct Hx as (r & <- & Hr). rewrite Forall_forall in F. now apply F.
Qed.

Lemma list_bound_gen b ls c ts xss n locs (m : location R -> nat) : has_lengths b ls -> tables_of b c ts ->
  List.length xss = List.length b ->
  (forall i, 0 < nth i ls 0 -> nth i xss [] = nth i (stored_positions ts) []) ->
  beam_list_positions b PosNone (Some n) (Some c) = Ok locs ->
  (forall p i us, covers ls i p -> locations_at b (Some c) p (Z.of_nat i) = Ok us ->
     sumf m us <= Nat.max 1 (cnt p (marks ls xss i)))%nat ->
  (sumf m locs <= Z.to_nat n + sumf (@List.length R) xss + 2 * List.length b)%nat.
Proof.
  intros H HT Hl Hx E Hm. pose proof (lengths_nonneg b ls H) as Nn.
  destruct (min_points b ls (Some c) n locs H (fun e He => tables_considered b c ts e HT He) E) as (ps & lin & El & <- & Hp).
  apply (locations_bound b ls (Some c) ps locs m xss lin H); auto.
  - now rewrite Hl, (lengths_len b ls H).
  - intros p i Ip Hi In_. destruct (Hp p Ip) as [A|[(k & A)|(j & e & xs & x & He & Cx & Hx' & Ex)]]; auto.
    + destruct (ends_not_inner ls i k p Nn In_ A).
    + right. destruct (tables_nth b c ts j e HT He) as (Ed & Ha & _).
      cbn in Cx. unfold el_load_positions in Cx. rewrite Ed in Cx. cbn in Cx. injection Cx as <-.
      destruct (lengths_nth b ls j e H He) as (_ & _ & Hj).
      assert (0 <= x <= 1) as Rx.
      { destruct (proj1 (accepted_rows _) Ha) as (_ & F). apply in_map_iff in Hx'. destruct Hx' as (r & <- & Hr).
        rewrite Forall_forall in F. now apply F. }
      pose proof (inner_stored ls i j x p Nn Hi Hj In_ Rx Ex) as ->. unfold marks. right. right.
      rewrite Hx, nth_stored.
      * apply in_map_iff. exists x. auto.
      * unfold inner in In_. apply andb_true_iff in In_. rewrite !Rltb_true, end_length in In_ by auto. lra.
Qed.

Lemma at_bound_gen b ls c xss position ps locs (m : location R -> nat) : has_lengths b ls ->
  List.length xss = List.length b ->
  requested position ps -> beam_list_positions b position None (Some c) = Ok locs ->
  (forall p i us, covers ls i p -> locations_at b (Some c) p (Z.of_nat i) = Ok us ->
     sumf m us <= Nat.max 1 (cnt p (marks ls xss i)))%nat ->
  (sumf m locs <= List.length ps + sumf (@List.length R) xss + 2 * List.length b)%nat.
Proof.
  intros H Hl Rq E Hm. rewrite (explicit_R b position ps (Some c) Rq) in E.
  destruct (check_on_beam b ps); [|discriminate]. cbn [bind] in E.
  apply (locations_bound b ls (Some c) ps locs m xss ps H); auto.
  now rewrite Hl, (lengths_len b ls H).
Qed.

Lemma tables_len b c ts : tables_of b c ts -> List.length (stored_positions ts) = List.length b.
Proof. intros HT. unfold stored_positions. rewrite map_length. symmetry. induction HT; cbn; congruence. Qed.

Lemma list_none_bound b ls n locs : has_lengths b ls ->
  beam_list_positions b PosNone (Some n) None = Ok locs -> (List.length locs <= Z.to_nat n + 2 * List.length b)%nat.
Proof.
  intros H E. pose proof (lengths_nonneg b ls H) as Nn.
  assert (Hc : forall e, In e b -> exists xs, considered e None xs /\ Forall (fun x => 0 <= x <= 1) xs).
  { intros e _. eexists. split; [reflexivity|]. repeat constructor; lra. }
  destruct (min_points b ls None n locs H Hc E) as (ps & lin & El & <- & Hp).
  rewrite <- (sumf_length locs).
  pose proof (locations_bound b ls None ps locs (fun _ => 1%nat) (map (fun _ => []) ls) lin H) as L.
  assert (sumf (@List.length R) (map (fun _ => []) ls) = 0)%nat as Z0.
  { unfold sumf. rewrite map_map. clear. induction ls; auto. }
  rewrite Z0, Nat.add_0_r in L. apply L; auto.
  - now rewrite map_length.
  - intros p i Ip Hi In_. destruct (Hp p Ip) as [A|[(k & A)|(j & e & xs & x & He & Cx & Hx & Ex)]]; auto; exfalso.
    + destruct (ends_not_inner ls i k p Nn In_ A).
    + cbn in Cx. subst xs. destruct (lengths_nth b ls j e H He) as (_ & _ & Hj).
      apply (ends_not_inner ls i j p Nn In_). rewrite end_length by auto.
      destruct Hx as [<-|[<-|[]]]; [left|right]; lra.
  - intros p i us _ C Eu. now apply (at_size_none b ls).
Qed.

(** ** Rows *)

Lemma block_size (rows : list (lrow R)) cs l :
  (List.length (block rows cs l) <= Nat.max 1 (cnt l (map lpos rows)))%nat.
Proof.
  unfold block. destruct (py_in l (map lpos rows)); [|cbn [List.length]; lia]. rewrite map_length.
  assert (List.length (filter (fun r => neqb (lpos r) l) rows) = cnt l (map lpos rows)) as ->; [|lia].
  rewrite <- sumf_length, sumf_filter. unfold cnt, sumf. rewrite map_map. reflexivity.
Qed.

Lemma cnt_local ls xss i p : (i < List.length ls)%nat -> 0 < nth i ls 0 ->
  (cnt ((p - start_of ls i) / nth i ls 0)%R (nth i xss []) <= cnt p (marks ls xss i))%nat.
Proof.
  intros Hi L. unfold marks, cnt at 2. rewrite !sumf_cons.
  assert (cnt ((p - start_of ls i) / nth i ls 0) (nth i xss []) =
          sumf (fun x => if Reqb x p then 1%nat else 0%nat) (map (fun x => start_of ls i + x * nth i ls 0) (nth i xss []))) as ->; [|lia].
  unfold cnt, sumf. rewrite map_map. f_equal. apply map_ext. intros x.
  destruct (Reqb x _) eqn:E1, (Reqb (start_of ls i + x * nth i ls 0) p) eqn:E2; auto; exfalso.
  - apply Reqb_true in E1. apply Reqb_false in E2. apply E2. rewrite E1. field. lra.
  - apply Reqb_false in E1. apply Reqb_true in E2. apply E1. rewrite <- E2. field. lra.
Qed.

(** Number of rows reported at a location. *)
Definition rows_at (ts : list (list (lrow R))) (cs : list comp) (t : location R) : nat :=
  List.length (block (nth (Z.to_nat (snd (fst t))) ts []) cs (snd t)).

Lemma rows_sum qs b c ts a cs locs blocks : any_argsort qs -> tables_of b c ts -> designates a cs -> cs <> [] ->
  Forall2 (rows_of_triple qs b c a) locs blocks ->
  List.length (List.concat blocks) = sumf (rows_at ts cs) locs.
Proof.
  intros Hq HT Hd Hc F. induction F as [|[[p e] l] blk locs blocks (el & rows & A) F IH]; auto.
  cbn [List.concat]. rewrite app_length, IH, sumf_cons. f_equal.
  cbn in A. unfold rows_at. cbn [fst snd].
  decompose [and] A.
  match goal with H : nth_error _ _ = Some _ |- _ => destruct (tables_nth b c ts _ el HT H) as (Ed & Ha & Hn) end.
  match goal with H : el_get_loads _ _ _ _ _ _ = _ |- _ =>
    rewrite (el_get_loads_block qs el c l a cs _ Hq Ed Ha Hn Hd Hc) in H; injection H as <- end.
  subst blk. unfold at_position. now rewrite map_length.
Qed.

(** On an element of zero length every row can be there once for each row. *)
Definition weight (len : R) (rows : list (lrow R)) : nat :=
  if Reqb len 0 then (List.length rows * List.length rows)%nat else List.length rows.
Definition weights (ls : list R) (ts : list (list (lrow R))) : list nat :=
  map (fun lt => weight (fst lt) (snd lt)) (combine ls ts).

Definition spread (ls : list R) (ts : list (list (lrow R))) : list (list R) :=
  map (fun lt => if Reqb (fst lt) 0 then repeat 0 (weight (fst lt) (snd lt)) else map lpos (snd lt)) (combine ls ts).

Lemma nth_spread ls ts i : List.length ls = List.length ts -> (i < List.length ls)%nat ->
  nth i (spread ls ts) [] = if Reqb (nth i ls 0) 0 then repeat 0 (weight (nth i ls 0) (nth i ts []))
                            else map lpos (nth i ts []).
Proof.
  intros L Hi. unfold spread.
  set (f := fun lt : R * list (lrow R) => if Reqb (fst lt) 0 then repeat 0 (weight (fst lt) (snd lt)) else map lpos (snd lt)).
  rewrite (nth_indep (map f (combine ls ts)) [] (f (0, []))) by (rewrite map_length, combine_length; lia).
  rewrite map_nth, combine_nth by auto. reflexivity.
Qed.

Lemma spread_len b ls c ts : has_lengths b ls -> tables_of b c ts -> List.length (spread ls ts) = List.length b.
Proof.
  intros H HT. unfold spread. rewrite map_length, combine_length, <- (lengths_len b ls H).
  pose proof (tables_len b c ts HT) as L. unfold stored_positions in L. rewrite map_length in L. lia.
Qed.

Lemma sum_spread ls ts : sumf (@List.length R) (spread ls ts) = list_sum (weights ls ts).
Proof.
  unfold sumf, spread, weights. rewrite map_map. f_equal. apply map_ext. intros [l t]. cbn [fst snd].
  unfold weight. destruct (Reqb l 0); [now rewrite repeat_length|now rewrite map_length].
Qed.

Lemma rows_at_le ts cs (t : location R) : (rows_at ts cs t <= Nat.max 1 (List.length (nth (Z.to_nat (snd (fst t))) ts [])))%nat.
Proof.
  unfold rows_at, block. destruct (py_in _ _); [|cbn [List.length]; lia]. rewrite map_length.
  pose proof (filter_length (fun r => neqb (lpos r) (snd t)) (nth (Z.to_nat (snd (fst t))) ts [])). lia.
Qed.

Lemma rows_at_size b ls c ts cs p i us : has_lengths b ls -> tables_of b c ts ->
  covers ls i p -> locations_at b (Some c) p (Z.of_nat i) = Ok us ->
  (sumf (rows_at ts cs) us <= Nat.max 1 (cnt p (marks ls (spread ls ts) i)))%nat.
Proof.
  intros H HT C E. destruct (lengths_has b ls i H (proj1 C)) as (e & He).
  assert (Lt : List.length ls = List.length ts).
  { rewrite <- (lengths_len b ls H), <- (tables_len b c ts HT). apply map_length. }
  pose proof (nth_spread ls ts i Lt (proj1 C)) as Ns.
  rewrite (locations_at_R b ls (Some c) p i e H C He) in E. unfold locals_at in E.
  destruct (Reqb (nth i ls 0) 0) eqn:Z.
  - destruct (tables_nth b c ts i e HT He) as (Ed & _ & Hn).
    destruct (zero_length_positions e (Some c)) as [locals|] eqn:El; [|discriminate].
    cbn in E. injection E as <-. rewrite cnt_zero; [|apply C|now apply Reqb_true|exact C].
    rewrite Ns, repeat_length. unfold weight. rewrite Z.
    pose proof (zero_length_size e c _ locals Ed El) as Sz.
    assert (B : (sumf (rows_at ts cs) (map (fun l => (p, Z.of_nat i, l)) locals)
                 <= Nat.max 1 (List.length (nth i ts [])) * List.length locals)%nat).
    { rewrite <- (map_length (fun l => (p, Z.of_nat i, l)) locals), <- sumf_const. apply sumf_le. intros t Ht.
      apply in_map_iff in Ht. destruct Ht as (l & <- & _). eapply Nat.le_trans; [apply rows_at_le|].
      cbn [fst snd]. now rewrite Nat2Z.id. }
    rewrite Sz in B. destruct (nth i ts []) as [|r rows]; [easy|]. cbn [List.length] in *. nia.
  - apply Reqb_false in Z.
    assert (L : 0 < nth i ls 0).
    { pose proof (lengths_nonneg b ls H) as Nn. rewrite Forall_forall in Nn. specialize (Nn _ (nth_In _ 0 (proj1 C))). lra. }
    cbn in E. injection E as <-. unfold sumf. cbn [map list_sum fold_right]. unfold rows_at. cbn [fst snd].
    rewrite Nat2Z.id. pose proof (block_size (nth i ts []) cs ((p - start_of ls i) / nth i ls 0)) as B.
    pose proof (cnt_local ls (spread ls ts) i p (proj1 C) L) as D. rewrite Ns in D. lia.
Qed.

(** ** Results *)

Lemma list_bound b ls c ts n locs : has_lengths b ls -> tables_of b c ts ->
  beam_list_positions b PosNone (Some n) (Some c) = Ok locs ->
  (List.length locs <= Z.to_nat n + list_sum (map (@List.length (lrow R)) ts) + 2 * List.length b)%nat.
Proof.
  intros H HT E. rewrite <- (sumf_length locs), <- sum_stored. apply (list_bound_gen b ls c ts); auto.
  - now apply (tables_len b c).
  - intros p i us C Eu. now apply (at_size b ls c).
Qed.

Lemma at_bound b ls c ts position ps locs : has_lengths b ls -> tables_of b c ts -> requested position ps ->
  beam_list_positions b position None (Some c) = Ok locs ->
  (List.length locs <= List.length ps + list_sum (map (@List.length (lrow R)) ts) + 2 * List.length b)%nat.
Proof.
  intros H HT Rq E. rewrite <- (sumf_length locs), <- sum_stored. apply (at_bound_gen b ls c _ position); auto.
  - now apply (tables_len b c).
  - intros p i us C Eu. now apply (at_size b ls c).
Qed.

Lemma loads_bound qs b ls c ts n a cs out : any_argsort qs -> has_lengths b ls ->
  tables_of b c ts -> designates a cs -> cs <> [] ->
  beam_get_loads qs b c PosNone (Some n) a = Ok (Some out) ->
  (List.length out <= Z.to_nat n + list_sum (weights ls ts) + 2 * List.length b)%nat.
Proof.
  intros Hq H HT Hd Hc E. destruct (C21_inv qs b ls c _ _ a _ H E) as (locs & blocks & El & F & Eo).
  assert (out = List.concat blocks) as ->. { destruct locs; congruence. }
  rewrite (rows_sum qs b c ts a cs locs blocks), <- sum_spread by auto. apply (list_bound_gen b ls c ts); auto.
  - now apply (spread_len b ls c).
  - intros i L. assert (Hi : (i < List.length ls)%nat).
    { destruct (Nat.lt_ge_cases i (List.length ls)) as [|G]; auto. rewrite nth_overflow in L by auto. lra. }
    rewrite nth_spread, nth_stored; auto.
    + now rewrite (proj2 (Reqb_false _ 0)) by lra.
    + rewrite <- (lengths_len b ls H), <- (tables_len b c ts HT). apply map_length.
  - intros p i us C Eu. now apply (rows_at_size b ls c).
Qed.

Lemma loads_at_bound qs b ls c ts position ps a cs out : any_argsort qs -> has_lengths b ls ->
  tables_of b c ts -> designates a cs -> cs <> [] -> requested position ps ->
  beam_get_loads qs b c position None a = Ok (Some out) ->
  (List.length out <= List.length ps + list_sum (weights ls ts) + 2 * List.length b)%nat.
Proof.
  intros Hq H HT Hd Hc Rq E. destruct (C21_inv qs b ls c _ _ a _ H E) as (locs & blocks & El & F & Eo).
  assert (out = List.concat blocks) as ->. { destruct locs; congruence. }
  rewrite (rows_sum qs b c ts a cs locs blocks), <- sum_spread by auto. apply (at_bound_gen b ls c _ position); auto.
  - now apply (spread_len b ls c).
  - intros p i us C Eu. now apply (rows_at_size b ls c).
Qed.

(** Without elements of zero length the weights are the numbers of rows. *)
Lemma weights_positive b ls c ts : has_lengths b ls -> tables_of b c ts -> Forall (fun l => 0 < l) ls ->
  weights ls ts = map (@List.length (lrow R)) ts.
Proof.
  intros H HT Hp. assert (Lt : List.length ls = List.length ts).
  { rewrite <- (lengths_len b ls H), <- (tables_len b c ts HT). apply map_length. }
  clear - Hp Lt. revert ts Lt. induction Hp as [|l ls L Hp IH]; intros [|t ts] Lt; try discriminate; auto.
  unfold weights in *. cbn [combine map fst snd]. injection Lt as Lt. rewrite IH by auto. f_equal.
  unfold weight. now rewrite (proj2 (Reqb_false l 0)) by lra.
Qed.
End B.

(** * LoadCase, any kind of number *)

Section L.
Context {T : Type} {NT : Num T}.

Lemma update_filter (f : T -> bool) l : forall s,
  (List.length (filter f (set_update s l)) <= List.length (filter f s) + List.length l)%nat.
Proof.
  unfold set_update. induction l as [|x l IH]; intros s; cbn [fold_left List.length]; [lia|].
  specialize (IH (set_add s x)). unfold set_add in *. destruct (py_in x s); [lia|].
  rewrite filter_app, app_length in IH. cbn in IH. destruct (f x); cbn in IH; lia.
Qed.

Lemma perm_filter {A} (f : A -> bool) l l' : Permutation l l' -> List.length (filter f l) = List.length (filter f l').
Proof. induction 1; cbn; auto; repeat match goal with |- context [f ?x] => destruct (f x) end; cbn; congruence. Qed.

Lemma update_in (l : list T) : forall s x, In x (set_update s l) -> In x s \/ In x l.
Proof.
  unfold set_update. induction l as [|y l IH]; intros s x H; cbn in *; auto.
  apply IH in H. unfold set_add in H. destruct (py_in y s); [tauto|]. rewrite in_app_iff in H. cbn in H. tauto.
Qed.

Lemma own_in (l : list T) : Forall (fun x => neqb x x = true) l -> filter (fun p => negb (py_in p l)) (py_set l) = [].
Proof.
  intros F. destruct (filter _ _) as [|x r] eqn:E; auto. exfalso.
  assert (I : In x (filter (fun p => negb (py_in p l)) (py_set l))) by (rewrite E; now left).
  apply filter_In in I. destruct I as [I N]. apply negb_true_iff in N. apply update_in in I. destruct I as [[]|I].
  assert (py_in x l = true); [|congruence]. unfold py_in. apply existsb_exists. exists x. split; auto.
  rewrite Forall_forall in F. now apply F.
Qed.

Lemma linspace_length (a z : T) n lin : linspace a z n = Ok lin -> List.length lin = Z.to_nat n.
Proof.
  unfold linspace. destruct (n <? 0)%Z eqn:E0; [discriminate|]. cbv zeta. intros [= <-].
  apply Z.ltb_ge in E0. destruct (1 <? n)%Z eqn:E1; rewrite ?app_length, ?map_length, ?seq_length; auto.
  apply Z.ltb_lt in E1. cbn. lia.
Qed.

(** Rows returned, given how many positions are not stored. *)
Lemma get_load_size qs rows position mp a ps out : any_argsort qs -> list_positions (Some rows) mp position = Ok ps ->
  get_load qs (Some rows) position mp a = Ok (Some out) ->
  (List.length out <= List.length rows + List.length (filter (fun p => negb (py_in p (map lpos rows))) ps))%nat.
Proof.
  intros Hq Ep E. unfold get_load in E. rewrite Ep in E. cbn [bind] in E. cbv zeta in E.
  destruct (components a) as [cs|]; [|discriminate]. cbn [bind] in E.
  destruct (array_equal ps (np_unique (map lpos rows))).
  { injection E as <-. rewrite map_length. lia. }
  set (int := filter (fun p => negb (py_in p (map lpos rows))) ps) in *.
  set (dir := filter (fun p => py_in p (map lpos rows)) ps) in *.
  set (d := map (pick cs) (filter (fun r => py_in (lpos r) dir) rows)) in *.
  assert (Hd : (List.length d <= List.length rows)%nat).
  { unfold d. rewrite map_length. apply filter_length. }
  match type of E with bind ?m _ = _ => destruct m as [oi|] eqn:Ei; [|discriminate] end. cbn [bind] in E.
  assert (Hi : match oi with None => True | Some i => (List.length i <= List.length int)%nat end).
  { destruct int as [|x r]; [injection Ei as <-; exact I|].
    match type of Ei with bind ?m _ = _ => destruct m as [cols|]; [|discriminate] end. cbn [bind] in Ei.
    injection Ei as <-. cbn [List.length]. rewrite map_length, combine_length. lia. }
  destruct dir as [|x0 r0].
  - injection E as ->. cbv iota in Hi. eapply Nat.le_trans; [exact Hi|apply Nat.le_add_l].
  - destruct oi as [i|]; [|injection E as <-; lia]. injection E as <-.
    rewrite map_length, (Permutation_length (sort_perm _ _)), (Permutation_length (proj1 (Hq _))).
    rewrite app_length, !combine_length, !seq_length, map_length. lia.
Qed.

Lemma get_load_min_size qs rows n a out : any_argsort qs -> Forall (fun r => neqb (lpos r) (lpos r) = true) rows ->
  get_load qs (Some rows) PosNone (Some n) a = Ok (Some out) ->
  (List.length out <= Z.to_nat n + List.length rows)%nat.
Proof.
  intros Hq F E. destruct (list_positions (Some rows) (Some n) PosNone) as [ps|] eqn:Ep.
  2:{ unfold get_load in E. now rewrite Ep in E. }
  pose proof (get_load_size qs rows _ _ a ps out Hq Ep E) as L.
  cbn [list_positions load_positions bind] in Ep.
  destruct (linspace _ _ n) as [lin|] eqn:El; [|discriminate]. cbn [bind] in Ep.
  destruct (_ <? n)%Z; [discriminate|]. injection Ep as <-.
  unfold py_sorted in L. rewrite (perm_filter _ _ _ (sort_perm _ _)) in L.
  pose proof (update_filter (fun p => negb (py_in p (map lpos rows))) lin (py_set (map lpos rows))) as U.
  rewrite own_in in U; [|now apply Forall_map]. cbn [List.length] in U. rewrite (linspace_length _ _ _ _ El) in U. lia.
Qed.

Lemma get_load_at_size qs rows ps a out : any_argsort qs ->
  get_load qs (Some rows) (PosList ps) None a = Ok (Some out) ->
  (List.length out <= List.length ps + List.length rows)%nat.
Proof.
  intros Hq E. pose proof (get_load_size qs rows (PosList ps) None a _ out Hq eq_refl E) as L.
  unfold py_sorted in L. rewrite (perm_filter _ _ _ (sort_perm _ _)) in L.
  pose proof (update_filter (fun p => negb (py_in p (map lpos rows))) ps []) as U. cbn [filter List.length] in U.
  unfold py_set in L. lia.
Qed.
End L.

(** * Elements of zero length: every stored row once per row stored at its position *)

Definition stack_row (x : R) : lrow R := mk_lrow x 1 2 3 4 5 6.
Definition stack (k : nat) : list (lrow R) := stack_row 0 :: repeat (stack_row 1) k.
Definition stack_beam (k : nat) : beam_t R nat := [mk_elem (Some 0) (Some 10%nat) [(7%Z, Some (stack k))]].

Lemma stack_lengths k : has_lengths (stack_beam k) [0].
Proof. repeat constructor; cbn; lra. Qed.

Lemma stack_accepted k : accepted (Some (stack k)).
Proof.
  apply accepted_rows. split.
  - constructor.
    + induction k as [|k IH]; constructor; auto. apply Forall_forall. intros r Hr. apply repeat_spec in Hr. subst r. cbn. lra.
    + apply Forall_forall. intros r Hr. apply repeat_spec in Hr. subst r. cbn. lra.
  - constructor; [cbn; lra|]. apply Forall_forall. intros r Hr. apply repeat_spec in Hr. subst r. cbn. lra.
Qed.

Lemma stack_tables k : tables_of (stack_beam k) 7 [stack k].
Proof. repeat constructor; [apply stack_accepted|discriminate]. Qed.

Lemma stack_loaded k : loaded (stack_beam k) 7.
Proof.
  intros e [<-|[]]. exists (stack k). split; [reflexivity|]. split; [apply stack_accepted|discriminate].
Qed.

Lemma map_repeat {A B} (f : A -> B) a k : map f (repeat a k) = repeat (f a) k.
Proof. induction k; cbn; congruence. Qed.

Lemma last_repeat {A} (a d : A) k : last (a :: repeat a k) d = a.
Proof. induction k as [|k IH]; auto. Qed.

Lemma stack_locals k : zero_length_positions (mk_elem (Some 0) (Some 10%nat) [(7%Z, Some (stack (S k)))]) (Some 7%Z)
  = Ok (0 :: repeat 1 (S k)).
Proof.
  unfold zero_length_positions, el_load_positions. cbn [eloads dict_get]. change (7 =? 7)%Z with true.
  cbn [bind load_positions]. unfold stack. cbn [map]. rewrite map_repeat. cbn [lpos stack_row bind]. cbv zeta.
  cbn [neqb nint RNum]. rewrite Reqb_refl. cbn [negb].
  change (last (0 :: repeat 1 (S k)) 0) with (last (1 :: repeat 1 k) 0). rewrite last_repeat.
  assert (Reqb 1 (nflt 1 1) = true) as -> by (apply Reqb_true; cbn; lra). reflexivity.
Qed.

Lemma stack_query qs k : any_argsort qs -> exists out,
  beam_get_loads qs (stack_beam (S k)) 7 (PosNum 0) None CNone = Ok (Some out) /\ List.length out = (1 + S k * S k)%nat.
Proof.
  intros Hq. set (b := stack_beam (S k)). pose proof (stack_lengths (S k)) as H. fold b in H.
  assert (C : covers [0] 0 0) by (split; [cbn; lia|unfold start_of, end_of, span; cbn; lra]).
  assert (El : beam_list_positions b (PosNum 0) None (Some 7%Z) = Ok (map (fun l => (0, 0%Z, l)) (0 :: repeat 1 (S k)))).
  { rewrite (explicit_R b (PosNum 0) [0] (Some 7%Z)) by constructor.
    destruct (check_on_beam_R b [0] [0] H) as [[-> _]|[_ (p & [<-|[]] & Off)]].
    2:{ unfold span in Off. cbn in Off. lra. }
    cbn [bind]. rewrite (locations_R b [0] (Some 7%Z) _ H).
    change (py_sorted (py_set [0])) with [0]. cbn [mapM]. unfold locs_at.
    assert (ids [0] 0 = [0%nat]) as ->.
    { unfold ids. cbn [List.length seq filter]. destruct C as [_ [C1 C2]]. unfold in_ext.
      now rewrite (proj2 (Rleb_true _ _) C1), (proj2 (Rleb_true _ _) C2). }
    cbn [mapM]. rewrite (locations_at_R b [0] (Some 7%Z) 0 0 _ H C eq_refl). unfold locals_at. cbn [nth].
    rewrite Reqb_refl, stack_locals. cbn [rmap bind List.concat]. now rewrite !app_nil_r. }
  destruct (C21_total qs b [0] 7 (PosNum 0) None CNone _ _ Hq H (stack_loaded (S k)) d_all ltac:(discriminate) El)
    as (blocks & F & ->).
  eexists. split; [reflexivity|].
  rewrite (rows_sum qs b 7 [stack (S k)] CNone _ _ blocks Hq (stack_tables (S k)) d_all ltac:(discriminate) F).
  cbn [map]. rewrite map_repeat, sumf_cons. unfold rows_at at 1. cbn [fst snd Z.to_nat nth].
  assert (B0 : forall x, List.length (block (stack (S k)) [VX; VY; N; MX; MY; T_] x) =
    if py_in x (map lpos (stack (S k))) then cnt x (map lpos (stack (S k))) else 1%nat).
  { intros x. unfold block. destruct (py_in x (map lpos (stack (S k)))); [|reflexivity]. rewrite map_length.
    rewrite <- sumf_length, sumf_filter. unfold cnt, sumf. rewrite map_map. reflexivity. }
  assert (Ct : forall x, cnt x (map lpos (stack (S k))) =
    ((if Reqb 0 x then 1 else 0) + S k * (if Reqb 1 x then 1 else 0))%nat).
  { intros x. unfold stack. cbn [map]. rewrite map_repeat. cbn [stack_row lpos]. unfold cnt. rewrite sumf_cons. f_equal.
    unfold sumf. rewrite map_repeat. generalize (S k). clear. intros n. induction n as [|n IH]; [reflexivity|].
    cbn [repeat list_sum fold_right]. unfold list_sum in IH. rewrite IH. lia. }
  assert (E01 : Reqb 0 1 = false) by (apply Reqb_false; lra). assert (E10 : Reqb 1 0 = false) by (apply Reqb_false; lra).
  assert (R0 : List.length (block (stack (S k)) [VX; VY; N; MX; MY; T_] 0) = 1%nat).
  { rewrite B0, Ct, Reqb_refl, E10. destruct (py_in _ _); lia. }
  assert (R1 : List.length (block (stack (S k)) [VX; VY; N; MX; MY; T_] 1) = S k).
  { rewrite B0, Ct, Reqb_refl, E01. destruct (py_in _ _) eqn:E; [lia|]. exfalso.
    assert (py_in 1 (map lpos (stack (S k))) = true); [|congruence]. unfold py_in. apply existsb_exists. exists 1.
    split; [right; now left|apply Reqb_refl]. }
  rewrite R0. f_equal. rewrite (sumf_ext _ (fun _ => S k)).
  - rewrite sumf_const, repeat_length. lia.
  - intros t Ht. apply repeat_spec in Ht. subst t. unfold rows_at. cbn [fst snd Z.to_nat nth]. exact R1.
Qed.
