(** C22: replacing an element by its two halves. *)

From Coq Require Import ZArith Reals List Bool Sorted Lra Lia.
From Verif Require Import Base Num RNum Numpy LoadCase OrdFacts LoadFacts LoadSpec LoadProofs
  Beam BeamSpec BeamFacts BeamPositions BeamProofs BeamLoads TableCut.
Import ListNotations.
Open Scope R_scope.

(** Results that agree: same error, or related values. *)
Inductive rres {A B} (P : A -> B -> Prop) : res A -> res B -> Prop :=
| rr_err e : rres P (Err e) (Err e)
| rr_ok a b : P a b -> rres P (Ok a) (Ok b).

Lemma rres_bind {A B C D} (P : A -> B -> Prop) (Q : C -> D -> Prop) x y f g :
  rres P x y -> (forall a b, P a b -> rres Q (f a) (g b)) -> rres Q (bind x f) (bind y g).
Proof. intros [e|a b H] F; cbn; [constructor|auto]. Qed.

Lemma rres_mapM {A B C D} (P : C -> D -> Prop) (f : A -> res C) (g : B -> res D) l l' :
  Forall2 (fun a b => rres P (f a) (g b)) l l' -> rres (Forall2 P) (mapM f l) (mapM g l').
Proof.
  induction 1 as [|a b l l' H F IH]; cbn; [constructor; constructor|].
  eapply rres_bind; [exact H|]. intros c d Hcd. eapply rres_bind; [exact IH|].
  intros cs ds Hcs. constructor. constructor; auto.
Qed.

Lemma Forall2_concat {A B} (P : A -> B -> Prop) l l' : Forall2 (Forall2 P) l l' ->
  Forall2 P (List.concat l) (List.concat l').
Proof. induction 1; cbn; auto. now apply Forall2_app. Qed.

Section B.
Context {Sec : Type}.
Implicit Types b : beam_t R Sec.

(** Two load results that look the same once the position column is replaced. *)
Definition alike (x y : res (option (list (orow R)))) : Prop :=
  x = y \/ exists rows rows', x = Ok (Some rows) /\ y = Ok (Some rows') /\ map snd rows = map snd rows'.

Definition same_loads qs c a b b' (t t' : location R) : Prop :=
  fst (fst t) = fst (fst t') /\
  exists el el', py_index b (snd (fst t)) = Ok el /\ py_index b' (snd (fst t')) = Ok el' /\
    alike (el_get_loads qs el c (PosNum (snd t)) None a) (el_get_loads qs el' c (PosNum (snd t')) None a).

Lemma at_position_alike p (rows rows' : list (orow R)) : map snd rows = map snd rows' ->
  at_position p rows = at_position p rows'.
Proof.
  intros H. unfold at_position.
  assert (G : forall l : list (orow R), map (fun r => (p, snd r)) l = map (pair p) (map snd l))
    by (intros; now rewrite map_map).
  rewrite !G. now rewrite H.
Qed.

Lemma accumulate_alike qs c a b b' locs locs' : Forall2 (same_loads qs c a b b') locs locs' ->
  forall acc, accumulate qs b c a acc locs = accumulate qs b' c a acc locs'.
Proof.
  induction 1 as [|[[p e] l] [[p' e'] l'] locs locs' (E & el & el' & E1 & E2 & A) F IH]; intros acc; auto.
  cbn in E, E1, E2, A. subst p'. cbn [accumulate]. rewrite E1, E2. cbn [bind].
  destruct A as [->|(rows & rows' & -> & -> & M)].
  - destruct (el_get_loads qs el' c (PosNum l') None a) as [[rows|]|]; cbn [bind]; auto.
    destruct acc as [x|]; cbn [bind]; [|apply IH]. destruct (vstack x _); cbn [bind]; auto.
  - cbn [bind]. rewrite !set_position_R, (at_position_alike p rows rows' M).
    destruct acc as [x|]; cbn [bind]; [|apply IH]. destruct (vstack x _); cbn [bind]; auto.
Qed.

Lemma check_same b b' ps : beam_length b = beam_length b' -> check_on_beam b ps = check_on_beam b' ps.
Proof.
  intros H. induction ps as [|p ps IH]; auto. cbn [check_on_beam]. rewrite H, IH. reflexivity.
Qed.

Lemma locations_alike qs c a b b' ls ls' lc ps : has_lengths b ls -> has_lengths b' ls' ->
  (forall p, In p ps -> Forall2 (fun i i' => rres (Forall2 (same_loads qs c a b b'))
      (locations_at b lc p (Z.of_nat i)) (locations_at b' lc p (Z.of_nat i'))) (ids ls p) (ids ls' p)) ->
  rres (Forall2 (same_loads qs c a b b')) (locations b lc ps) (locations b' lc ps).
Proof.
  intros H H' K. rewrite (locations_R b ls lc ps H), (locations_R b' ls' lc ps H').
  eapply rres_bind with (P := Forall2 (Forall2 (same_loads qs c a b b'))).
  - apply rres_mapM. induction ps as [|p ps IH]; constructor.
    + unfold locs_at. eapply rres_bind; [apply rres_mapM, K; now left|].
      intros x y Hxy. constructor. now apply Forall2_concat.
    + apply IH. intros q Hq. apply K. now right.
  - intros x y Hxy. constructor. now apply Forall2_concat.
Qed.

(** An unchanged element. *)
Lemma unchanged qs c a b b' ls ls' lc p i i' e : has_lengths b ls -> has_lengths b' ls' ->
  nth_error b i = Some e -> nth_error b' i' = Some e -> start_of ls i = start_of ls' i' ->
  covers ls i p -> covers ls' i' p ->
  rres (Forall2 (same_loads qs c a b b'))
      (locations_at b lc p (Z.of_nat i)) (locations_at b' lc p (Z.of_nat i')).
Proof.
  intros H H' E E' S C C'.
  rewrite (locations_at_R b ls lc p i e H C E), (locations_at_R b' ls' lc p i' e H' C' E').
  assert (L : nth i ls 0 = nth i' ls' 0).
  { destruct (lengths_nth b ls i e H E) as (L1 & _). destruct (lengths_nth b' ls' i' e H' E') as (L2 & _). congruence. }
  unfold locals_at. rewrite L, S.
  destruct (if Reqb (nth i' ls' 0) 0 then _ else _) as [xs|]; cbn; [|constructor]. constructor.
  induction xs as [|x xs IH]; cbn; constructor; auto. split; auto. exists e, e. cbn.
  rewrite (py_index_nat b i e E), (py_index_nat b' i' e E'). repeat split. now left.
Qed.

Lemma nth_mid {A} (l r : list A) x : nth_error (l ++ x :: r) (List.length l) = Some x.
Proof. rewrite nth_error_app2, Nat.sub_diag; auto. Qed.

Lemma nth_after {A} (l r : list A) x j : nth_error (l ++ x :: r) (List.length l + S j) = nth_error r j.
Proof. rewrite nth_error_app2 by lia. now replace (List.length l + S j - List.length l)%nat with (S j) by lia. Qed.

Lemma span_firstn_mid a x r j : span (firstn (List.length a + S j) (a ++ x :: r)) = span a + x + span (firstn j r).
Proof.
  rewrite firstn_app_2. cbn [firstn]. rewrite span_app. unfold span. cbn. lra.
Qed.

Section Cut.
Variables (qs : argsort_oracle R) (c : Z) (a : comp_arg) (cs : list comp).
Variables (pre post : beam_t R Sec) (e e1 e2 : elem R Sec) (t l : R).
Variables (lpre lpost : list R).
Hypothesis Hq : any_argsort qs.
Hypothesis Hc : designates a cs.
Hypothesis C0 : cs <> [].
Hypothesis Ht : 0 < t < 1.
Hypothesis Hl : elength e = Some l.
Hypothesis Pl : 0 < l.
Hypothesis Hcut : element_cut c t e e1 e2.
Hypothesis H1 : has_lengths pre lpre.
Hypothesis H2 : has_lengths post lpost.

Let b := pre ++ e :: post.
Let b' := pre ++ e1 :: e2 :: post.
Let ls := lpre ++ l :: lpost.
Let ls' := lpre ++ t * l :: (1 - t) * l :: lpost.
Let k := List.length lpre.

Lemma half_lengths : elength e1 = Some (t * l) /\ elength e2 = Some ((1 - t) * l).
Proof. destruct Hcut as (l0 & rows & left & right & E & A & B & _). assert (l0 = l) by congruence. now subst. Qed.

Lemma cut_lengths : has_lengths b ls /\ has_lengths b' ls'.
Proof.
  destruct half_lengths as [E1 E2]. split; apply Forall2_app; auto; repeat constructor; auto; nra.
Qed.

Lemma len_pre : List.length pre = k.
Proof. apply (lengths_len pre lpre H1). Qed.

Lemma start_pre i : (i <= k)%nat -> start_of ls i = start_of lpre i /\ start_of ls' i = start_of lpre i.
Proof.
  intros Hi. unfold start_of, ls, ls'. rewrite !firstn_app. fold k.
  replace (i - k)%nat with 0%nat by lia. cbn [firstn]. now rewrite !app_nil_r.
Qed.

Lemma start_post j : start_of ls (k + S j) = span lpre + l + span (firstn j lpost) /\
  start_of ls' (k + S (S j)) = span lpre + l + span (firstn j lpost).
Proof.
  unfold start_of, ls, ls', k. rewrite !span_firstn_mid. cbn [firstn].
  change (span ((1 - t) * l :: firstn j lpost)) with ((1 - t) * l + span (firstn j lpost)). split; ring.
Qed.

Lemma start_k : start_of ls k = span lpre /\ end_of ls k = span lpre + l /\
  start_of ls' k = span lpre /\ end_of ls' k = span lpre + t * l /\
  start_of ls' (S k) = span lpre + t * l /\ end_of ls' (S k) = span lpre + l.
Proof.
  destruct (start_pre k) as [-> ->]; auto. rewrite (start_full lpre k) by (unfold k; lia).
  rewrite !end_start. replace (S k) with (k + 1)%nat by lia. replace (S (k + 1)) with (k + 2)%nat by lia.
  unfold start_of, ls, ls', k. rewrite !span_firstn_mid. unfold span. cbn. repeat split; lra.
Qed.

Lemma nth_k : nth k ls 0 = l /\ nth k ls' 0 = t * l /\ nth (S k) ls' 0 = (1 - t) * l.
Proof.
  unfold ls, ls', k. rewrite !nth_middle. repeat split.
  replace (S (List.length lpre)) with (List.length (lpre ++ [t * l])) by (rewrite app_length; cbn; lia).
  replace (lpre ++ t * l :: (1 - t) * l :: lpost) with ((lpre ++ [t * l]) ++ (1 - t) * l :: lpost)
    by now rewrite <- app_assoc.
  apply nth_middle.
Qed.

Definition F1 p := filter (in_ext ls p) (seq 0 k).
Definition F3 p := filter (in_ext ls p) (seq (S k) (List.length lpost)).

Lemma ids_whole p : ids ls p = F1 p ++ (if in_ext ls p k then [k] else []) ++ F3 p.
Proof.
  unfold ids, F1, F3. replace (List.length ls) with (k + S (List.length lpost))%nat
    by (unfold ls, k; rewrite app_length; reflexivity).
  rewrite seq_app, filter_app. f_equal. cbn [seq filter Nat.add]. destruct (in_ext ls p k); reflexivity.
Qed.

Lemma ids_halves p : ids ls' p = F1 p ++
  ((if in_ext ls' p k then [k] else []) ++ (if in_ext ls' p (S k) then [S k] else [])) ++ map S (F3 p).
Proof.
  unfold ids, F1, F3. replace (List.length ls') with (k + S (S (List.length lpost)))%nat
    by (unfold ls', k; rewrite app_length; reflexivity).
  rewrite seq_app, filter_app. f_equal.
  - apply filter_ext_in. intros i Hi. apply in_seq in Hi. unfold in_ext. rewrite !end_start.
    destruct (start_pre i) as [-> ->]; [lia|]. destruct (start_pre (S i)) as [-> ->]; [lia|]. auto.
  - cbn [seq filter Nat.add].
    assert (G : filter (in_ext ls' p) (seq (S (S k)) (List.length lpost)) =
                map S (filter (in_ext ls p) (seq (S k) (List.length lpost)))).
    { rewrite <- (seq_shift (List.length lpost) (S k)).
      assert (X : forall i, In i (seq (S k) (List.length lpost)) -> in_ext ls' p (S i) = in_ext ls p i).
      { intros i Hi. apply in_seq in Hi. unfold in_ext. rewrite !end_start.
        set (j := (i - S k)%nat). replace i with (k + S j)%nat by (unfold j; lia).
        replace (S (k + S j)) with (k + S (S j))%nat by lia.
        replace (S (k + S (S j))) with (k + S (S (S j)))%nat by lia.
        destruct (start_post j) as [-> ->]. destruct (start_post (S j)) as [-> ->]. auto. }
      induction (seq (S k) (List.length lpost)) as [|i r IH]; auto. cbn [map filter].
      rewrite X by now left. rewrite IH by (intros; apply X; now right). now destruct (in_ext ls p i). }
    rewrite G. destruct (in_ext ls' p k), (in_ext ls' p (S k)); reflexivity.
Qed.

Lemma same_ids p : p <> span lpre + t * l ->
  Forall2 (fun i i' => rres (Forall2 (same_loads qs c a b b'))
      (locations_at b (Some c) p (Z.of_nat i)) (locations_at b' (Some c) p (Z.of_nat i'))) (ids ls p) (ids ls' p).
Proof.
  intros Hp. destruct cut_lengths as [Hb Hb'].
  destruct start_k as (S1 & S2 & S3 & S4 & S5 & S6). destruct nth_k as (N1 & N2 & N3).
  rewrite ids_whole, ids_halves. apply Forall2_app; [|apply Forall2_app].
  - assert (G : forall i, In i (F1 p) -> (i < k)%nat /\ in_ext ls p i = true).
    { intros i Hi. apply filter_In in Hi. rewrite in_seq in Hi. split; [lia|tauto]. }
    induction (F1 p) as [|i r IH]; constructor.
    2:{ apply IH. intros; apply G; now right. }
    destruct (G i) as [Hi Ex]; [now left|]. unfold in_ext in Ex. apply andb_true_iff in Ex. rewrite !Rleb_true in Ex.
    destruct (nth_error pre i) as [x|] eqn:Ei; [|apply nth_error_None in Ei; rewrite len_pre in Ei; lia].
    destruct (start_pre i) as [T1 T2]; [lia|]. destruct (start_pre (S i)) as [T3 T4]; [lia|].
    rewrite end_start in Ex.
    apply unchanged with ls ls' x; auto.
    + unfold b. now rewrite nth_error_app1 by (rewrite len_pre; lia).
    + unfold b'. now rewrite nth_error_app1 by (rewrite len_pre; lia).
    + now rewrite T1, T2.
    + split; [unfold ls; rewrite app_length; fold k; lia|]. rewrite end_start. tauto.
    + split; [unfold ls'; rewrite app_length; fold k; lia|]. rewrite end_start, T2, T4, <- T1, <- T3. tauto.
  - destruct Hcut as (l0 & rows & left & right & El & El1 & El2 & D & D1 & D2 & A & N & TC).
    assert (l0 = l) by congruence. subst l0.
    destruct (cut_accepted rows t left right A Ht TC) as [[A1 Nl] [A2 Nr]].
    assert (Kb : nth_error b k = Some e) by (unfold b; rewrite <- len_pre; apply nth_mid).
    assert (Kb1 : nth_error b' k = Some e1) by (unfold b'; rewrite <- len_pre; apply nth_mid).
    assert (Kb2 : nth_error b' (S k) = Some e2).
    { unfold b'. rewrite <- len_pre. replace (S (List.length pre)) with (List.length pre + 1)%nat by lia.
      rewrite nth_after. reflexivity. }
    assert (Lk : (k < List.length ls)%nat) by (unfold ls; rewrite app_length; cbn; unfold k; lia).
    assert (Lk1 : (k < List.length ls')%nat) by (unfold ls'; rewrite app_length; cbn; unfold k; lia).
    assert (Lk2 : (S k < List.length ls')%nat) by (unfold ls'; rewrite app_length; cbn; unfold k; lia).
    unfold in_ext. rewrite S1, S2, S3, S4, S5, S6.
    set (s := span lpre) in *. clearbody s.
    assert (0 < t * l < l) by nra.
    set (x := (p - s) / l).
    assert (Ex : p = s + x * l) by (unfold x; field; lra).
    destruct (Rlt_dec p s) as [L|L].
    { assert (Rleb s p = false) as -> by (apply Rleb_false; lra).
      assert (Rleb (s + t * l) p = false) as -> by (apply Rleb_false; lra). constructor. }
    destruct (Rlt_dec (s + l) p) as [G|G].
    { assert (Rleb s p = true) as -> by (apply Rleb_true; lra).
      assert (Rleb p (s + l) = false) as -> by (apply Rleb_false; lra).
      assert (Rleb p (s + t * l) = false) as -> by (apply Rleb_false; lra).
      assert (Rleb (s + t * l) p = true) as -> by (apply Rleb_true; lra). constructor. }
    assert (Rleb s p = true) as -> by (apply Rleb_true; lra).
    assert (Rleb p (s + l) = true) as -> by (apply Rleb_true; lra).
    assert (Cb : covers ls k p) by (split; auto; rewrite S1, S2; lra).
    destruct (Rlt_dec p (s + t * l)) as [M|M].
    + assert (Rleb p (s + t * l) = true) as -> by (apply Rleb_true; lra).
      assert (Rleb (s + t * l) p = false) as -> by (apply Rleb_false; lra).
      cbn [andb app]. constructor; [|constructor].
      assert (Cb1 : covers ls' k p) by (split; auto; rewrite S3, S4; lra).
      rewrite (locations_at_R b ls (Some c) p k e Hb Cb Kb), (locations_at_R b' ls' (Some c) p k e1 Hb' Cb1 Kb1).
      unfold locals_at. rewrite N1, N2, S1, S3.
      assert (Reqb l 0 = false) as -> by (apply Reqb_false; lra).
      assert (Reqb (t * l) 0 = false) as -> by (apply Reqb_false; lra).
      cbn. constructor. constructor; [|constructor]. split; auto. exists e, e1. cbn.
      rewrite (py_index_nat b k e Kb), (py_index_nat b' k e1 Kb1). repeat split. right.
      rewrite (el_get_loads_block qs e c _ a cs rows) by auto.
      rewrite (el_get_loads_block qs e1 c _ a cs left) by auto.
      do 2 eexists. repeat split. fold x.
      replace ((p - s) / (t * l)) with (x / t) by (unfold x; field; lra).
      symmetry. apply left_block with right; auto; try lra.
      apply Rmult_lt_reg_r with l; lra.
    + assert (Rleb p (s + t * l) = false) as -> by (apply Rleb_false; lra).
      assert (Rleb (s + t * l) p = true) as -> by (apply Rleb_true; lra).
      cbn [andb app]. constructor; [|constructor].
      assert (Cb1 : covers ls' (S k) p) by (split; auto; rewrite S5, S6; lra).
      rewrite (locations_at_R b ls (Some c) p k e Hb Cb Kb), (locations_at_R b' ls' (Some c) p (S k) e2 Hb' Cb1 Kb2).
      unfold locals_at. rewrite N1, N3, S1, S5.
      assert (Reqb l 0 = false) as -> by (apply Reqb_false; lra).
      assert (Reqb ((1 - t) * l) 0 = false) as -> by (apply Reqb_false; nra).
      cbn [rmap map]. constructor. constructor; [|constructor]. split; auto. exists e, e2. cbn [fst snd].
      rewrite (py_index_nat b k e Kb), (py_index_nat b' (S k) e2 Kb2). repeat split. right.
      rewrite (el_get_loads_block qs e c _ a cs rows) by auto.
      rewrite (el_get_loads_block qs e2 c _ a cs right) by auto.
      do 2 eexists. repeat split. fold x.
      replace ((p - (s + t * l)) / ((1 - t) * l)) with ((x - t) / (1 - t)) by (unfold x; field; lra).
      symmetry. apply right_block with left; auto; try lra.
      apply Rmult_lt_reg_r with l; lra.
  - assert (G : forall i, In i (F3 p) -> (S k <= i < S k + List.length lpost)%nat /\ in_ext ls p i = true).
    { intros i Hi. apply filter_In in Hi. rewrite in_seq in Hi. split; [lia|tauto]. }
    induction (F3 p) as [|i r IH]; cbn [map]; constructor.
    2:{ apply IH. intros; apply G; now right. }
    destruct (G i) as [Hi Ex]; [now left|]. unfold in_ext in Ex. apply andb_true_iff in Ex. rewrite !Rleb_true in Ex.
    set (j := (i - S k)%nat) in *. assert (Ei : i = (k + S j)%nat) by (unfold j; lia). clearbody j. subst i.
    rewrite end_start in Ex. 
    replace (S (k + S j)) with (k + S (S j))%nat in * by lia.
    destruct (start_post j) as [T1 T2]. destruct (start_post (S j)) as [T3 T4].
    destruct (lengths_has post lpost j H2) as (x & Ej); [lia|].
    apply unchanged with ls ls' x; auto.
    + unfold b. rewrite <- len_pre, nth_after. auto.
    + unfold b'. rewrite <- len_pre, nth_after. auto.
    + congruence.
    + split; [unfold ls; rewrite app_length; fold k; cbn; lia|]. rewrite end_start.
      replace (S (k + S j)) with (k + S (S j))%nat by lia. tauto.
    + split; [unfold ls'; rewrite app_length; fold k; cbn; lia|]. rewrite end_start.
      replace (S (k + S (S j))) with (k + S (S (S j)))%nat by lia. rewrite T2, T4, <- T1, <- T3. tauto.
Qed.

Lemma cut_loads position ps : requested position ps -> ~ In (span lpre + t * l) ps ->
  beam_get_loads qs b c position None a = beam_get_loads qs b' c position None a.
Proof.
  intros Rq Hn. destruct cut_lengths as [Hb Hb']. unfold beam_get_loads.
  rewrite (explicit_R b position ps (Some c) Rq), (explicit_R b' position ps (Some c) Rq).
  rewrite (check_same b b').
  2:{ rewrite (beam_length_R b ls Hb), (beam_length_R b' ls' Hb'). f_equal. unfold ls, ls'.
      rewrite !span_app. unfold span. cbn. lra. }
  destruct (check_on_beam b' ps); cbn [bind]; auto.
  assert (G : rres (Forall2 (same_loads qs c a b b')) (locations b (Some c) (py_sorted (py_set ps)))
                   (locations b' (Some c) (py_sorted (py_set ps)))).
  { apply (locations_alike qs c a b b' ls ls'); auto. intros p Hp. apply same_ids.
    intros ->. apply Hn. exact (proj1 (Rin_sorted_set ps _) Hp). }
  destruct G as [x|x y G]; cbn [bind]; auto. now apply accumulate_alike.
Qed.
End Cut.

Lemma C22_real qs c a cs (pre post : beam_t R Sec) e e1 e2 t l ls position ps :
  any_argsort qs -> designates a cs -> cs <> [] -> 0 < t < 1 -> elength e = Some l -> 0 < l ->
  element_cut c t e e1 e2 -> has_lengths (pre ++ e :: post) ls -> requested position ps ->
  ~ In (start_of ls (List.length pre) + t * l) ps ->
  beam_get_loads qs (pre ++ e1 :: e2 :: post) c position None a =
  beam_get_loads qs (pre ++ e :: post) c position None a.
Proof.
  intros Hq Hc C0 Ht Hl Pl Hcut Hb Rq Hn.
  apply Forall2_app_inv_l in Hb. destruct Hb as (lpre & rest & H1 & Hr & ->).
  inversion Hr as [|e' l' post' lpost [E L] H2 E1 E2]; subst.
  assert (l' = l) by congruence. subst l'. symmetry.
  apply (cut_loads qs c a cs pre post e e1 e2 t l lpre lpost) with (ps := ps); auto.
  replace (span lpre) with (start_of (lpre ++ l :: lpost) (List.length pre)); auto.
  unfold start_of. rewrite (lengths_len pre lpre H1), firstn_app, Nat.sub_diag, firstn_all. cbn. now rewrite app_nil_r.
Qed.
End B.
