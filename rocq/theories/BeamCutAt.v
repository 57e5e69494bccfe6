(** Proofs: at the cut itself a cut element reports its loads once per piece (the missing
    position of C22), so cutting changes neither the loads shown anywhere nor the
    utilisation. *)

From Coq Require Import ZArith Reals List Bool String Lra Lia Sorted.
From Verif Require Import Base Num RNum OrdFacts Numpy LoadCase LoadSpec LoadFacts LoadProofs Beam BeamSpec BeamFacts
  BeamPositions BeamLoads BeamProofs BeamMisc BeamFloat TableCut BeamCut BeamMirror.
Import ListNotations.
Open Scope R_scope.

(** ** The blocks of rows at the cut *)
Lemma stored_block (rows mid : list (lrow R)) cs t : filter (fun r => neqb (lpos r) t) rows = mid -> mid <> [] ->
  map snd (block rows cs t) = map (fun r => map (fun c => Some (load_of c r)) cs) mid.
Proof.
  intros F N. unfold block.
  assert (P : py_in t (map lpos rows) = true).
  { destruct mid as [|m mid]; [congruence|]. assert (I : In m (filter (fun r => neqb (lpos r) t) rows)) by (rewrite F; now left).
    apply filter_In in I. destruct I as [I E]. cbn in E. apply Reqb_true in E. apply py_in_R. rewrite <- E. now apply in_map. }
  rewrite P, F, map_map. reflexivity.
Qed.

Lemma filter_lower t (rows mid : list (lrow R)) : (forall r, In r mid -> lpos r = t) ->
  filter (fun r => neqb (lpos r) t) (filter (fun r => Rltb (lpos r) t) rows ++ mid) = mid.
Proof.
  intros H. rewrite filter_app.
  assert (E1 : filter (fun r => neqb (lpos r) t) (filter (fun r => Rltb (lpos r) t) rows) = []).
  { apply filter_nil_all. intros r Hr. apply filter_In in Hr. destruct Hr as [_ L]. apply Rltb_true in L.
    cbn. apply Reqb_false. lra. }
  rewrite E1. cbn [app]. apply filter_all. intros r Hr. cbn. apply Reqb_true. now apply H.
Qed.

Lemma filter_upper t (rows mid : list (lrow R)) : (forall r, In r mid -> lpos r = t) ->
  filter (fun r => neqb (lpos r) t) (mid ++ filter (fun r => Rltb t (lpos r)) rows) = mid.
Proof.
  intros H. rewrite filter_app.
  assert (E1 : filter (fun r => neqb (lpos r) t) (filter (fun r => Rltb t (lpos r)) rows) = []).
  { apply filter_nil_all. intros r Hr. apply filter_In in Hr. destruct Hr as [_ L]. apply Rltb_true in L.
    cbn. apply Reqb_false. lra. }
  rewrite E1, app_nil_r. apply filter_all. intros r Hr. cbn. apply Reqb_true. now apply H.
Qed.

Lemma cut_block rows t mid cs : well_formed rows -> rows_at_cut rows t mid -> rows <> [] ->
  map snd (block rows cs t) = map (fun r => map (fun c => Some (load_of c r)) cs) mid.
Proof.
  intros W Hm N. destruct (mid_positions rows t mid Hm) as [Nm Pm]. destruct Hm as [X|m Hne Em Hi].
  - now apply stored_block.
  - unfold block. assert (P : py_in t (map lpos rows) = false).
    { apply not_true_iff_false. rewrite py_in_R. intros I. apply in_map_iff in I. destruct I as (r & E & I). exact (Hne r I E). }
    rewrite P. cbn [map snd]. f_equal. apply map_ext. intros c. f_equal. symmetry. apply interpolates_val; auto. apply W.
Qed.

Lemma left_at rows t left right cs : well_formed rows -> table_cut rows t left right -> 0 < t < 1 -> rows <> [] ->
  map snd (block left cs 1) = map snd (block rows cs t).
Proof.
  intros W (mid & Hm & -> & _) Ht N. destruct (mid_positions rows t mid Hm) as [Nm Pm].
  rewrite (cut_block rows t mid cs W Hm N).
  replace 1 with (t / t) by (field; lra).
  rewrite (move_block (fun x => x / t) (/ t) 0).
  - apply stored_block; auto. now apply filter_lower.
  - apply Rinv_0_lt_compat. lra.
  - intros y. unfold Rdiv. ring.
  - intros E. apply app_eq_nil in E. tauto.
Qed.

Lemma right_at rows t left right cs : well_formed rows -> table_cut rows t left right -> 0 < t < 1 -> rows <> [] ->
  map snd (block right cs 0) = map snd (block rows cs t).
Proof.
  intros W (mid & Hm & _ & ->) Ht N. destruct (mid_positions rows t mid Hm) as [Nm Pm].
  rewrite (cut_block rows t mid cs W Hm N).
  replace 0 with ((t - t) / (1 - t)) by (field; lra).
  rewrite (move_block (fun x => (x - t) / (1 - t)) (/ (1 - t)) (- t * / (1 - t))).
  - apply stored_block; auto. now apply filter_upper.
  - apply Rinv_0_lt_compat. lra.
  - intros y. field. lra.
  - intros E. apply app_eq_nil in E. tauto.
Qed.

(** ** The locations of a single position *)
Section Single.
Context {Sec : Type}.
Implicit Types b : beam_t R Sec.

Lemma single_locs b ls c p : has_lengths b ls -> 0 <= p <= span ls ->
  beam_list_positions b (PosNum p) None c = locs_at b ls c p.
Proof.
  intros H P. rewrite (explicit_R b (PosNum p) [p] c (r_num p)).
  destruct (check_on_beam_R b ls [p] H) as [[E _]|[_ (q & [<-|[]] & N)]]; [|lra].
  rewrite E. cbn [bind]. change (py_sorted (py_set [p])) with [p]. rewrite (locations_R b ls c [p] H).
  cbn [mapM]. destruct (locs_at b ls c p); cbn [bind List.concat]; auto. now rewrite app_nil_r.
Qed.

Lemma ids_are ls p l : StronglySorted Peano.lt l -> (forall i, In i l <-> covers ls i p) -> ids ls p = l.
Proof.
  intros S I. destruct (ids_spec ls p) as [S' I']. apply lt_sorted_unique; auto. intros i. now rewrite I', I.
Qed.

(** Strictly inside an element there is only that element. *)
Lemma ids_inside b ls k p : has_lengths b ls -> (k < List.length ls)%nat -> start_of ls k < p < end_of ls k ->
  ids ls p = [k].
Proof.
  intros H Hk Hp. pose proof (lengths_nonneg b ls H) as Nn. apply ids_are; [repeat constructor|].
  intros i. split.
  - intros [<-|[]]. split; auto. lra.
  - intros [Hi Cp]. destruct (lt_eq_lt_dec i k) as [[L|E]|L]; [exfalso|now left|exfalso].
    + rewrite (end_start ls i) in Cp. pose proof (start_mono ls (S i) k Nn L). lra.
    + rewrite (end_start ls k) in Hp. pose proof (start_mono ls (S k) i Nn L). lra.
Qed.

(** Where two elements with lengths meet there are only those two. *)
Lemma ids_between b ls k p : has_lengths b ls -> (S k < List.length ls)%nat -> 0 < nth k ls 0 -> 0 < nth (S k) ls 0 ->
  p = end_of ls k -> ids ls p = [k; S k].
Proof.
  intros H Hk P1 P2 ->. pose proof (lengths_nonneg b ls H) as Nn. apply ids_are; [repeat constructor|].
  pose proof (end_length ls k ltac:(lia)) as E1. pose proof (end_length ls (S k) Hk) as E2.
  rewrite (end_start ls k) in *. rewrite (end_start ls (S k)) in E2.
  intros i. split.
  - intros [<-|[<-|[]]]; (split; [lia|]); rewrite end_start; lra.
  - intros [Hi Cp]. rewrite end_start in Cp.
    destruct (lt_dec i k) as [L|L]; [exfalso; pose proof (start_mono ls (S i) k Nn L); lra|].
    destruct (lt_dec (S k) i) as [L'|L']; [exfalso; pose proof (start_mono ls (S (S k)) i Nn L'); lra|].
    cbn. lia.
Qed.

Lemma at_position_snd p (x y : list (orow R)) : map snd x = map snd y -> at_position p x = at_position p y.
Proof.
  unfold at_position. revert y. induction x as [|a x IH]; intros [|b y] E; cbn in *; try discriminate; auto.
  injection E as E1 E2. rewrite E1. f_equal. now apply IH.
Qed.

Lemma at_cut qs c a cs (pre post : beam_t R Sec) e e1 e2 t l ls :
  any_argsort qs -> designates a cs -> cs <> [] -> 0 < t < 1 -> elength e = Some l -> 0 < l ->
  element_cut c t e e1 e2 -> has_lengths (pre ++ e :: post) ls -> loaded (pre ++ e :: post) c ->
  let q := start_of ls (List.length pre) + t * l in
  exists rows, beam_get_loads qs (pre ++ e :: post) c (PosNum q) None a = Ok (Some rows) /\
    beam_get_loads qs (pre ++ e1 :: e2 :: post) c (PosNum q) None a = Ok (Some (rows ++ rows)).
Proof.
  intros Hq Hc C0 Ht Hl Pl Hcut Hb Ld q.
  pose proof Hb as Hb0. apply Forall2_app_inv_l in Hb0. destruct Hb0 as (lpre & rest & H1 & Hr & E).
  inversion Hr as [|x l' y lpost [El L] H2 E1 E2]. subst x y rest. assert (l' = l) by congruence. subst l'. clear Hr.
  subst ls. rename H1 into Hpre, H2 into Hpost.
  destruct (cut_lengths c pre post e e1 e2 t l lpre lpost Ht Hl Pl Hcut Hpre Hpost) as [_ Hb'].
  destruct (start_k t l lpre lpost Ht) as (S1 & S2 & S3 & S4 & S5 & S6).
  destruct (nth_k t l lpre lpost) as (N1 & N2 & N3).
  pose proof (lengths_len pre lpre Hpre) as Lp. unfold q. clear q. rewrite Lp.
  rewrite S1. set (k := List.length lpre) in *. set (q := span lpre + t * l).
  set (ls := lpre ++ l :: lpost) in *. set (ls' := lpre ++ t * l :: (1 - t) * l :: lpost) in *.
  set (b := pre ++ e :: post) in *. set (b' := pre ++ e1 :: e2 :: post) in *.
  assert (Pt : 0 < t * l < l) by nra.
  assert (Kb : nth_error b k = Some e) by (unfold b; rewrite <- Lp; apply nth_mid).
  assert (Kb1 : nth_error b' k = Some e1) by (unfold b'; rewrite <- Lp; apply nth_mid).
  assert (Kb2 : nth_error b' (S k) = Some e2).
  { unfold b'. rewrite <- Lp. replace (S (List.length pre)) with (List.length pre + 1)%nat by lia.
    rewrite nth_after. reflexivity. }
  assert (Lk : (k < List.length ls)%nat) by (unfold ls, k; rewrite app_length; cbn; lia).
  assert (Lk1 : (k < List.length ls')%nat) by (unfold ls', k; rewrite app_length; cbn; lia).
  assert (Lk2 : (S k < List.length ls')%nat) by (unfold ls', k; rewrite app_length; cbn; lia).
  assert (I1 : ids ls q = [k]) by (apply (ids_inside b); auto; rewrite S1, S2; unfold q; lra).
  assert (I2 : ids ls' q = [k; S k]).
  { apply (ids_between b' ls' k q); [exact Hb'|exact Lk2| | |].
    - rewrite N2. lra.
    - rewrite N3. nra.
    - rewrite S4. reflexivity. }
  assert (C1 : covers ls k q) by (apply in_ids; rewrite I1; now left).
  assert (C2 : covers ls' k q) by (apply in_ids; rewrite I2; now left).
  assert (C3 : covers ls' (S k) q) by (apply in_ids; rewrite I2; right; now left).
  destruct Hcut as (l0 & rows & left & right & _ & El1 & El2 & D & D1 & D2 & A & N & TC). 
  destruct (cut_accepted rows t left right A Ht TC) as [[A1 Nl] [A2 Nr]].
  assert (L1 : beam_list_positions b (PosNum q) None (Some c) = Ok [(q, Z.of_nat k, t)]).
  { rewrite (single_locs b ls (Some c) q Hb) by (apply (covers_on_beam ls k); [exact (lengths_nonneg b ls Hb)|exact C1]).
    unfold locs_at. rewrite I1. cbn [mapM].
    rewrite (locations_at_R b ls (Some c) q k e Hb C1 Kb). unfold locals_at. rewrite N1.
    assert (Reqb l 0 = false) as -> by (apply Reqb_false; lra). cbn [rmap map bind List.concat app].
    do 3 f_equal. rewrite S1. unfold q. field. lra. }
  assert (L2 : beam_list_positions b' (PosNum q) None (Some c) = Ok [(q, Z.of_nat k, 1); (q, Z.of_nat (S k), 0)]).
  { rewrite (single_locs b' ls' (Some c) q Hb') by (apply (covers_on_beam ls' k); [exact (lengths_nonneg b' ls' Hb')|exact C2]).
    unfold locs_at. rewrite I2. cbn [mapM].
    rewrite (locations_at_R b' ls' (Some c) q k e1 Hb' C2 Kb1), (locations_at_R b' ls' (Some c) q (S k) e2 Hb' C3 Kb2).
    unfold locals_at. rewrite N2, N3, S3, S5.
    assert (Reqb (t * l) 0 = false) as -> by (apply Reqb_false; lra).
    assert (Reqb ((1 - t) * l) 0 = false) as -> by (apply Reqb_false; nra). cbn [rmap map bind List.concat app].
    replace ((q - span lpre) / (t * l)) with 1 by (unfold q; field; lra).
    replace ((q - (span lpre + t * l)) / ((1 - t) * l)) with 0 by (unfold q; field; lra). reflexivity. }
  assert (Ld' : forall el x tab, In (el, x, tab) [(e1, 1, left); (e2, 0, right)] ->
    el_get_loads qs el c (PosNum x) None a = Ok (Some (block tab cs x))).
  { intros el x tab [I|[I|[]]]; injection I as <- <- <-; apply el_get_loads_block; auto. }
  pose proof (proj1 (accepted_rows rows) A) as W.
  exists (at_position q (block rows cs t)). unfold beam_get_loads. rewrite L1, L2. cbn [bind accumulate]. split.
  - rewrite (py_index_nat b k e Kb). cbn [bind]. rewrite (el_get_loads_block qs e c t a cs rows) by auto.
    cbn [bind]. now rewrite set_position_R.
  - rewrite (py_index_nat b' k e1 Kb1). cbn [bind]. rewrite (Ld' e1 1 left) by now left. cbn [bind].
    rewrite (py_index_nat b' (S k) e2 Kb2). cbn [bind]. rewrite (Ld' e2 0 right) by (right; now left). cbn [bind].
    rewrite !set_position_R. rewrite (vstack_ok _ _ (List.length cs)).
    + cbn [bind]. do 3 f_equal; apply at_position_snd; [eapply left_at|eapply right_at]; eauto.
    + apply Forall_map. apply block_width.
    + apply Forall_map. apply block_width.
Qed.
End Single.
