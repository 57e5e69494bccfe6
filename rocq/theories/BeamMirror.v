(** A beam described from its other end. *)

From Coq Require Import ZArith Reals Lra Lia List Bool Sorted.
From Verif Require Import Base Num RNum Numpy LoadCase LoadFacts LoadSpec LoadProofs TableCut Beam BeamSpec BeamFacts
  BeamPositions BeamProofs BeamLoads TransformSpec BeamJoin BeamUnits.
Import ListNotations.
Open Scope R_scope.

(** ** Tables *)

Lemma SS_app {A} (r : A -> A -> Prop) l m : StronglySorted r l -> StronglySorted r m ->
  (forall x y, In x l -> In y m -> r x y) -> StronglySorted r (l ++ m).
Proof.
  induction 1 as [|x l S IH F]; intros Sm H; cbn; auto. constructor.
  - apply IH; auto. intros; apply H; cbn; auto.
  - apply Forall_app. split; auto. apply Forall_forall. intros y Hy. apply H; cbn; auto.
Qed.

Lemma SS_rev {A} (r : A -> A -> Prop) l : StronglySorted r l -> StronglySorted (fun x y => r y x) (rev l).
Proof.
  induction 1 as [|x l S IH F]; cbn; [constructor|]. apply SS_app; auto.
  - repeat constructor.
  - intros y z Hy [<-|[]]. rewrite Forall_forall in F. apply F. now apply in_rev.
Qed.

Lemma SS_map {A B} (r : A -> A -> Prop) (q : B -> B -> Prop) f l : (forall x y, r x y -> q (f x) (f y)) ->
  StronglySorted r l -> StronglySorted q (map f l).
Proof.
  intros H. induction 1 as [|x l S IH F]; cbn; constructor; auto.
  rewrite Forall_forall in *. intros y Hy. apply in_map_iff in Hy. destruct Hy as (z & <- & Hz). auto.
Qed.

Lemma SS_impl {A} (r q : A -> A -> Prop) l : (forall x y, r x y -> q x y) -> StronglySorted r l -> StronglySorted q l.
Proof.
  intros H. induction 1 as [|x l S IH F]; constructor; auto. rewrite Forall_forall in *. auto.
Qed.

Lemma mirror_well_formed rows : well_formed rows -> well_formed (mirror_table rows).
Proof.
  intros [S W]. split.
  - unfold mirror_table. rewrite <- map_rev.
    apply (SS_map (fun x y => lpos y <= lpos x)); [cbn; intros; lra|].
    apply (SS_rev (fun x y => lpos x <= lpos y)). exact S.
  - unfold mirror_table. apply Forall_rev. rewrite Forall_forall in *. intros r Hr. apply in_map_iff in Hr.
    destruct Hr as (q & <- & Hq). specialize (W q Hq). cbn in *. lra.
Qed.

Lemma mirror_accepted rows : accepted (Some rows) -> accepted (Some (mirror_table rows)).
Proof. rewrite !accepted_rows. apply mirror_well_formed. Qed.

Lemma load_of_move f c r : load_of c (move f r) = load_of c r.
Proof. destruct c; reflexivity. Qed.

Lemma mirror_interpolates rows c x v : interpolates rows c x v -> interpolates (mirror_table rows) c (1 - x) v.
Proof.
  unfold mirror_table. intros [r rs -> L|rs r -> L|l r1 r2 l' -> L1 L2]; cbn [nltb RNum] in *.
  - apply Rltb_true in L. rewrite <- (load_of_move (fun x => 1 - x) c r).
    apply after_last with (rev (map (move (fun x => 1 - x)) rs)); [reflexivity|]. apply Rltb_true. cbn. lra.
  - apply Rltb_true in L. rewrite <- (load_of_move (fun x => 1 - x) c r).
    apply before_first with (rev (map (move (fun x => 1 - x)) rs)).
    + rewrite map_app, rev_app_distr. reflexivity.
    + apply Rltb_true. cbn. lra.
  - apply Rltb_true in L1, L2.
    assert (E : rev (map (move (fun x => 1 - x)) (l ++ r1 :: r2 :: l')) =
      rev (map (move (fun x => 1 - x)) l') ++ move (fun x => 1 - x) r2 :: move (fun x => 1 - x) r1 ::
      rev (map (move (fun x => 1 - x)) l)).
    { rewrite map_app, rev_app_distr. cbn [map rev]. rewrite <- !app_assoc. reflexivity. }
    pose proof (between _ c (1 - x) _ _ _ _ E) as B.
    rewrite !load_of_move in B. cbn [lpos move nadd nmul ndiv nsub nltb RNum] in B.
    match type of B with _ -> _ -> interpolates _ _ _ ?w =>
      replace (nadd _ _) with w; [apply B; apply Rltb_true; lra|] end.
    cbn [nadd nmul ndiv nsub RNum]. field. lra.
Qed.

Lemma mirror_positions rows : map lpos (mirror_table rows) = rev (map (Rminus 1) (map lpos rows)).
Proof. unfold mirror_table. rewrite map_rev, !map_map. reflexivity. Qed.

Lemma py_in_R (x : R) l : py_in x l = true <-> In x l.
Proof.
  unfold py_in. rewrite existsb_exists. split.
  - intros (y & Hy & E). cbn in E. apply Reqb_true in E. now subst.
  - intros H. exists x. split; auto. cbn. now apply Reqb_true.
Qed.

Lemma mirror_in x rows : py_in (1 - x) (map lpos (mirror_table rows)) = py_in x (map lpos rows).
Proof.
  apply eq_true_iff_eq. rewrite !py_in_R, mirror_positions, <- in_rev. split; intros H.
  - apply in_map_iff in H. destruct H as (y & E & Hy). now replace x with y by lra.
  - now apply in_map.
Qed.

Lemma mirror_filter x (rows : list (lrow R)) :
  filter (fun r => Reqb (lpos r) (1 - x)) (mirror_table rows) =
  mirror_table (filter (fun r => Reqb (lpos r) x) rows).
Proof.
  unfold mirror_table. induction rows as [|r rows IH]; [reflexivity|].
  cbn [map rev]. rewrite filter_app, IH. cbn [filter move lpos].
  assert (E : Reqb (1 - lpos r) (1 - x) = Reqb (lpos r) x).
  { apply eq_true_iff_eq. rewrite !Reqb_true. split; lra. }
  rewrite E. destruct (Reqb (lpos r) x); cbn [map rev]; [reflexivity|now rewrite app_nil_r].
Qed.

Lemma mirror_block rows cs x : well_formed rows -> rows <> [] ->
  block (mirror_table rows) cs (1 - x) = mirror_rows 1 (block rows cs x).
Proof.
  intros W N. unfold block. rewrite mirror_in. destruct (py_in x (map lpos rows)) eqn:E.
  - cbn [neqb RNum]. rewrite mirror_filter. unfold mirror_table, mirror_rows. rewrite map_rev, !map_map.
    reflexivity.
  - unfold mirror_rows. cbn [map rev app fst snd]. f_equal. f_equal. apply map_ext. intros c. f_equal.
    pose proof (mirror_well_formed rows W) as [S' W'].
    symmetry. apply (interpolates_val (mirror_table rows) c (1 - x)); auto; [exact (conj S' W')|].
    apply mirror_interpolates. apply (interp_val_spec (ok := Rok)); auto using R_rows_ok; [exact I|].
    intros q Hq. destruct (neqb (lpos q) x) eqn:F; auto. cbn in F. apply Reqb_true in F.
    assert (T : py_in x (map lpos rows) = true) by (apply py_in_R; rewrite <- F; now apply in_map).
    congruence.
Qed.

(** ** Extents *)

Lemma span_rev ls : span (rev ls) = span ls.
Proof.
  induction ls as [|l ls IH]; [reflexivity|]. cbn [rev]. rewrite span_app, IH. unfold span. cbn. ring.
Qed.

Lemma start_rev ls i : (i <= List.length ls)%nat ->
  start_of (rev ls) i = span ls - start_of ls (List.length ls - i).
Proof.
  intros H. unfold start_of. rewrite firstn_rev, span_rev.
  pose proof (span_app (firstn (List.length ls - i) ls) (skipn (List.length ls - i) ls)) as E.
  rewrite firstn_skipn in E. lra.
Qed.

Lemma nth_rev ls i : (i < List.length ls)%nat -> nth i (rev ls) 0 = nth (List.length ls - 1 - i) ls 0.
Proof. intros H. rewrite rev_nth by auto. f_equal. lia. Qed.

Lemma covers_rev ls i p : covers (rev ls) i (span ls - p) <->
  (i < List.length ls)%nat /\ covers ls (List.length ls - 1 - i) p.
Proof.
  unfold covers. rewrite rev_length. split.
  - intros [H1 H2]. split; auto. split; [lia|]. rewrite end_start, !start_rev in H2 by lia.
    rewrite end_start. replace (S (List.length ls - 1 - i)) with (List.length ls - i)%nat by lia.
    replace (List.length ls - 1 - i)%nat with (List.length ls - S i)%nat by lia. lra.
  - intros [H1 [_ H2]]. split; auto. rewrite end_start, !start_rev by lia. rewrite end_start in H2.
    replace (S (List.length ls - 1 - i)) with (List.length ls - i)%nat in H2 by lia.
    replace (List.length ls - 1 - i)%nat with (List.length ls - S i)%nat in H2 by lia. lra.
Qed.

Lemma lt_sorted_unique : forall l m : list nat, StronglySorted Peano.lt l -> StronglySorted Peano.lt m ->
  (forall x, In x l <-> In x m) -> l = m.
Proof.
  induction l as [|x l IH]; intros [|y m] Sl Sm H; auto.
  - exfalso. apply (proj2 (H y)). now left.
  - exfalso. apply (proj1 (H x)). now left.
  - inversion Sl; inversion Sm; subst. rewrite Forall_forall in *.
    assert (x = y).
    { destruct (proj1 (H x) (or_introl eq_refl)) as [E|E]; auto.
      destruct (proj2 (H y) (or_introl eq_refl)) as [F|F]; auto.
      specialize (H3 y F). specialize (H7 x E). lia. }
    subst y. f_equal. apply IH; auto. intros z. split; intros Hz.
    + destruct (proj1 (H z) (or_intror Hz)) as [E|E]; auto. subst z. specialize (H3 x Hz). lia.
    + destruct (proj2 (H z) (or_intror Hz)) as [E|E]; auto. subst z. specialize (H7 x Hz). lia.
Qed.

Lemma ids_rev ls p : ids (rev ls) (span ls - p) = rev (map (fun i => List.length ls - 1 - i)%nat (ids ls p)).
Proof.
  destruct (ids_spec ls p) as [S I]. apply lt_sorted_unique.
  - apply ids_spec.
  - apply (SS_impl (fun x y => (x < y)%nat)); auto.
    apply (SS_rev (fun y x => (x < y)%nat)).
    assert (B : Forall (fun i => i < List.length ls)%nat (ids ls p)).
    { apply Forall_forall. intros i Hi. apply in_ids in Hi. apply Hi. }
    clear I. induction S as [|x l S IH F]; cbn; constructor; inversion B; subst; auto.
    rewrite Forall_forall in *. intros y Hy. apply in_map_iff in Hy. destruct Hy as (z & <- & Hz).
    specialize (F z Hz). specialize (H2 z Hz). lia.
  - intros i. rewrite in_ids, covers_rev, <- in_rev, in_map_iff. split.
    + intros [H1 H2]. exists (List.length ls - 1 - i)%nat. split; [lia|]. now apply in_ids.
    + intros (j & <- & Hj). apply in_ids in Hj. pose proof (proj1 Hj). split; [lia|].
      now replace (List.length ls - 1 - (List.length ls - 1 - j))%nat with j by lia.
Qed.

(** ** Beams *)

Definition mirror_loc (len : R) (n : nat) (t : location R) : location R :=
  (len - fst (fst t), (Z.of_nat n - 1 - snd (fst t))%Z, 1 - snd t).

Lemma concat_rev {A} (l : list (list A)) : List.concat (rev (map (@rev A) l)) = rev (List.concat l).
Proof.
  induction l as [|x l IH]; [reflexivity|]. cbn [map rev List.concat]. rewrite concat_app, IH, rev_app_distr.
  cbn. now rewrite app_nil_r.
Qed.

Section B.
Context {Sec : Type}.
Implicit Types b : beam_t R Sec.

Lemma dict_get_mirror c (d : list (Z * lcase R)) :
  dict_get c (map (fun cl => (fst cl, option_map mirror_table (snd cl))) d) =
  rmap (option_map mirror_table) (dict_get c d).
Proof. induction d as [|[k v] d IH]; cbn; auto. destruct (c =? k)%Z; auto. Qed.

Lemma mirror_dict c (e : elem R Sec) rows : dict_get c (eloads e) = Ok (Some rows) ->
  dict_get c (eloads (mirror_elem e)) = Ok (Some (mirror_table rows)).
Proof. intros H. cbn [mirror_elem eloads]. now rewrite dict_get_mirror, H. Qed.

Lemma mirror_lengths b ls : has_lengths b ls -> has_lengths (mirror_beam b) (rev ls).
Proof.
  unfold has_lengths, mirror_beam. induction 1 as [|e l b ls E H IH]; cbn; [constructor|].
  apply Forall2_app; auto.
Qed.

Lemma mirror_nonempty rows : rows <> [] -> mirror_table rows <> [].
Proof. destruct rows; [congruence|]. intros _. unfold mirror_table. cbn. intros E. apply app_eq_nil in E. now destruct E. Qed.

Lemma mirror_loaded b c : loaded b c -> loaded (mirror_beam b) c.
Proof.
  intros H e He. unfold mirror_beam in He. apply in_rev in He. apply in_map_iff in He.
  destruct He as (e0 & <- & He). destruct (H e0 He) as (rows & E & A & N).
  exists (mirror_table rows). split; [now apply mirror_dict|]. split; [now apply mirror_accepted|now apply mirror_nonempty].
Qed.

Lemma mirror_length b : List.length (mirror_beam b) = List.length b.
Proof. unfold mirror_beam. now rewrite rev_length, map_length. Qed.

Lemma nth_error_rev {A} (l : list A) i : (i < List.length l)%nat ->
  nth_error (rev l) (List.length l - 1 - i) = nth_error l i.
Proof.
  intros H. destruct (nth_error l i) as [x|] eqn:E; [|apply nth_error_None in E; lia].
  apply nth_error_split in E. destruct E as (l1 & l2 & -> & <-).
  rewrite rev_app_distr. cbn [rev]. rewrite <- app_assoc. rewrite app_length. cbn [List.length].
  rewrite nth_error_app2 by (rewrite rev_length; lia). rewrite rev_length.
  now replace (List.length l1 + S (List.length l2) - 1 - List.length l1 - List.length l2)%nat with 0%nat by lia.
Qed.

Lemma mirror_nth b i e : nth_error b i = Some e ->
  nth_error (mirror_beam b) (List.length b - 1 - i) = Some (mirror_elem e).
Proof.
  intros H. assert (i < List.length b)%nat by (apply nth_error_Some; congruence).
  unfold mirror_beam. rewrite <- (map_length mirror_elem b). rewrite nth_error_rev by now rewrite map_length.
  now rewrite nth_error_map, H.
Qed.

(** What has to be known about the load case asked for. *)
Definition fine b (lc : option Z) : Prop :=
  match lc with None => True | Some c => loaded b c /\ joints_whole b c end.

Lemma whole_positions rows : whole rows -> forall e c, dict_get c (eloads e) = Ok (Some rows) ->
  zero_length_positions (S := Sec) e (Some c) = Ok (map lpos rows).
Proof.
  intros (r0 & rest & r1 & E0 & (l & E1) & P0 & P1) e c D. unfold zero_length_positions, el_load_positions.
  rewrite D. cbn [bind]. rewrite E0. cbn [map].
  assert (L : last (lpos r0 :: map lpos rest) (lpos r0) = 1).
  { change (lpos r0 :: map lpos rest) with (map lpos (r0 :: rest)). rewrite <- E0, E1, map_app. cbn [map].
    rewrite last_last. exact P1. }
  cbn [load_positions bind map neqb nint RNum]. rewrite (proj2 (Reqb_true (lpos r0) 0) P0). cbn [negb].
  rewrite L. replace (nflt 1 1 : R) with 1 by (cbn; lra).
  rewrite (proj2 (Reqb_true 1 1) eq_refl). reflexivity.
Qed.

Lemma mirror_whole rows : whole rows -> whole (mirror_table rows).
Proof.
  intros (r0 & rest & r1 & E0 & (l & E1) & P0 & P1).
  exists (move (fun x => 1 - x) r1), (rev (map (move (fun x => 1 - x)) l)), (move (fun x => 1 - x) r0).
  unfold mirror_table. split; [|split; [|split]].
  - rewrite E1, map_app, rev_app_distr. reflexivity.
  - exists (rev (map (move (fun x => 1 - x)) rest)). rewrite E0. reflexivity.
  - cbn. lra.
  - cbn. lra.
Qed.

Definition triples b lc p i : list (location R) :=
  match locations_at b lc p (Z.of_nat i) with Ok t => t | Err _ => [] end.

Lemma triples_total b ls lc p i : has_lengths b ls -> fine b lc -> covers ls i p ->
  locations_at b lc p (Z.of_nat i) = Ok (triples b lc p i).
Proof.
  intros H F C. unfold triples. destruct (locations_at b lc p (Z.of_nat i)) as [t|e] eqn:E; auto. exfalso.
  destruct (locations_at_err b ls lc p i e H C E) as (el & He & Z & Ez).
  destruct lc as [c|]; [|discriminate Ez]. destruct F as [Fl Fj].
  pose proof (nth_error_In _ _ He) as Hin.
  destruct (Fl el Hin) as (rows & D & _ & _).
  destruct (lengths_nth b ls i el H He) as (El & _). rewrite Z in El.
  rewrite (whole_positions rows (Fj el rows Hin El D) el c D) in Ez. discriminate.
Qed.

Lemma mirror_triples b ls lc p i : has_lengths b ls -> fine b lc -> covers ls i p ->
  locations_at (mirror_beam b) lc (span ls - p) (Z.of_nat (List.length ls - 1 - i)) =
  Ok (rev (map (mirror_loc (span ls) (List.length b)) (triples b lc p i))).
Proof.
  intros H F C. pose proof (lengths_len b ls H) as Len. pose proof (proj1 C) as Hi.
  destruct (lengths_has b ls i H Hi) as (e & E).
  assert (C' : covers (rev ls) (List.length ls - 1 - i) (span ls - p)).
  { apply covers_rev. split; [lia|]. now replace (List.length ls - 1 - (List.length ls - 1 - i))%nat with i by lia. }
  pose proof (mirror_nth b i e E) as E'. rewrite Len in E'.
  rewrite (locations_at_R _ _ lc _ _ _ (mirror_lengths b ls H) C' E').
  unfold triples. rewrite (locations_at_R b ls lc p i e H C E).
  unfold locals_at. rewrite nth_rev by lia.
  replace (List.length ls - 1 - (List.length ls - 1 - i))%nat with i by lia.
  assert (ZZ : Z.of_nat (List.length ls - 1 - i) = (Z.of_nat (List.length b) - 1 - Z.of_nat i)%Z) by (rewrite Len; lia).
  destruct (Reqb (nth i ls 0) 0) eqn:Z.
  - apply Reqb_true in Z. destruct (lengths_nth b ls i e H E) as (El & _). rewrite Z in El.
    pose proof (nth_error_In _ _ E) as Hin. destruct lc as [c|].
    + destruct F as [Fl Fj]. destruct (Fl e Hin) as (rows & D & _ & _).
      pose proof (Fj e rows Hin El D) as W.
      rewrite (whole_positions rows W e c D), (whole_positions _ (mirror_whole rows W) _ c (mirror_dict c e rows D)).
      cbn [rmap]. rewrite mirror_positions, map_rev, !map_map. rewrite ZZ. reflexivity.
    + cbn [zero_length_positions rmap map rev app]. rewrite ZZ. unfold mirror_loc. cbn [fst snd].
      replace (nflt 0 1 : R) with 0 by (cbn; lra). replace (nflt 1 1 : R) with 1 by (cbn; lra).
      replace (1 - 1) with 0 by ring. replace (1 - 0) with 1 by ring. reflexivity.
  - apply Reqb_false in Z. cbn [rmap map rev app]. unfold mirror_loc. cbn [fst snd]. rewrite <- ZZ.
    replace ((span ls - p - start_of (rev ls) (List.length ls - 1 - i)) / nth i ls 0)
      with (1 - (p - start_of ls i) / nth i ls 0); [reflexivity|].
    rewrite start_rev by lia. replace (List.length ls - (List.length ls - 1 - i))%nat with (S i) by lia.
    rewrite <- end_start, end_length by lia. field. auto.
Qed.

Definition at_all b ls lc ps : list (location R) :=
  List.concat (map (fun p => List.concat (map (triples b lc p) (ids ls p))) ps).

Lemma locations_all b ls lc ps : has_lengths b ls -> fine b lc -> locations b lc ps = Ok (at_all b ls lc ps).
Proof.
  intros H F. rewrite (locations_R b ls lc ps H).
  rewrite (mapM_ok _ (fun p => List.concat (map (triples b lc p) (ids ls p)))); [reflexivity|].
  intros p _. unfold locs_at. rewrite (mapM_ok _ (triples b lc p)); [reflexivity|].
  intros i Hi. apply in_ids in Hi. now apply (triples_total b ls).
Qed.

Lemma mirror_fine b lc : fine b lc -> fine (mirror_beam b) lc.
Proof.
  destruct lc as [c|]; auto. intros [L J]. split; [now apply mirror_loaded|].
  intros e rows He El D. unfold mirror_beam in He. apply in_rev in He. apply in_map_iff in He.
  destruct He as (e0 & <- & He). destruct (L e0 He) as (rows0 & D0 & _).
  rewrite (mirror_dict c e0 rows0 D0) in D. injection D as <-. apply mirror_whole. now apply (J e0).
Qed.

Lemma mirror_locations b ls lc ps : has_lengths b ls -> fine b lc ->
  locations (mirror_beam b) lc (rev (map (Rminus (span ls)) ps)) =
  rmap (fun l => rev (map (mirror_loc (span ls) (List.length b)) l)) (locations b lc ps).
Proof.
  intros H F. rewrite (locations_all b ls lc ps H F).
  rewrite (locations_all _ _ lc _ (mirror_lengths b ls H) (mirror_fine b lc F)). cbn [rmap].
  apply f_equal. unfold at_all. rewrite map_rev, map_map.
  rewrite concat_map, <- concat_rev, !map_map. apply f_equal. apply f_equal. apply map_ext. intros p.
  rewrite ids_rev, map_rev, map_map. rewrite concat_map, <- concat_rev, !map_map. apply f_equal. apply f_equal.
  apply map_ext_in. intros i Hi. apply in_ids in Hi.
  unfold triples at 1. now rewrite (mirror_triples b ls lc p i H F Hi).
Qed.

Lemma mirror_sorted_set len (l : list R) :
  py_sorted (py_set (map (Rminus len) l)) = rev (map (Rminus len) (py_sorted (py_set l))).
Proof.
  apply sorted_unique_R.
  - apply sorted_set_R.
  - apply (SS_impl (fun x y => x < y)); auto. apply (SS_rev (fun y x => x < y)).
    apply (SS_map Rlt); [intros; lra|apply sorted_set_R].
  - intros x. rewrite Rin_sorted_set, <- in_rev, !in_map_iff. split; intros (y & E & Hy); exists y; split; auto;
      rewrite Rin_sorted_set in *; auto.
Qed.

Lemma check_R b ls ps : has_lengths b ls ->
  check_on_beam b ps = if forallb (fun p => Rleb 0 p && Rleb p (span ls)) ps then Ok tt else Err PositionNotInBeamError.
Proof.
  intros H. induction ps as [|p ps IH]; [reflexivity|]. cbn [check_on_beam forallb].
  rewrite (beam_length_R b ls H). cbn [bind nltb nint RNum].
  destruct (Rltb p 0) eqn:E1.
  - apply Rltb_true in E1. assert (Rleb 0 p = false) as -> by (apply Rleb_false; lra). reflexivity.
  - apply Rltb_false in E1. assert (Rleb 0 p = true) as -> by (apply Rleb_true; lra).
    destruct (Rltb (span ls) p) eqn:E2.
    + apply Rltb_true in E2. assert (Rleb p (span ls) = false) as -> by (apply Rleb_false; lra). reflexivity.
    + apply Rltb_false in E2. assert (Rleb p (span ls) = true) as -> by (apply Rleb_true; lra). exact IH.
Qed.

Lemma mirror_check b ls ps : has_lengths b ls ->
  check_on_beam (mirror_beam b) (map (Rminus (span ls)) ps) = check_on_beam b ps.
Proof.
  intros H. rewrite (check_R b ls ps H), (check_R _ _ _ (mirror_lengths b ls H)), span_rev.
  assert (E : forallb (fun p => Rleb 0 p && Rleb p (span ls)) (map (Rminus (span ls)) ps) =
              forallb (fun p => Rleb 0 p && Rleb p (span ls)) ps); [|now rewrite E].
  induction ps as [|p ps IH]; [reflexivity|]. cbn [map forallb]. rewrite IH. f_equal.
  apply eq_true_iff_eq. rewrite !andb_true_iff, !Rleb_true. split; lra.
Qed.

(** ** Positions from min_positions *)

Lemma fine_considered b lc : fine b lc -> forall e, In e b ->
  exists xs, considered e lc xs /\ Forall (fun x => 0 <= x <= 1) xs.
Proof.
  intros F e He. destruct lc as [c|].
  - destruct F as [L _]. destruct (L e He) as (rows & D & A & _). exists (map lpos rows). cbn [considered].
    unfold el_load_positions. rewrite D. split; auto. apply accepted_rows in A. apply Forall_map. apply A.
  - exists [0 / 1; 1 / 1]. cbn. split; auto. repeat constructor; lra.
Qed.

Definition candidate b ls lc n p : Prop :=
  (exists i, (i < List.length ls)%nat /\ (p = start_of ls i \/ p = end_of ls i)) \/
  (exists i e xs x, nth_error b i = Some e /\ considered e lc xs /\ In x xs /\ p = start_of ls i + x * nth i ls 0) \/
  (exists k, (k < Z.to_nat n)%nat /\ p = even_point n k * span ls).

Lemma mp_list b ls lc n : has_lengths b ls -> fine b lc -> (0 <= n)%Z ->
  exists ps, beam_list_positions b PosNone (Some n) lc = locations b lc (py_sorted (py_set ps)) /\
    forall p, In p ps <-> candidate b ls lc n p.
Proof.
  intros H F Hn.
  destruct (real_positions_R b ls lc H b 0 (fun j e E => E) (fine_considered b lc F)) as (real & Er & Ir).
  exists ((flatten_ends (ends ls) ++ real) ++ map (fun i => even_point n i * span ls) (seq 0 (Z.to_nat n))).
  split.
  - unfold beam_list_positions. rewrite (beam_length_R b ls H). cbn [bind]. rewrite linspace_R by auto. cbn [bind].
    rewrite (element_ends_R b ls H). cbn [bind]. change 0%Z with (Z.of_nat 0). rewrite Er. cbn [bind].
    now rewrite set_update_set.
  - intros p. rewrite !in_app_iff, flatten_ends_R, Ir, in_map_iff. unfold candidate. cbn [Nat.add].
    split.
    + intros [[A|A]|(i & <- & Hi)]; auto. right. right. exists i. apply in_seq in Hi. split; auto. lia.
    + intros [A|[A|(k & Hk & ->)]]; auto. right. exists k. split; auto. apply in_seq. lia.
Qed.

Lemma mirror_considered (e : elem R Sec) lc xs x : considered e lc xs -> In x xs ->
  exists xs', considered (mirror_elem e) lc xs' /\ In (1 - x) xs'.
Proof.
  intros C Hx. destruct lc as [c|]; cbn [considered] in *.
  - unfold el_load_positions in *. cbn [mirror_elem eloads]. rewrite dict_get_mirror.
    destruct (dict_get c (eloads e)) as [[rows|]|]; cbn [bind rmap option_map load_positions] in *; try discriminate.
    injection C as <-. exists (map lpos (mirror_table rows)). split; auto.
    rewrite mirror_positions, <- in_rev. now apply in_map.
  - subst xs. exists [0 / 1; 1 / 1]. split; auto. destruct Hx as [<-|[<-|[]]]; [right; left|left]; lra.
Qed.

Lemma candidate_mirror b ls lc n p : has_lengths b ls -> b <> [] -> (0 <= n)%Z ->
  candidate b ls lc n p -> candidate (mirror_beam b) (rev ls) lc n (span ls - p).
Proof.
  intros H N Hn. assert (Ln : (0 < List.length ls)%nat).
  { rewrite <- (lengths_len b ls H). destruct b; [congruence|cbn; lia]. }
  intros [(i & Hi & E)|[(i & e & xs & x & He & C & Hx & ->)|(k & Hk & ->)]].
  - left. exists (List.length ls - 1 - i)%nat. rewrite rev_length. split; [lia|].
    rewrite !end_start, !start_rev in * by lia.
    replace (List.length ls - (List.length ls - 1 - i))%nat with (S i) by lia.
    replace (List.length ls - S (List.length ls - 1 - i))%nat with i by lia.
    destruct E as [->| ->]; [right|left]; ring.
  - right. left. destruct (lengths_nth b ls i e H He) as (_ & _ & Hi).
    destruct (mirror_considered e lc xs x C Hx) as (xs' & C' & Hx').
    exists (List.length ls - 1 - i)%nat, (mirror_elem e), xs', (1 - x).
    split; [rewrite <- (lengths_len b ls H); now apply mirror_nth|]. split; auto. split; auto.
    rewrite start_rev, nth_rev by lia.
    replace (List.length ls - (List.length ls - 1 - i))%nat with (S i) by lia.
    replace (List.length ls - 1 - (List.length ls - 1 - i))%nat with i by lia.
    rewrite <- end_start, end_length by lia. ring.
  - unfold even_point. destruct (n =? 1)%Z eqn:E1.
    + left. exists (List.length ls - 1)%nat. rewrite rev_length. split; [lia|]. right.
      rewrite end_start, start_full by (rewrite rev_length; lia). rewrite span_rev. ring.
    + right. right. exists (Z.to_nat n - 1 - k)%nat. split; [lia|]. unfold even_point. rewrite E1, span_rev.
      apply Z.eqb_neq in E1. assert (2 <= n)%Z by lia.
      assert (IZR n <> 1) by (intros Z; apply eq_IZR in Z; lia).
      rewrite !minus_INR by lia. rewrite !INR_IZR_INZ. rewrite Z2Nat.id by lia. cbn [Z.of_nat Pos.of_succ_nat].
      field. lra.
Qed.

Theorem mirror_list_positions b ls position mp lc : has_lengths b ls -> b <> [] -> fine b lc ->
  beam_list_positions (mirror_beam b) (mirror_pos (span ls) position) mp lc =
  rmap (fun l => rev (map (mirror_loc (span ls) (List.length b)) l)) (beam_list_positions b position mp lc).
Proof.
  intros H N F. pose proof (mirror_lengths b ls H) as H'.
  destruct position as [|x|l], mp as [n|]; try reflexivity.
  - cbn [mirror_pos]. destruct (Z_lt_le_dec n 0) as [Hn|Hn].
    + unfold beam_list_positions. rewrite (beam_length_R b ls H), (beam_length_R _ _ H'). cbn [bind].
      now rewrite !linspace_negative.
    + destruct (mp_list b ls lc n H F Hn) as (ps & E & I).
      destruct (mp_list _ _ lc n H' (mirror_fine b lc F) Hn) as (ps' & E' & I').
      rewrite E, E'. replace (py_sorted (py_set ps')) with (rev (map (Rminus (span ls)) (py_sorted (py_set ps)))).
      * now apply (mirror_locations b ls).
      * rewrite <- mirror_sorted_set. apply sorted_unique_R; [apply sorted_set_R|apply sorted_set_R|].
        intros p. rewrite !Rin_sorted_set, in_map_iff, I'. split.
        -- intros (q & <- & Hq). apply candidate_mirror; auto. now apply I.
        -- intros C. apply candidate_mirror in C; auto.
           2:{ intros Z. apply N. apply (f_equal (@List.length _)) in Z. rewrite mirror_length in Z. now destruct b. }
           rewrite rev_involutive, span_rev in C. exists (span ls - p). split; [ring|]. apply I.
           unfold mirror_beam in C. rewrite map_rev, rev_involutive, map_map in C.
           assert (MM : forall r : lrow R, move (fun x => 1 - x) (move (fun x => 1 - x) r) = r).
           { intros [x0 ? ? ? ? ? ?]. unfold move. cbn. f_equal. ring. }
           rewrite (map_ext _ (fun e => e)), map_id in C; auto.
           intros [ln sc ld]. unfold mirror_elem. cbn. f_equal. rewrite map_map. rewrite <- (map_id ld) at 2.
           apply map_ext. intros [c [rows|]]; cbn; auto. unfold mirror_table.
           rewrite map_rev, rev_involutive, map_map. rewrite (map_ext _ (fun r => r)) by auto. now rewrite map_id.
  - cbn [mirror_pos]. unfold beam_list_positions. cbn [nisfloat RNum].
    change [span ls - x] with (map (Rminus (span ls)) [x]). rewrite (mirror_check b ls [x] H).
    destruct (check_on_beam b [x]); cbn [bind]; auto. rewrite mirror_sorted_set. now apply (mirror_locations b ls).
  - cbn [mirror_pos]. unfold beam_list_positions. rewrite (mirror_check b ls l H).
    destruct (check_on_beam b l); cbn [bind]; auto. rewrite mirror_sorted_set. now apply (mirror_locations b ls).
Qed.

(** ** Loads and sections *)

Lemma Forall2_rev {A B} (r : A -> B -> Prop) l m : Forall2 r l m -> Forall2 r (rev l) (rev m).
Proof. induction 1; cbn; auto. apply Forall2_app; auto. Qed.

Lemma mirror_rows_concat len (bs : list (list (orow R))) :
  List.concat (rev (map (mirror_rows len) bs)) = mirror_rows len (List.concat bs).
Proof. unfold mirror_rows. rewrite concat_map, <- concat_rev, map_map. reflexivity. Qed.

Theorem mirror_get_loads qs b ls c position mp comp cs : any_argsort qs ->
  has_lengths b ls -> b <> [] -> loaded b c -> joints_whole b c -> designates comp cs -> cs <> [] ->
  beam_get_loads qs (mirror_beam b) c (mirror_pos (span ls) position) mp comp =
  rmap (option_map (mirror_rows (span ls))) (beam_get_loads qs b c position mp comp).
Proof.
  intros Hq H N L J Hc C. pose proof (mirror_lengths b ls H) as H'.
  pose proof (mirror_list_positions b ls position mp (Some c) H N (conj L J)) as E.
  destruct (beam_list_positions b position mp (Some c)) as [locs|e] eqn:El; cbn [rmap] in E.
  2:{ unfold beam_get_loads. now rewrite El, E. }
  destruct (C21_total qs b ls c position mp comp cs locs Hq H L Hc C El) as (blocks & F & G).
  destruct (C21_total qs (mirror_beam b) (rev ls) c _ mp comp cs _ Hq H' (mirror_loaded b c L) Hc C E)
    as (blocks' & F' & G').
  rewrite G, G'. cbn [rmap]. destruct locs as [|t locs]; [reflexivity|].
  assert (Z : rev (map (mirror_loc (span ls) (List.length b)) (t :: locs)) <> []).
  { cbn [map rev]. intros Z. apply app_eq_nil in Z. now destruct Z. }
  set (m := rev (map (mirror_loc (span ls) (List.length b)) (t :: locs))) in *.
  assert (B : blocks' = rev (map (mirror_rows (span ls)) blocks)).
  { apply (rows_functional qs (mirror_beam b) c comp m); auto. unfold m. apply Forall2_rev.
    pose proof (locs_indexed b ls position mp (Some c) _ H El) as I.
    clear - F I Hq L Hc C. revert I. induction F as [|[[p z] l] o locs0 blocks Ht F IH]; intros I; cbn [map]; constructor.
    - apply Forall_inv in I. destruct I as (i & Ei & Hi). cbn in Ei. subst z.
      destruct Ht as (el & rows & En & _ & Eg & ->). rewrite Nat2Z.id in En.
      destruct (L el (nth_error_In _ _ En)) as (tab & D & A & Nt).
      rewrite (el_get_loads_block qs el c l comp cs tab Hq D A Nt Hc C) in Eg. injection Eg as <-.
      exists (mirror_elem el), (block (mirror_table tab) cs (1 - l)). cbn [fst snd].
      split; [|split; [lia|split]].
      + rewrite <- (mirror_nth b i el En). apply (f_equal (nth_error (mirror_beam b))). lia.
      + apply el_get_loads_block; auto; [now apply mirror_dict|now apply mirror_accepted|now apply mirror_nonempty].
      + rewrite mirror_block by (auto; now apply accepted_rows). unfold mirror_rows, at_position.
        now rewrite map_rev, !map_map.
    - apply IH. now apply Forall_inv_tail in I. }
  destruct m; [congruence|]. cbn [option_map]. rewrite B, mirror_rows_concat. reflexivity.
Qed.

Theorem mirror_get_section b ls position mp lc ps secs : has_lengths b ls -> b <> [] -> fine b lc ->
  beam_get_section b position mp lc = Ok (ps, secs) ->
  beam_get_section (mirror_beam b) (mirror_pos (span ls) position) mp lc = Ok (rev (map (Rminus (span ls)) ps), rev secs).
Proof.
  intros H N F E. pose proof (mirror_list_positions b ls position mp lc H N F) as M.
  unfold beam_get_section in *. destruct (beam_list_positions b position mp lc) as [locs|] eqn:El; cbn [bind] in E; [|discriminate].
  rewrite M. cbn [rmap bind]. pose proof (locs_indexed b ls position mp lc _ H El) as I.
  set (f := fun l : R * Z * R => let! e := py_index b (snd (fst l)) in Ok (esection e)) in *.
  set (g := fun l : R * Z * R => let! e := py_index (mirror_beam b) (snd (fst l)) in Ok (esection e)).
  assert (P : forall t, indexed b t -> g (mirror_loc (span ls) (List.length b) t) = f t).
  { intros [[p z] l] (i & Ei & Hi). cbn in Ei. subst z. unfold f, g, mirror_loc. cbn [fst snd].
    destruct (nth_error b i) as [e|] eqn:En; [|apply nth_error_None in En; lia].
    rewrite (py_index_nat b i e En).
    replace (Z.of_nat (List.length b) - 1 - Z.of_nat i)%Z with (Z.of_nat (List.length b - 1 - i)) by lia.
    rewrite (py_index_nat _ _ _ (mirror_nth b i e En)). reflexivity. }
  destruct (mapM f locs) as [ss|] eqn:Ef; cbn [bind] in E; [|discriminate]. injection E as <- <-.
  assert (Q : mapM g (rev (map (mirror_loc (span ls) (List.length b)) locs)) = Ok (rev ss)).
  { clear - I P Ef. revert ss Ef. induction I as [|t locs Ht I IH]; intros ss Ef.
    - cbn in Ef. injection Ef as <-. reflexivity.
    - cbn [mapM] in Ef. destruct (f t) as [s|] eqn:Es; cbn [bind] in Ef; [|discriminate].
      destruct (mapM f locs) as [ss'|]; cbn [bind] in Ef; [|discriminate]. injection Ef as <-.
      cbn [map rev]. rewrite mapM_app, (IH ss' eq_refl). cbn [bind mapM]. rewrite (P t Ht), Es. reflexivity. }
  change (mapM _ _) with (mapM g (rev (map (mirror_loc (span ls) (List.length b)) locs))).
  rewrite Q. cbn [bind]. rewrite map_rev, !map_map. reflexivity.
Qed.
End B.
