(** Proofs of the LoadCase properties. *)

From Coq Require Import ZArith Reals List Bool String Lia Lra Permutation Sorted.
From Verif Require Import Base Num RNum PyNum Numpy OrdFacts LoadCase LoadFacts LoadSpec.
Import ListNotations.

Section Gen.
Context {T : Type} {NT : Num T} {ok : T -> Prop} {NO : NumOrd T ok}.

Lemma distinct_ascending_set ps : Forall ok ps ->
  distinct_ascending ps (py_sorted (py_set ps)).
Proof.
  intros H. repeat split.
  - now apply (sorted_set_ascending (ok := ok)).
  - intros p. apply sorted_set_incl.
  - intros p. now apply (sorted_set_has (ok := ok)).
Qed.

Lemma designates_components a cs : designates a cs -> components a = Ok cs.
Proof.
  intros H. destruct H as [|c|c|c|cs]; try reflexivity; try (destruct c; reflexivity).
  cbn. induction cs as [|c cs IH]; cbn; auto. now rewrite IH.
Qed.

(** ** interpolation *)

Lemma interp_from_spec c p rs : forall l r,
  ok p -> Forall (row_ok (ok := ok)) (r :: rs) -> nltb (lpos r) p = true ->
  (forall q, In q (r :: rs) -> neqb (lpos q) p = false) ->
  interpolates (l ++ r :: rs) c p
    (interp_from p (lpos r) (lcomp c r) (map (fun r => (lpos r, lcomp c r)) rs) None).
Proof.
  induction rs as [|r2 rs IH]; intros l r Hp Hr L Hn; cbn [map interp_from].
  - rewrite L. eapply after_last; eauto.
  - pose proof (Forall_inv Hr) as [K1 _]. pose proof (Forall_inv (Forall_inv_tail Hr)) as [K2 _].
    destruct (nleb (lpos r2) p) eqn:E.
    + replace (l ++ r :: r2 :: rs) with ((l ++ [r]) ++ r2 :: rs) by now rewrite <- app_assoc.
      apply IH; auto.
      * now apply Forall_inv_tail in Hr.
      * destruct (le_lt_eqv (ok := ok) _ _ K2 Hp E) as [|F]; auto.
        unfold eqv in F. rewrite (Hn r2) in F by (cbn; auto). discriminate.
      * intros q Hq. apply Hn. cbn. cbn in Hq. tauto.
    + rewrite (Hn r) by (cbn; auto). eapply between; eauto.
      rewrite (ord_lt (ok := ok)) by auto. now rewrite E.
Qed.

Lemma interp_val_spec rows c p : ok p -> Forall (row_ok (ok := ok)) rows -> rows <> [] ->
  (forall q, In q rows -> neqb (lpos q) p = false) ->
  interpolates rows c p (interp_val rows p c).
Proof.
  intros Hp Hr N Hn. destruct rows as [|r rs]; [congruence|]. cbn [interp_val].
  pose proof (Forall_inv Hr) as [K1 _].
  destruct (nltb p (lpos r)) eqn:E.
  - eapply before_first; eauto.
  - apply (interp_from_spec c p rs [] r); auto.
    destruct (le_lt_eqv (ok := ok) (lpos r) p) as [|F]; auto.
    + destruct (le_dec (lpos r) p); auto. exfalso.
      assert (lt p (lpos r)) by now apply (lt_iff (ok := ok)). unfold lt in H. congruence.
    + unfold eqv in F. rewrite (Hn r) in F by (cbn; auto). discriminate.
Qed.

Lemma not_stored rows p : ok p -> Forall (row_ok (ok := ok)) rows ->
  py_in p (map lpos rows) = false <-> forall r, In r rows -> neqb (lpos r) p = false.
Proof.
  intros Hp Hr. rewrite py_in_false. split; intros H.
  - intros r Hq. rewrite Forall_forall in Hr. destruct (Hr r Hq).
    rewrite (neqb_sym (ok := ok)) by auto. apply H. now apply in_map.
  - intros y Hy. apply in_map_iff in Hy. destruct Hy as (r & <- & Hq).
    rewrite Forall_forall in Hr. destruct (Hr r Hq).
    rewrite (neqb_sym (ok := ok)) by auto. now apply H.
Qed.

Lemma block_spec rows cs p : ok p -> Forall (row_ok (ok := ok)) rows -> rows <> [] ->
  rows_at rows cs p (block rows cs p).
Proof.
  intros Hp Hr N. unfold block. destruct (py_in p (map lpos rows)) eqn:E.
  - unfold pick. apply at_stored. apply py_in_iff in E. destruct E as (y & Hy & E).
    apply in_map_iff in Hy. destruct Hy as (r & <- & Hq). exists r. split; auto.
    rewrite Forall_forall in Hr. destruct (Hr r Hq). apply (eqv_sym (ok := ok)); auto.
  - pose proof (proj1 (not_stored rows p Hp Hr) E) as Hn.
    rewrite <- (map_map (fun c => interp_val rows p c) Some). apply at_between; auto.
    induction cs; cbn; constructor; auto. now apply interp_val_spec.
Qed.

(** ** C02 *)

Lemma sorted_rows rows :
  StronglySorted (fun a b => nleb (lpos a) (lpos b) = true) rows -> sorted (T := T) lpos rows.
Proof. auto. Qed.

Lemma blocks_spec rows cs ps : Forall ok ps -> Forall (row_ok (ok := ok)) rows -> rows <> [] ->
  Forall2 (rows_at rows cs) ps (map (block rows cs) ps).
Proof. intros H Hr N. induction H; cbn; constructor; auto. now apply block_spec. Qed.

Lemma get_load_list qs rows ps component cs :
  argsort_ok qs -> table_ok (ok := ok) rows -> rows <> [] -> Forall ok ps -> ps <> [] ->
  components component = Ok cs -> cs <> [] ->
  get_load qs (Some rows) (PosList ps) None component
  = Ok (Some (flat_map (block rows cs) (py_sorted (py_set ps)))).
Proof.
  intros. apply get_load_blocks; auto.
  - now apply (sorted_set_ok (ok := ok)).
  - now apply (sorted_set_ascending (ok := ok)).
  - now rewrite sorted_set_nil.
Qed.

Lemma get_load_num qs rows p component cs :
  argsort_ok qs -> table_ok (ok := ok) rows -> rows <> [] -> ok p ->
  components component = Ok cs -> cs <> [] ->
  get_load qs (Some rows) (PosNum p) None component = Ok (Some (block rows cs p)).
Proof.
  intros Hq Ht N Hp Hc C.
  rewrite (get_load_blocks qs rows (PosNum p) None component [p] cs); auto; try discriminate.
  - cbn. now rewrite app_nil_r.
  - cbn. now rewrite (ord_isfloat (ok := ok)) by auto.
  - repeat constructor.
Qed.

Lemma C02_gen qs rows ps component cs :
  argsort_ok qs -> table_ok (ok := ok) rows -> rows <> [] -> Forall ok ps -> ps <> [] ->
  designates component cs -> cs <> [] ->
  exists at_ps blocks,
    distinct_ascending ps at_ps /\ Forall2 (rows_at rows cs) at_ps blocks /\
    get_load qs (Some rows) (PosList ps) None component = Ok (Some (List.concat blocks)).
Proof.
  intros Hq Ht N Hp Np Hc C. exists (py_sorted (py_set ps)), (map (block rows cs) (py_sorted (py_set ps))).
  split; [now apply distinct_ascending_set|]. split.
  - apply blocks_spec; auto; [now apply (sorted_set_ok (ok := ok))|apply Ht].
  - rewrite <- flat_map_concat_map. apply get_load_list; auto. now apply designates_components.
Qed.

(** Nothing depends on how numpy breaks ties. *)
Lemma tie_independent qs1 qs2 rows position mp component sp :
  argsort_ok qs1 -> argsort_ok qs2 -> table_ok (ok := ok) rows ->
  list_positions (Some rows) mp position = Ok sp -> Forall ok sp -> ascending sp ->
  get_load qs1 (Some rows) position mp component = get_load qs2 (Some rows) position mp component.
Proof.
  intros Q1 Q2 Ht Hl Hs A.
  destruct sp as [|s0 sp'] eqn:Es.
  { unfold get_load. rewrite Hl. cbn. destruct (components component); auto. }
  destruct (components component) as [cs|e] eqn:Ec.
  2:{ unfold get_load. rewrite Hl. cbn. now rewrite Ec. }
  destruct rows as [|r0 rows'] eqn:Er.
  { unfold get_load. rewrite Hl. cbn [bind]. rewrite Ec. cbn [bind map].
    destruct (array_equal _ _); auto. rewrite <- Es.
    assert (F : filter (fun p : T => py_in p []) sp = []) by (apply filter_none; auto).
    now rewrite F. }
  destruct cs as [|c0 cs'] eqn:Eq.
  { unfold get_load. rewrite Hl. cbn [bind]. rewrite Ec. cbn [bind].
    destruct (array_equal _ _); auto.
    destruct (filter (fun p => negb (py_in p (map lpos (r0 :: rows')))) (s0 :: sp')); auto. }
  rewrite !(get_load_blocks _ (r0 :: rows') position mp component (s0 :: sp') (c0 :: cs'));
    auto; discriminate.
Qed.

(** ** C08: selecting components *)

Lemma block_select rows cs p c d : In c cs ->
  (forall X (f : comp -> X), d X (map f cs) = Some (f c)) ->
  block rows [c] p = map (fun o => (fst o, match d _ (snd o) with Some v => [v] | None => [] end))
                         (block rows cs p).
Proof.
  intros Hc Hd. unfold block. destruct (py_in p (map lpos rows)).
  - rewrite map_map. apply map_ext. intros r. unfold pick. cbn. now rewrite Hd.
  - cbn. now rewrite Hd.
Qed.
End Gen.

(** ** Over the reals *)
Open Scope R_scope.

Lemma R_row_ok r : row_ok (ok := Rok) r.
Proof. split; [exact I|]. intros. reflexivity. Qed.
Lemma R_rows_ok rows : Forall (row_ok (ok := Rok)) rows.
Proof. apply Forall_forall. intros. apply R_row_ok. Qed.
Lemma R_ok ps : Forall Rok ps.
Proof. apply Forall_forall. intros. exact I. Qed.

Lemma np_table_id (rows : list (lrow R)) : np_table rows = rows.
Proof.
  unfold np_table. destruct (existsb _ rows); auto.
  rewrite <- (map_id rows) at 2. apply map_ext. intros []. reflexivity.
Qed.

Lemma np_array_id (l : list R) : np_array l = l.
Proof. unfold np_array. destruct (existsb nisfloat l); auto. cbn. apply map_id. Qed.

Lemma diffs_sorted (rows : list (lrow R)) :
  forallb (fun d => nleb (nint 0) d) (np_diff (map lpos rows)) = true <->
  StronglySorted (fun a b => lpos a <= lpos b) rows.
Proof.
  split.
  - intros H. apply Sorted_StronglySorted; [intros x y z; apply Rle_trans|].
    induction rows as [|a rows IH]; constructor.
    + apply IH. destruct rows; auto. cbn in H. apply andb_true_iff in H. apply H.
    + destruct rows as [|b rows]; constructor. cbn in H. apply andb_true_iff in H.
      destruct H as [H _]. apply Rleb_true in H. lra.
  - intros H. apply StronglySorted_Sorted in H.
    induction H as [|a rows H IH F]; auto. destruct rows as [|b rows]; auto.
    inversion F; subst. change (map lpos (a :: b :: rows)) with (lpos a :: map lpos (b :: rows)).
    cbn [map np_diff forallb] in *. apply andb_true_iff. split; auto.
    apply Rleb_true. cbn. lra.
Qed.

Lemma range_ok (rows : list (lrow R)) :
  forallb (fun p => nleb p (nflt 1 1)) (map lpos rows)
  && forallb (fun p => nleb (nflt 0 1) p) (map lpos rows) = true <->
  Forall (fun r => 0 <= lpos r <= 1) rows.
Proof.
  rewrite andb_true_iff, !forallb_forall, Forall_forall. cbn.
  split; [intros [H1 H2] r Hr|intros H; split; intros p Hp].
  - specialize (H1 (lpos r) (in_map _ _ _ Hr)). specialize (H2 (lpos r) (in_map _ _ _ Hr)).
    apply Rleb_true in H1, H2. lra.
  - apply in_map_iff in Hp. destruct Hp as (r & <- & Hr). apply Rleb_true. specialize (H r Hr). lra.
  - apply in_map_iff in Hp. destruct Hp as (r & <- & Hr). apply Rleb_true. specialize (H r Hr). lra.
Qed.

Lemma check_ok rows lc : check_positions rows = Ok lc <-> well_formed rows /\ lc = Some rows.
Proof.
  unfold check_positions, well_formed.
  destruct (forallb (fun d => nleb (nint 0) d) (np_diff (map lpos rows))) eqn:E1; cbn [negb].
  - apply diffs_sorted in E1.
    destruct (forallb (fun p => nleb p (nflt 1 1)) (map lpos rows)
              && forallb (fun p => nleb (nflt 0 1) p) (map lpos rows)) eqn:E2; cbn [negb].
    + apply range_ok in E2. split; [intros [= <-]|intros (_ & ->)]; auto.
    + split; [discriminate|]. intros ((_ & H) & _). apply range_ok in H. congruence.
  - split; [discriminate|]. intros ((H & _) & _). apply diffs_sorted in H. congruence.
Qed.

Lemma check_err rows : ~ well_formed rows -> check_positions rows = Err AssertionError.
Proof.
  intros H. destruct (check_positions rows) as [lc|e] eqn:E.
  - apply check_ok in E. tauto.
  - unfold check_positions in E. destruct (negb _); [congruence|]. destruct (negb _); congruence.
Qed.

Lemma row_of_list_iff {T} (l : list T) r : row_of_list l = Some r <-> l = seven r.
Proof.
  split.
  - intros H. do 8 (destruct l as [|? l]; try discriminate). cbn in H. injection H as <-. reflexivity.
  - intros ->. destruct r. reflexivity.
Qed.

Lemma rows_of_lists_iff {T} (ls : list (list T)) : forall rs,
  rows_of_lists ls = Some rs <-> ls = map seven rs.
Proof.
  induction ls as [|l ls IH]; intros rs; cbn.
  - split; [intros [= <-]; auto|]. intros H. symmetry in H. apply map_eq_nil in H. now subst.
  - destruct (row_of_list l) as [r|] eqn:E1.
    + apply row_of_list_iff in E1. destruct (rows_of_lists ls) as [xs|] eqn:E2.
      * split.
        -- intros [= <-]. cbn. f_equal; auto. now apply IH.
        -- destruct rs as [|a rs]; cbn; [discriminate|]. intros [= H1 H2].
           apply IH in H2. injection H2 as ->. do 2 f_equal.
           subst l. destruct r, a. cbn in H1. injection H1. congruence.
      * split; [discriminate|]. destruct rs as [|a rs]; cbn; [discriminate|]. intros [= H1 H2].
        apply IH in H2. discriminate.
    + split; [discriminate|]. destruct rs as [|a rs]; cbn; [discriminate|]. intros [= H1 H2].
      apply row_of_list_iff in H1. congruence.
Qed.

Lemma seven_width {T} (rs : list (lrow T)) (l0 : list T) :
  List.length l0 = 7%nat ->
  forallb (fun l => Nat.eqb (List.length l) (List.length l0)) (map seven rs) = true.
Proof. intros H. apply forallb_forall. intros l Hl. apply in_map_iff in Hl. destruct Hl as (r & <- & _). rewrite H. reflexivity. Qed.

Lemma C01_accept inp lc :
  load_case inp = Ok lc <->
  (inp = InNone /\ lc = None) \/
  (exists rows, table_of inp rows /\ well_formed rows /\ lc = Some rows).
Proof.
  split.
  - intros H. destruct inp as [|x|l|[|l0 ls]|k]; cbn [load_case] in H; try discriminate.
    + left. injection H as <-. auto.
    + right. destruct (row_of_list l) as [r|] eqn:E; [|discriminate].
      rewrite np_table_id in H. apply check_ok in H. apply row_of_list_iff in E. subst l.
      exists [r]. split; [constructor|tauto].
    + right. destruct (forallb _ ls) eqn:F.
      * destruct (rows_of_lists (l0 :: ls)) as [rs|] eqn:E; [|discriminate].
        rewrite np_table_id in H. apply check_ok in H. apply rows_of_lists_iff in E.
        destruct rs as [|r rs]; [discriminate|]. exists (r :: rs). rewrite E. split; [constructor|tauto].
      * destruct (Nat.eqb _ 7); discriminate.
    + right. destruct (Nat.eqb k 7) eqn:E; [|discriminate]. apply Nat.eqb_eq in E. subst k.
      injection H as <-. exists []. repeat split; constructor.
  - intros [[-> ->]|(rows & Ht & Hw & ->)]; [reflexivity|].
    destruct Ht as [r|r rs|].
    + cbn [load_case]. rewrite (proj2 (row_of_list_iff (seven r) r) eq_refl), np_table_id.
      now apply check_ok.
    + cbn [load_case map].
      rewrite (seven_width rs (seven r) eq_refl).
      change (seven r :: map seven rs) with (map seven (r :: rs)).
      rewrite (proj2 (rows_of_lists_iff (map seven (r :: rs)) (r :: rs)) eq_refl), np_table_id.
      now apply check_ok.
    + reflexivity.
Qed.

Lemma C01_bad_positions inp rows :
  table_of inp rows -> ~ well_formed rows -> load_case inp = Err AssertionError.
Proof.
  intros Ht Hw. destruct Ht as [r|r rs|].
  - cbn [load_case]. rewrite (proj2 (row_of_list_iff (seven r) r) eq_refl), np_table_id.
    now apply check_err.
  - cbn [load_case map]. rewrite (seven_width rs (seven r) eq_refl).
    change (seven r :: map seven rs) with (map seven (r :: rs)).
    rewrite (proj2 (rows_of_lists_iff (map seven (r :: rs)) (r :: rs)) eq_refl), np_table_id.
    now apply check_err.
  - exfalso. apply Hw. split; constructor.
Qed.

Lemma C01_bad_width (inp : load_input R) : wrong_width inp -> load_case inp = Err LoadCaseError.
Proof.
  intros [l H|k l ls H F| |k H]; cbn [load_case]; auto.
  - destruct (row_of_list l) as [r|] eqn:E; auto. apply row_of_list_iff in E. subst l. now cbn in H.
  - pose proof (Forall_inv F) as Fl. apply Forall_inv_tail in F.
    assert (G : forallb (fun x => Nat.eqb (List.length x) (List.length l)) ls = true).
    { apply forallb_forall. intros x Hx. rewrite Forall_forall in F. rewrite (F x Hx).
      rewrite Fl. apply Nat.eqb_refl. }
    rewrite G. destruct (rows_of_lists (l :: ls)) as [rs|] eqn:E; auto.
    apply rows_of_lists_iff in E. destruct rs as [|r rs]; [discriminate|].
    cbn in E. injection E as -> _. cbn in Fl. congruence.
  - destruct (Nat.eqb k 7) eqn:E; auto. apply Nat.eqb_eq in E. contradiction.
Qed.

Lemma accepted_rows rows : accepted (Some rows) <-> well_formed rows.
Proof.
  split.
  - intros (inp & H). apply C01_accept in H. destruct H as [[_ H]|(r & _ & H & E)]; [discriminate|].
    injection E as ->. auto.
  - intros H. destruct rows as [|r rs].
    + exists (InEmpty 7). reflexivity.
    + exists (InRows (map seven (r :: rs))). apply C01_accept. right. exists (r :: rs).
      split; [constructor|auto].
Qed.

Lemma wf_table rows : well_formed rows -> table_ok (ok := Rok) rows.
Proof.
  intros [H _]. split; [apply R_rows_ok|]. unfold sorted, le.
  induction H as [|a l H IH F]; constructor; auto.
  rewrite Forall_forall in *. intros b Hb. cbn. apply Rleb_true. auto.
Qed.

Lemma C02_real qs rows ps component cs :
  any_argsort qs -> accepted (Some rows) -> rows <> [] -> ps <> [] ->
  designates component cs -> cs <> [] ->
  exists at_ps blocks,
    distinct_ascending ps at_ps /\ Forall2 (rows_at rows cs) at_ps blocks /\
    get_load qs (Some rows) (PosList ps) None component = Ok (Some (List.concat blocks)).
Proof.
  intros. apply (C02_gen (ok := Rok)); auto.
  - apply wf_table. now apply accepted_rows.
  - apply R_ok.
Qed.

(** ** C03 *)
Lemma sorted_set_same (ps ps' : list R) : (forall p, In p ps <-> In p ps') ->
  py_sorted (py_set ps) = py_sorted (py_set ps').
Proof.
  intros H.
  assert (A : forall l : list R, ascending (py_sorted (py_set l))) by (intros; apply (sorted_set_ascending (ok := Rok)), R_ok).
  assert (I : forall (l : list R) x, In x (py_sorted (py_set l)) <-> In x l).
  { intros l x. split; [apply sorted_set_incl|].
    intros Hx. destruct (sorted_set_has (ok := Rok) l x (R_ok l) Hx) as (y & Hy & E).
    apply Reqb_true in E. now subst. }
  assert (F : forall l m : list R, ascending l -> ascending m -> (forall x, In x l <-> In x m) -> l = m).
  { clear. unfold ascending, lt. cbn. induction l as [|a l IH]; intros m Hl Hm E.
    - destruct m as [|b m]; auto. exfalso. apply (E b). now left.
    - destruct m as [|b m]; [exfalso; apply (E a); now left|].
      apply StronglySorted_inv in Hl, Hm. destruct Hl as [Hl Fl], Hm as [Hm Fm].
      rewrite Forall_forall in Fl, Fm.
      assert (Fl' : forall x, In x l -> a < x) by (intros; apply Rltb_true; auto).
      assert (Fm' : forall x, In x m -> b < x) by (intros; apply Rltb_true; auto).
      assert (a = b).
      { assert (Ha : In a (b :: m)) by (apply E; now left).
        assert (Hb : In b (a :: l)) by (apply E; now left).
        destruct Ha as [|Ha]; auto. destruct Hb as [|Hb]; auto.
        apply Fm' in Ha. apply Fl' in Hb. lra. }
      subst b. f_equal. apply IH; auto. intros x. split; intros Hx.
      + assert (In x (a :: m)) by (apply E; now right). destruct H; auto. subst x.
        apply Fl' in Hx. lra.
      + assert (In x (a :: l)) by (apply E; now right). destruct H; auto. subst x.
        apply Fm' in Hx. lra. }
  apply F; auto. intros x. rewrite !I. apply H.
Qed.

Lemma C03_real qs lc ps ps' component : (forall p : R, In p ps <-> In p ps') ->
  get_load qs lc (PosList ps) None component = get_load qs lc (PosList ps') None component.
Proof.
  intros H. unfold get_load, list_positions. now rewrite (sorted_set_same ps ps' H).
Qed.

Lemma C03_ties qs1 qs2 rows ps component :
  any_argsort qs1 -> any_argsort qs2 -> accepted (Some rows) ->
  get_load qs1 (Some rows) (PosList ps) None component
  = get_load qs2 (Some rows) (PosList ps) None component.
Proof.
  intros. apply (tie_independent (ok := Rok)) with (sp := py_sorted (py_set ps)); auto.
  - apply wf_table. now apply accepted_rows.
  - apply R_ok.
  - apply (sorted_set_ascending (ok := Rok)), R_ok.
Qed.

(** ** C04 *)

Lemma interp_stored_from p c rs : forall r,
  StronglySorted (fun a b => lpos a <= lpos b) (r :: rs) -> lpos r <= p ->
  List.length (filter (fun q => neqb (lpos q) p) (r :: rs)) = 1%nat ->
  exists q, filter (fun q => neqb (lpos q) p) (r :: rs) = [q] /\
  interp_from p (lpos r) (lcomp c r) (map (fun r => (lpos r, lcomp c r)) rs) None = lcomp c q.
Proof.
  induction rs as [|r2 rs IH]; intros r S L H; cbn [map interp_from].
  - exists r. cbn in H |- *. destruct (Reqb (lpos r) p) eqn:E; [|discriminate].
    apply Reqb_true in E. unfold Rltb. destruct (Rlt_dec (lpos r) p); split; auto; lra.
  - apply StronglySorted_inv in S. destruct S as [S F]. pose proof (Forall_inv F) as L2.
    cbn beta in L2. cbn [nleb RNum]. destruct (Rleb (lpos r2) p) eqn:E2.
    + apply Rleb_true in E2. destruct (Reqb (lpos r) p) eqn:E1.
      * apply Reqb_true in E1. assert (lpos r2 = p) by lra. exfalso. cbn in H.
        rewrite (proj2 (Reqb_true _ _) E1), (proj2 (Reqb_true _ _) H0) in H. cbn in H. lia.
      * cbn in H |- *. rewrite E1 in *. apply IH; auto.
    + apply Rleb_false in E2.
      assert (Z : filter (fun q : lrow R => neqb (lpos q) p) (r2 :: rs) = []).
      { apply filter_none. intros q Hq. apply Reqb_false. apply StronglySorted_inv in S.
        destruct S as [S F2]. rewrite Forall_forall in F2. destruct Hq as [<-|Hq]; [lra|].
        specialize (F2 q Hq). lra. }
      change (filter (fun q => neqb (lpos q) p) (r :: r2 :: rs))
        with (if neqb (lpos r) p then r :: filter (fun q => neqb (lpos q) p) (r2 :: rs)
              else filter (fun q => neqb (lpos q) p) (r2 :: rs)) in *.
      rewrite Z in *. destruct (neqb (lpos r) p) eqn:E1; [|discriminate].
      exists r. split; auto.
Qed.

Lemma interp_stored rows p c : well_formed rows ->
  List.length (filter (fun q => neqb (lpos q) p) rows) = 1%nat ->
  exists q, filter (fun q => neqb (lpos q) p) rows = [q] /\ interp_val rows p c = lcomp c q.
Proof.
  intros [S _] H. destruct rows as [|r rs]; [discriminate|]. cbn [interp_val].
  cbn [nltb RNum]. destruct (Rltb p (lpos r)) eqn:E.
  - apply Rltb_true in E. exfalso.
    assert (Z : filter (fun q : lrow R => neqb (lpos q) p) (r :: rs) = []).
    { apply filter_none. intros q Hq. apply Reqb_false. apply StronglySorted_inv in S.
      destruct S as [S F2]. rewrite Forall_forall in F2. destruct Hq as [<-|Hq]; [lra|].
      specialize (F2 q Hq). lra. }
    rewrite Z in H. discriminate.
  - apply Rltb_false in E. now apply interp_stored_from.
Qed.

Lemma filter_sym (rows : list (lrow R)) p :
  filter (fun r => neqb p (lpos r)) rows = filter (fun r => neqb (lpos r) p) rows.
Proof.
  apply filter_ext. intros r. apply (neqb_sym (ok := Rok)); exact I.
Qed.

(** Column [c] of the block, as the reference routine computes it. *)
Lemma single_component_block rows p c : well_formed rows -> rows <> [] ->
  single_component (Some rows) p (CEnum c) = Ok (map (fun o => nth 0 (snd o) None) (block rows [c] p)).
Proof.
  intros Hw N. unfold single_component, block. cbn [bind].
  destruct rows as [|r [|r2 rs]]; [congruence| |].
  - cbn. destruct (Reqb p (lpos r)) eqn:E; cbn.
    + apply Reqb_true in E. subst p. rewrite Reqb_refl. reflexivity.
    + do 3 f_equal. unfold Rltb. destruct (Rlt_dec p (lpos r)), (Rlt_dec (lpos r) p); auto.
  - rewrite filter_sym. set (rows := r :: r2 :: rs) in *.
    destruct (Nat.ltb 1 (List.length (filter (fun r => neqb (lpos r) p) rows))) eqn:E.
    + assert (py_in p (map lpos rows) = true) as ->.
      { destruct (py_in p (map lpos rows)) eqn:F; auto.
        pose proof (proj1 (not_stored (ok := Rok) rows p I (R_rows_ok rows)) F) as G.
        rewrite filter_none in E by auto. discriminate. }
      f_equal. rewrite map_map. reflexivity.
    + rewrite (interp1_value (ok := Rok)) by (auto using R_rows_ok; exact I). cbn [bind].
      destruct (py_in p (map lpos rows)) eqn:F; [|reflexivity].
      apply Nat.ltb_ge in E.
      assert (List.length (filter (fun q => neqb (lpos q) p) rows) = 1%nat).
      { apply py_in_iff in F. destruct F as (y & Hy & F). apply in_map_iff in Hy.
        destruct Hy as (q & <- & Hq).
        assert (In q (filter (fun q => neqb (lpos q) p) rows)).
        { apply filter_In. split; auto. apply (eqv_sym (ok := Rok)); auto; exact I. }
        destruct (filter (fun q => neqb (lpos q) p) rows); [contradiction|]. cbn in *. lia. }
      destruct (interp_stored rows p c Hw H) as (q & -> & ->). reflexivity.
Qed.

Lemma block_len (rows : list (lrow R)) cs cs' p : List.length (block rows cs p) = List.length (block rows cs' p).
Proof. unfold block. destruct (py_in p (map lpos rows)); auto. now rewrite !map_length. Qed.

Lemma nth_map_ext {A B} (f : nat -> B) (g : A -> B) l d :
  (forall i, (i < List.length l)%nat -> f i = g (nth i l d)) -> map f (seq 0 (List.length l)) = map g l.
Proof.
  intros H. apply nth_ext with (d := f 0%nat) (d' := g d).
  - now rewrite !map_length, seq_length.
  - intros n Hn. rewrite map_length, seq_length in Hn.
    rewrite (map_nth f), (map_nth g), seq_nth by auto. now apply H.
Qed.

Lemma block_row (rows : list (lrow R)) cs p i : (i < List.length (block rows cs p))%nat ->
  nth i (block rows cs p) (p, []) =
  (p, map (fun c => nth i (map (fun o => nth 0 (snd o) None) (block rows [c] p)) None) cs).
Proof.
  intros Hi. unfold block in *. destruct (py_in p (map lpos rows)) eqn:E.
  - rewrite map_length in Hi.
    set (l := filter (fun r => neqb (lpos r) p) rows) in *.
    destruct (nth_error l i) as [r|] eqn:En; [|apply nth_error_None in En; lia].
    assert (Hp : lpos r = p).
    { apply nth_error_In in En. apply filter_In in En. destruct En as [_ En]. now apply Reqb_true in En. }
    rewrite (nth_error_nth (map (pick cs) l) i (p, []) (x := pick cs r)) by now apply map_nth_error.
    unfold pick at 1. f_equal; auto. apply map_ext. intros c.
    rewrite map_map. symmetry. apply nth_error_nth with (x := Some (lcomp c r)).
    now rewrite (map_nth_error _ i l En).
  - cbn in Hi. assert (i = 0)%nat by lia. subst i. reflexivity.
Qed.

Lemma single_position_block rows p a cs : well_formed rows -> rows <> [] -> 0 <= p <= 1 ->
  designates a cs -> (forall l, a <> CList l) ->
  single_position (Some rows) p a = Ok (block rows cs p).
Proof.
  intros Hw N Hp Hd Hl. unfold single_position.
  assert (nleb (nint 0) p && nleb p (nflt 1 1) = true) as ->.
  { cbn. apply andb_true_iff. split; apply Rleb_true; lra. }
  set (col := fun c => map (fun o => nth 0 (snd o) None) (block rows [c] p)).
  assert (E : (match a with
      | CNone => mapM (fun c => single_component (Some rows) p (CEnum c)) all_comps
      | _ => let! c := single_component (Some rows) p a in Ok [c]
      end) = Ok (map col cs)).
  { destruct Hd as [|c|c|c|]; [| | | |now exfalso; eapply Hl].
    - rewrite (mapM_ok _ col); auto. intros c _. now apply single_component_block.
    - rewrite single_component_block by auto. reflexivity.
    - replace (single_component (Some rows) p (CStr (comp_name c)))
        with (single_component (Some rows) p (CEnum c)) by (destruct c; reflexivity).
      rewrite single_component_block by auto. reflexivity.
    - replace (single_component (Some rows) p (CInt (comp_number c)))
        with (single_component (Some rows) p (CEnum c)) by (destruct c; reflexivity).
      rewrite single_component_block by auto. reflexivity. }
  rewrite E. cbn [bind]. cbv zeta. apply (f_equal (@Ok (list (orow R)))).
  assert (Hcs : exists c cs', cs = c :: cs').
  { destruct Hd; eauto. now exfalso; eapply Hl. }
  destruct Hcs as (c0 & cs' & Ecs).
  assert (EL : List.length (hd [] (map col cs)) = List.length (block rows cs p)).
  { rewrite Ecs. cbn. unfold col. rewrite map_length. apply block_len. }
  rewrite EL. rewrite <- (map_id (block rows cs p)) at 2.
  apply nth_map_ext with (d := (p, [])). intros i Hi. rewrite block_row by auto.
  f_equal. rewrite map_map. reflexivity.
Qed.

Lemma C04_real qs rows ps a cs :
  any_argsort qs -> accepted (Some rows) -> rows <> [] -> ps <> [] ->
  designates a cs -> cs <> [] ->
  exists at_ps blocks,
    distinct_ascending ps at_ps /\
    get_load qs (Some rows) (PosList ps) None a = Ok (Some (List.concat blocks)) /\
    Forall2 (fun p b => get_load qs (Some rows) (PosNum p) None a = Ok (Some b)) at_ps blocks /\
    Forall2 (fun p b => 0 <= p <= 1 -> (forall l, a <> CList l) ->
                        single_position (Some rows) p a = Ok b) at_ps blocks.
Proof.
  intros Hq Ha N Np Hd C. apply accepted_rows in Ha.
  exists (py_sorted (py_set ps)), (map (block rows cs) (py_sorted (py_set ps))).
  split; [apply (distinct_ascending_set (ok := Rok)), R_ok|]. split.
  - rewrite <- flat_map_concat_map. apply (get_load_list (ok := Rok)); auto using wf_table, R_ok.
    now apply designates_components.
  - split.
    + induction (py_sorted (py_set ps)); cbn [map]; constructor; auto.
      apply (get_load_num (ok := Rok)); auto using wf_table, designates_components. exact I.
    + induction (py_sorted (py_set ps)); cbn [map]; constructor; auto.
      intros. now apply single_position_block.
Qed.

(** ** One description of get_load over the reals *)

Lemma linspace_01 n : (0 <= n)%Z ->
  linspace (T := R) (nflt 0 1) (nflt 1 1) n =
  Ok (map (fun i => if (n =? 1)%Z then 0 else INR i / (IZR n - 1)) (seq 0 (Z.to_nat n))).
Proof.
  intros Hn. unfold linspace. destruct (n <? 0)%Z eqn:E0; [apply Z.ltb_lt in E0; lia|].
  f_equal. destruct (1 <? n)%Z eqn:E1.
  - apply Z.ltb_lt in E1.
    assert (N1 : (n =? 1)%Z = false) by (apply Z.eqb_neq; lia). rewrite N1.
    assert (Hp : 0 < IZR n - 1) by (apply IZR_lt in E1; lra).
    assert (L : seq 0 (Z.to_nat n) = seq 0 (Z.to_nat n - 1) ++ [(Z.to_nat n - 1)%nat]).
    { replace (Z.to_nat n) with (S (Z.to_nat n - 1)) at 1 by lia. rewrite seq_S. reflexivity. }
    rewrite L, map_app. f_equal.
    + apply map_ext. intros i. unfold lin_entry. rewrite (proj2 (Z.ltb_lt 1 n) E1).
      cbn [nadd nmul ndiv nsub nfloat nint nflt neqb RNum].
      rewrite minus_IZR, <- INR_IZR_INZ.
      destruct (Reqb _ _) eqn:E.
      * apply Reqb_true in E. exfalso. assert (0 < (1 / 1 - 0 / 1) / (IZR n - 1)); [|lra].
        apply Rdiv_lt_0_compat; lra.
      * field. lra.
    + cbn. f_equal. rewrite INR_IZR_INZ. rewrite Nat2Z.inj_sub by lia.
      rewrite Z2Nat.id by lia. change (Z.of_nat 1) with 1%Z. rewrite minus_IZR. field. lra.
  - apply Z.ltb_ge in E1. assert (n = 0 \/ n = 1)%Z as [->| ->] by lia; [reflexivity|].
    change (Z.to_nat 1) with 1%nat. cbn [seq map]. f_equal. unfold lin_entry. cbn. field.
Qed.

Lemma list_positions_asc (lc : lcase R) mp position sp :
  list_positions lc mp position = Ok sp -> ascending sp.
Proof.
  unfold list_positions. intros H.
  destruct position as [|x|l], mp as [n|]; try discriminate.
  - destruct lc as [rows|]; [|discriminate]. cbn [load_positions bind] in H.
    destruct (linspace _ _ n) as [lin|]; [|discriminate]. cbn [bind] in H.
    destruct (Z.of_nat _ <? n)%Z; [discriminate|]. injection H as <-.
    replace (set_update (py_set (map lpos rows)) lin) with (py_set (map lpos rows ++ lin)).
    + apply (sorted_set_ascending (ok := Rok)), R_ok.
    + unfold py_set, set_update. now rewrite fold_left_app.
  - cbn in H. injection H as <-. repeat constructor.
  - injection H as <-. apply (sorted_set_ascending (ok := Rok)), R_ok.
Qed.

(** The result of every query on a non-empty table. *)
Lemma get_load_R qs rows position mp a cs :
  any_argsort qs -> well_formed rows -> rows <> [] -> components a = Ok cs -> cs <> [] ->
  get_load qs (Some rows) position mp a =
  match list_positions (Some rows) mp position with
  | Err e => Err e
  | Ok [] => Ok None
  | Ok sp => Ok (Some (flat_map (block rows cs) sp))
  end.
Proof.
  intros Hq Hw N Hc C. destruct (list_positions (Some rows) mp position) as [sp|e] eqn:E.
  - destruct sp as [|p sp].
    + unfold get_load. rewrite E. cbn [bind filter]. rewrite Hc. cbn [bind].
      destruct (np_unique (map lpos rows)) eqn:U; auto.
      apply (proj1 (sorted_set_nil (map lpos rows))) in U. apply map_eq_nil in U. contradiction.
    + apply (get_load_blocks (ok := Rok)); auto using wf_table, R_ok; try discriminate.
      eapply list_positions_asc; eauto.
  - unfold get_load. rewrite E. reflexivity.
Qed.

(** ** C05 *)


Lemma chord x1 x2 y1 y2 p : x1 < p < x2 ->
  let v := (y2 - y1) / (x2 - x1) * (p - x1) + y1 in
  Rmin y1 y2 <= v <= Rmax y1 y2 /\ (v - y1) * (x2 - x1) = (y2 - y1) * (p - x1).
Proof.
  intros H v.
  set (t := (p - x1) / (x2 - x1)).
  assert (Ht : t * (x2 - x1) = p - x1) by (unfold t; field; lra).
  assert (0 < t) by (unfold t; apply Rdiv_lt_0_compat; lra).
  assert (t < 1) by nra.
  assert (Hv : v = (y2 - y1) * t + y1) by (unfold v, t; field; lra).
  split; [|rewrite Hv, <- Ht; ring].
  rewrite Hv. unfold Rmin, Rmax. destruct (Rle_dec y1 y2); nra.
Qed.

Lemma interpolates_enclosed rows c p v :
  interpolates rows c p v -> enclosed rows c v.
Proof.
  intros [r rs E _|rs r E _|l r1 r2 l' E L1 L2].
  - split; exists r; subst; split; cbn; auto; lra.
  - split; exists r; subst; split; auto using in_elt; try lra; apply in_or_app; cbn; auto.
  - cbn in L1, L2. apply Rltb_true in L1, L2.
    destruct (chord (lpos r1) (lpos r2) (lcomp c r1) (lcomp c r2) p (conj L1 L2)) as [[H1 H2] _].
    cbn. assert (I1 : In r1 rows) by (subst; apply in_or_app; cbn; auto).
    assert (I2 : In r2 rows) by (subst; apply in_or_app; cbn; auto).
    revert H1 H2. unfold Rmin, Rmax. destruct (Rle_dec (lcomp c r1) (lcomp c r2)); intros.
    + split; [exists r1|exists r2]; auto.
    + split; [exists r2|exists r1]; auto.
Qed.

Lemma block_enclosed (rows : list (lrow R)) cs p o i c cell : rows <> [] ->
  In o (block rows cs p) -> nth_error cs i = Some c -> nth_error (snd o) i = Some cell ->
  exists v, cell = Some v /\ enclosed rows c v.
Proof.
  intros N Ho Hc Hcell. unfold block in Ho. destruct (py_in p (map lpos rows)) eqn:E.
  - apply in_map_iff in Ho. destruct Ho as (r & <- & Hr). apply filter_In in Hr.
    cbn in Hcell. rewrite (map_nth_error _ i cs Hc) in Hcell. injection Hcell as <-.
    exists (load_of c r). split; auto. split; exists r; split; try tauto; lra.
  - destruct Ho as [<-|[]]. cbn in Hcell. rewrite (map_nth_error _ i cs Hc) in Hcell.
    injection Hcell as <-. exists (interp_val rows p c). split; auto.
    apply interpolates_enclosed with p.
    apply (interp_val_spec (ok := Rok)); auto using R_rows_ok; [exact I|].
    apply (not_stored (ok := Rok)); auto using R_rows_ok. exact I.
Qed.

Lemma C05_real qs rows position mp a cs out o i c cell :
  any_argsort qs -> accepted (Some rows) -> rows <> [] -> designates a cs ->
  get_load qs (Some rows) position mp a = Ok (Some out) ->
  In o out -> nth_error cs i = Some c -> nth_error (snd o) i = Some cell ->
  exists v, cell = Some v /\ enclosed rows c v.
Proof.
  intros Hq Ha N Hd H Ho Hc Hcell. apply accepted_rows in Ha.
  rewrite (get_load_R qs rows position mp a cs) in H; auto using designates_components.
  2:{ destruct cs; [destruct i; discriminate|discriminate]. }
  destruct (list_positions (Some rows) mp position) as [[|p sp]|e]; try discriminate.
  injection H as <-. change (In o (flat_map (block rows cs) (p :: sp))) in Ho. apply in_flat_map in Ho. destruct Ho as (q & _ & Ho).
  eapply block_enclosed; eauto.
Qed.

Lemma interp_skip p c l : forall r r1 r2 l',
  StronglySorted (fun a b => lpos a <= lpos b) (r :: l ++ r1 :: r2 :: l') ->
  lpos r1 < p < lpos r2 ->
  interp_from p (lpos r) (lcomp c r)
    (map (fun r => (lpos r, lcomp c r)) (l ++ r1 :: r2 :: l')) None
  = (lcomp c r2 - lcomp c r1) / (lpos r2 - lpos r1) * (p - lpos r1) + lcomp c r1.
Proof.
  induction l as [|q l IH]; intros r r1 r2 l' S Hp.
  - cbn. unfold Rleb. destruct (Rle_dec (lpos r1) p); [|lra].
    destruct (Rle_dec (lpos r2) p); [lra|]. unfold Reqb. destruct (Req_EM_T (lpos r1) p); [lra|]. auto.
  - cbn [app map interp_from]. apply StronglySorted_inv in S. destruct S as [S F].
    assert (L : lpos q <= lpos r1).
    { apply StronglySorted_inv in S. destruct S as [S F2]. rewrite Forall_forall in F2.
      apply F2. apply in_or_app. cbn. auto. }
    cbn [nleb RNum]. unfold Rleb. destruct (Rle_dec (lpos q) p); [|lra]. now apply IH.
Qed.

Lemma interp_between rows l r1 r2 l' p c : well_formed rows -> rows = l ++ r1 :: r2 :: l' ->
  lpos r1 < p < lpos r2 ->
  interp_val rows p c
  = (lcomp c r2 - lcomp c r1) / (lpos r2 - lpos r1) * (p - lpos r1) + lcomp c r1.
Proof.
  intros [S _] -> Hp. destruct l as [|r l].
  - cbn. unfold Rltb. destruct (Rlt_dec p (lpos r1)); [lra|].
    unfold Rleb. destruct (Rle_dec (lpos r2) p); [lra|].
    unfold Reqb. destruct (Req_EM_T (lpos r1) p); [lra|]. auto.
  - cbn [app interp_val]. assert (L : lpos r <= lpos r1).
    { cbn [app] in S. apply StronglySorted_inv in S. destruct S as [S F2]. rewrite Forall_forall in F2.
      apply F2. apply in_or_app. cbn. auto. }
    cbn [nltb RNum]. unfold Rltb. destruct (Rlt_dec p (lpos r)); [lra|]. now apply interp_skip.
Qed.

Lemma between_not_stored rows l r1 r2 l' p : well_formed rows -> rows = l ++ r1 :: r2 :: l' ->
  lpos r1 < p < lpos r2 -> py_in p (map lpos rows) = false.
Proof.
  intros [S _] -> Hp. apply (not_stored (ok := Rok)); auto using R_rows_ok; [exact I|].
  intros r Hr. apply Reqb_false.
  apply in_app_or in Hr. destruct Hr as [Hr|Hr].
  - assert (lpos r <= lpos r1); [|lra].
    induction l as [|q l IH]; [contradiction|]. cbn [app] in S. apply StronglySorted_inv in S.
    destruct S as [S F]. destruct Hr as [<-|Hr]; auto. rewrite Forall_forall in F. apply F.
    apply in_or_app. cbn. auto.
  - destruct Hr as [<-|Hr]; [lra|].
    assert (S2 : StronglySorted (fun a b => lpos a <= lpos b) (r2 :: l')).
    { clear -S. induction l; cbn [app] in S; apply StronglySorted_inv in S; destruct S as [S _]; auto. }
    apply StronglySorted_inv in S2. destruct S2 as [_ F]. rewrite Forall_forall in F.
    destruct Hr as [<-|Hr]; [lra|]. specialize (F r Hr). lra.
Qed.

Lemma C05_between_real qs rows l r1 r2 l' p :
  any_argsort qs -> accepted (Some rows) -> rows = l ++ r1 :: r2 :: l' ->
  lpos r1 < p < lpos r2 ->
  exists vs, get_load qs (Some rows) (PosNum p) None CNone = Ok (Some [(p, map Some vs)]) /\
    Forall2 (fun c v => Rmin (lcomp c r1) (lcomp c r2) <= v <= Rmax (lcomp c r1) (lcomp c r2) /\
       (v - lcomp c r1) * (lpos r2 - lpos r1) = (lcomp c r2 - lcomp c r1) * (p - lpos r1))
      [VX; VY; N; MX; MY; T_] vs.
Proof.
  intros Hq Ha E Hp. apply accepted_rows in Ha.
  exists (map (interp_val rows p) [VX; VY; N; MX; MY; T_]). split.
  - rewrite (get_load_num (ok := Rok) qs rows p CNone all_comps); auto using wf_table; try discriminate;
      try exact I; [|subst; destruct l; discriminate].
    unfold block. rewrite (between_not_stored rows l r1 r2 l' p) by auto. rewrite map_map. reflexivity.
  - assert (G : forall cs, Forall2 (fun c v => Rmin (lcomp c r1) (lcomp c r2) <= v <= Rmax (lcomp c r1) (lcomp c r2) /\
       (v - lcomp c r1) * (lpos r2 - lpos r1) = (lcomp c r2 - lcomp c r1) * (p - lpos r1))
      cs (map (interp_val rows p) cs)); [|apply G].
    induction cs; cbn [map]; constructor; auto.
    rewrite (interp_between rows l r1 r2 l') by auto. now apply chord.
Qed.

(** ** C06 *)


Lemma Rin_sorted_set (l : list R) x : In x (py_sorted (py_set l)) <-> In x l.
Proof.
  split; [apply sorted_set_incl|].
  intros Hx. destruct (sorted_set_has (ok := Rok) l x (R_ok l) Hx) as (y & Hy & E).
  apply Reqb_true in E. now subst.
Qed.

Lemma ascending_NoDup (l : list R) : ascending l -> NoDup l.
Proof.
  intros H. induction H as [|a l H IH F]; constructor; auto.
  intros Ha. rewrite Forall_forall in F. specialize (F a Ha). apply Rltb_true in F. lra.
Qed.

Lemma even_points_NoDup n : (0 <= n)%Z -> NoDup (map (even_point n) (seq 0 (Z.to_nat n))).
Proof.
  intros Hn. assert (n = 0 \/ n = 1 \/ 1 < n)%Z as [->|[->|H]] by lia.
  - constructor.
  - repeat constructor. cbn. tauto.
  - apply FinFun.Injective_map_NoDup; [|apply seq_NoDup].
    intros i j. unfold even_point. rewrite (proj2 (Z.eqb_neq n 1)) by lia.
    apply IZR_lt in H. intros E. apply INR_eq.
    apply Rmult_eq_reg_r with (/ (IZR n - 1)); auto. apply Rinv_neq_0_compat. lra.
Qed.

Lemma even_point_range n i : (Z.of_nat i < n)%Z -> 0 <= even_point n i <= 1.
Proof.
  intros H. unfold even_point. destruct (n =? 1)%Z eqn:E; [lra|]. apply Z.eqb_neq in E.
  pose proof (pos_INR i). assert (INR i <= IZR n - 1).
  { rewrite INR_IZR_INZ, <- minus_IZR. apply IZR_le. lia. }
  assert (0 < IZR n - 1). { rewrite <- minus_IZR. apply IZR_lt. lia. }
  split.
  - unfold Rdiv. apply Rmult_le_pos; auto. left. now apply Rinv_0_lt_compat.
  - apply Rmult_le_reg_r with (IZR n - 1); auto. unfold Rdiv. rewrite Rmult_assoc, Rinv_l; lra.
Qed.

Lemma min_positions_list rows n : (0 <= n)%Z ->
  list_positions (Some rows) (Some n) PosNone
  = Ok (py_sorted (py_set (map lpos rows ++ map (even_point n) (seq 0 (Z.to_nat n))))).
Proof.
  intros Hn. unfold list_positions. cbn [load_positions bind].
  rewrite linspace_01 by auto. cbn [bind].
  fold (even_point n).
  set (lin := map (fun i => even_point n i) (seq 0 (Z.to_nat n))).
  replace (set_update (py_set (map lpos rows)) lin) with (py_set (map lpos rows ++ lin))
    by (unfold py_set, set_update; now rewrite fold_left_app).
  set (ps := py_sorted (py_set (map lpos rows ++ lin))).
  destruct (Z.of_nat (List.length ps) <? n)%Z eqn:E; auto. exfalso.
  apply Z.ltb_lt in E.
  assert (List.length lin <= List.length ps)%nat.
  { apply NoDup_incl_length; [now apply even_points_NoDup|].
    intros x Hx. apply Rin_sorted_set. apply in_or_app. auto. }
  unfold lin in H. rewrite map_length, seq_length in H. lia.
Qed.

Lemma C06_positions_real rows n : accepted (Some rows) -> (0 <= n)%Z ->
  exists ps, list_positions (Some rows) (Some n) PosNone = Ok ps /\
    StronglySorted Rlt ps /\ Forall (fun p => 0 <= p <= 1) ps /\
    (forall p, In p ps <-> (exists r, In r rows /\ lpos r = p) \/
                           (exists i, (Z.of_nat i < n)%Z /\ p = even_point n i)) /\
    (n <= Z.of_nat (List.length ps))%Z.
Proof.
  intros Ha Hn. apply accepted_rows in Ha. rewrite min_positions_list by auto.
  set (lin := map (even_point n) (seq 0 (Z.to_nat n))).
  set (ps := py_sorted (py_set (map lpos rows ++ lin))).
  assert (HI : forall p, In p ps <-> (exists r, In r rows /\ lpos r = p) \/
                           (exists i, (Z.of_nat i < n)%Z /\ p = even_point n i)).
  { intros p. unfold ps. rewrite Rin_sorted_set, in_app_iff. unfold lin. rewrite !in_map_iff.
    split; (intros [H|H]; [left|right]).
    - destruct H as (r & H1 & H2). eauto.
    - destruct H as (i & H1 & H2). apply in_seq in H2. exists i. split; [lia|auto].
    - destruct H as (r & H1 & H2). eauto.
    - destruct H as (i & H1 & H2). exists i. split; auto. apply in_seq. lia. }
  exists ps. split; auto. split; [|split; [|split; auto]].
  - assert (A : ascending ps) by apply (sorted_set_ascending (ok := Rok)), R_ok.
    clear -A. induction A as [|a l A IH F]; constructor; auto.
    rewrite Forall_forall in *. intros b Hb. apply Rltb_true. now apply F.
  - apply Forall_forall. intros p Hp. apply HI in Hp. destruct Hp as [(r & Hr & <-)|(i & Hi & ->)].
    + destruct Ha as [_ Ha]. rewrite Forall_forall in Ha. now apply Ha.
    + now apply even_point_range.
  - assert (List.length lin <= List.length ps)%nat.
    { apply NoDup_incl_length; [now apply even_points_NoDup|].
      intros x Hx. apply Rin_sorted_set. apply in_or_app. auto. }
    unfold lin in H. rewrite map_length, seq_length in H. lia.
Qed.

Lemma blocks_longer (rows : list (lrow R)) cs sp :
  (List.length sp <= List.length (flat_map (block rows cs) sp))%nat.
Proof.
  induction sp as [|p sp IH]; cbn [flat_map List.length]; auto. rewrite app_length.
  pose proof (block_nonempty (ok := Rok) rows cs p (R_rows_ok rows) I).
  destruct (block rows cs p); [congruence|]. cbn. lia.
Qed.

Lemma blocks_sorted_R rows cs sp : ascending sp ->
  StronglySorted Rle (map fst (flat_map (block rows cs) sp)).
Proof.
  intros A. pose proof (blocks_sorted (ok := Rok) rows cs sp (R_rows_ok rows) (R_ok sp) A) as S.
  unfold sorted in S. induction S as [|a l S IH F]; cbn; constructor; auto.
  rewrite Forall_forall in *. intros x Hx. apply in_map_iff in Hx. destruct Hx as (o & <- & Ho).
  apply Rleb_true. now apply F.
Qed.

Lemma C06_loads_real qs rows n : any_argsort qs -> accepted (Some rows) -> rows <> [] -> (0 <= n)%Z ->
  exists ps out,
    list_positions (Some rows) (Some n) PosNone = Ok ps /\
    get_load qs (Some rows) PosNone (Some n) CNone = Ok (Some out) /\
    StronglySorted Rle (map fst out) /\
    (n <= Z.of_nat (List.length out))%Z /\
    (forall p, In p ps <-> In p (map fst out)) /\
    (forall r, In r rows ->
       filter (fun o => Reqb (fst o) (lpos r)) out =
       map (fun r => (lpos r, [Some (lVX r); Some (lVY r); Some (lN r); Some (lMX r); Some (lMY r); Some (lT r)]))
         (filter (fun q => Reqb (lpos q) (lpos r)) rows)).
Proof.
  intros Hq Ha N Hn.
  destruct (C06_positions_real rows n Ha Hn) as (ps & E & S & F & HI & L).
  exists ps, (flat_map (block rows all_comps) ps). apply accepted_rows in Ha.
  pose proof (list_positions_asc _ _ _ _ E) as A.
  assert (Np : ps <> []).
  { destruct rows as [|r rows]; [congruence|]. intros ->. apply (HI (lpos r)). left. exists r. cbn. auto. }
  split; auto. split; [|split; [now apply blocks_sorted_R|split; [|split]]].
  - rewrite (get_load_R qs rows PosNone (Some n) CNone all_comps); auto; [|discriminate].
    rewrite E. destruct ps; [congruence|auto].
  - pose proof (blocks_longer rows all_comps ps). lia.
  - intros p. rewrite in_map_iff. split.
    + intros Hp. pose proof (block_nonempty (ok := Rok) rows all_comps p (R_rows_ok rows) I).
      destruct (block rows all_comps p) as [|o l] eqn:B; [congruence|].
      exists o. assert (In o (block rows all_comps p)) by (rewrite B; cbn; auto). split.
      * apply (block_pos (ok := Rok)) in H0; auto using R_rows_ok; [|exact I].
        destruct H0 as [_ H0]. now apply Reqb_true in H0.
      * apply in_flat_map. eauto.
    + intros (o & <- & Ho). apply in_flat_map in Ho. destruct Ho as (q & Hq' & Ho).
      apply (block_pos (ok := Rok)) in Ho; auto using R_rows_ok; [|exact I].
      destruct Ho as [_ Ho]. apply Reqb_true in Ho. now rewrite Ho.
  - intros r Hr.
    pose proof (blocks_filter (ok := Rok) rows all_comps ps (lpos r) (R_rows_ok rows) (R_ok ps) A I) as B.
    unfold rpos in B. cbn [neqb RNum] in B. etransitivity; [exact B|].
    assert (HP : In (lpos r) ps) by (apply HI; left; eauto).
    destruct (find (fun p => Reqb p (lpos r)) ps) as [p|] eqn:Fd.
    + apply find_some in Fd. destruct Fd as [_ Fd]. apply Reqb_true in Fd. subst p.
      unfold block. assert (py_in (lpos r) (map lpos rows) = true) as ->.
      { apply (py_in_self (ok := Rok)); [exact I|now apply in_map]. }
      reflexivity.
    + exfalso. pose proof (find_none _ _ Fd _ HP) as G. cbn in G. rewrite Reqb_refl in G. discriminate.
Qed.

Lemma C06_negative_real (lc : lcase R) n rows : lc = Some rows -> (n < 0)%Z ->
  list_positions lc (Some n) PosNone = Err ValueError.
Proof.
  intros -> H. cbn [list_positions load_positions bind]. unfold linspace.
  rewrite (proj2 (Z.ltb_lt n 0) H). reflexivity.
Qed.

(** ** C07 *)

Lemma components_not_assert a : components a <> Err AssertionError.
Proof.
  destruct a as [|s|z|c|l]; cbn; try discriminate.
  - unfold comp_of_name. repeat (destruct (String.eqb _ _); try discriminate).
  - unfold comp_of_value. repeat (destruct (Z.eqb _ _); try discriminate).
  - induction l as [|[c|] l IH]; cbn; try discriminate.
    destruct (mapM _ l) eqn:E; cbn; congruence.
Qed.

Lemma mapM_err {A B} (f : A -> res B) l e : mapM f l = Err e -> exists a, In a l /\ f a = Err e.
Proof.
  induction l as [|a l IH]; cbn; [discriminate|].
  destruct (f a) eqn:E; cbn.
  - destruct (mapM f l); cbn; [discriminate|]. intros H. injection H as ->.
    destruct IH as (b & Hb & Eb); auto. eauto.
  - intros [= ->]. eauto.
Qed.

Lemma np_interp_err (xs xp fp : list R) l r e : np_interp xs xp fp l r = Err e -> e = ValueError.
Proof.
  unfold np_interp. destruct (Nat.eqb _ _); [|congruence].
  intros H. apply mapM_err in H. destruct H as (x & _ & H). unfold interp1 in H.
  destruct (map _ (combine xp fp)) as [|[? ?] ?]; [congruence|].
  destruct (nltb _ _); discriminate.
Qed.

Lemma multi_interp_err (x : mi_x R) xp fp l r e : multi_interp x xp fp l r = Err e -> e = ValueError.
Proof.
  unfold multi_interp. intros H.
  assert (G : forall xs, match fp with
      | Fp1 f => let! y := np_interp xs xp f l r in Ok [y]
      | Fp2 [] => Err ValueError
      | Fp2 fs => mapM (fun f => np_interp xs xp f l r) fs
      end = Err e -> e = ValueError).
  { intros xs. destruct fp as [f|[|f fs]].
    - destruct (np_interp xs xp f l r) eqn:E; cbn; [discriminate|]. intros [= <-].
      eapply np_interp_err; eauto.
    - congruence.
    - intros H'. apply mapM_err in H'. destruct H' as (g & _ & Hg). eapply np_interp_err; eauto. }
  destruct x as [|[|x0 xs]|xs]; try congruence; eapply G; exact H.
Qed.

Lemma list_positions_assert lc mp position : accepted lc ->
  list_positions lc mp position = Err AssertionError <-> (position = PosNone <-> mp = None).
Proof.
  intros Ha. destruct position as [|x|l], mp as [n|].
  - split; [|intros [H _]; now specialize (H eq_refl)]. intros H. exfalso. destruct lc as [rows|]; [|discriminate].
    destruct (Z_lt_dec n 0) as [L|L].
    + rewrite (C06_negative_real (Some rows) n rows eq_refl L) in H. discriminate.
    + destruct (C06_positions_real rows n Ha) as (ps & E & _); [lia|]. congruence.
  - cbn. tauto.
  - cbn. split; auto. intros _. split; discriminate.
  - cbn. split; [discriminate|]. intros [_ H]. now specialize (H eq_refl).
  - cbn. split; auto. intros _. split; discriminate.
  - cbn. split; [discriminate|]. intros [_ H]. now specialize (H eq_refl).
Qed.

Lemma C07_real qs lc mp position a : accepted lc ->
  get_load qs lc position mp a = Err AssertionError <-> (position = PosNone <-> mp = None).
Proof.
  intros Ha. rewrite <- (list_positions_assert lc mp position Ha).
  unfold get_load. destruct (list_positions lc mp position) as [sp|e]; cbn [bind]; [|split; intros [= ->]; auto].
  split; [|discriminate]. intros H. exfalso.
  destruct lc as [rows|]; [|discriminate].
  destruct (components a) as [cs|e] eqn:Ec; cbn [bind] in H.
  2:{ apply (components_not_assert a). congruence. }
  destruct (array_equal _ _); [discriminate|].
  set (d := match filter (fun p => py_in p (map lpos rows)) sp with
            | [] => None
            | _ => Some (map (pick cs) (filter (fun r => py_in (lpos r)
                   (filter (fun p => py_in p (map lpos rows)) sp)) rows)) end) in H.
  destruct (filter (fun p => negb (py_in p (map lpos rows))) sp) as [|i0 il] eqn:Ei.
  - cbn [bind] in H. destruct d; discriminate.
  - destruct (multi_interp _ _ _ _ _) as [cols|e] eqn:Em; cbn [bind] in H.
    + destruct d; discriminate.
    + apply multi_interp_err in Em. congruence.
Qed.

(** ** C08 *)


Lemma block_column (rows : list (lrow R)) p c :
  block rows [c] p = map (column c) (block rows all_comps p).
Proof.
  unfold block. destruct (py_in p (map lpos rows)).
  - rewrite map_map. apply map_ext. intros r. destruct c; reflexivity.
  - destruct c; reflexivity.
Qed.

Lemma C08_column_real qs lc position mp c : any_argsort qs -> accepted lc ->
  get_load qs lc position mp (CEnum c)
  = rmap (option_map (map (column c))) (get_load qs lc position mp CNone).
Proof.
  intros Hq Ha. destruct lc as [rows|].
  - apply accepted_rows in Ha. destruct rows as [|r rs].
    + unfold get_load. destruct (list_positions _ mp position) as [sp|e]; cbn [bind rmap]; auto.
      cbn [components bind map]. destruct (array_equal sp (np_unique [])); [reflexivity|].
      assert (F : filter (fun p : R => py_in p []) sp = []) by (apply filter_none; auto).
      rewrite F. cbn. destruct (filter (fun _ : R => true) sp); reflexivity.
    + rewrite !(get_load_R qs (r :: rs) position mp (CEnum c) [c]) by (auto; discriminate).
      rewrite !(get_load_R qs (r :: rs) position mp CNone all_comps) by (auto; discriminate).
      destruct (list_positions (Some (r :: rs)) mp position) as [[|p sp]|e]; auto.
      cbn [rmap option_map]. do 2 f_equal.
      induction (p :: sp) as [|q l IH]; cbn [flat_map map]; auto.
      rewrite map_app, IH, block_column. reflexivity.
  - unfold get_load. destruct (list_positions _ mp position) as [sp|e]; cbn [bind rmap option_map]; auto.
    rewrite map_map. apply (f_equal (fun l : list (orow R) => Ok (Some l))). apply map_ext. intros p. unfold column. cbn [fst snd].
    destruct c; reflexivity.
Qed.

Lemma C08_names_gen {T} {NT : Num T} qs (lc : lcase T) position mp c :
  get_load qs lc position mp (CStr (comp_name c)) = get_load qs lc position mp (CEnum c) /\
  get_load qs lc position mp (CInt (comp_number c)) = get_load qs lc position mp (CEnum c) /\
  get_load qs lc position mp (CList [ItEnum c]) = get_load qs lc position mp (CEnum c).
Proof.
  unfold get_load. repeat split; destruct c; reflexivity.
Qed.

Lemma C08_bad_gen {T} {NT : Num T} qs (rows : list (lrow T)) position mp ps :
  list_positions (Some rows) mp position = Ok ps ->
  (forall s, (forall c, s <> comp_name c) -> get_load qs (Some rows) position mp (CStr s) = Err KeyError) /\
  (forall z, (forall c, z <> comp_number c) -> get_load qs (Some rows) position mp (CInt z) = Err ValueError).
Proof.
  intros H. unfold get_load. rewrite H. split.
  - intros s Hs. cbn [bind components]. unfold comp_of_name.
    repeat match goal with |- context [String.eqb s ?n] =>
      let E := fresh in destruct (String.eqb s n) eqn:E;
        [apply String.eqb_eq in E; exfalso; revert E|clear E] end; auto.
    + apply (Hs VX). + apply (Hs VY). + apply (Hs N). + apply (Hs MX). + apply (Hs MY). + apply (Hs T_).
  - intros z Hz. cbn [bind components]. unfold comp_of_value.
    repeat match goal with |- context [Z.eqb z ?n] =>
      let E := fresh in destruct (Z.eqb z n) eqn:E;
        [apply Z.eqb_eq in E; exfalso; revert E|clear E] end; auto.
    + apply (Hz VX). + apply (Hz VY). + apply (Hz N). + apply (Hz MX). + apply (Hz MY). + apply (Hz T_).
Qed.

(** ** C09 *)


Lemma scale_comp k c r : lcomp c (scale_row k r) = k * lcomp c r.
Proof. destruct c; reflexivity. Qed.
Lemma add_comp c r s : lcomp c (add_row r s) = lcomp c r + lcomp c s.
Proof. destruct c; reflexivity. Qed.

Lemma scale_pos k rows : map lpos (map (scale_row k) rows) = map lpos rows.
Proof. rewrite map_map. apply map_ext. reflexivity. Qed.

Lemma scale_interp_from k c p rs : forall xj yj,
  interp_from p xj (k * yj) (map (fun r => (lpos r, lcomp c r)) (map (scale_row k) rs)) None
  = k * interp_from p xj yj (map (fun r => (lpos r, lcomp c r)) rs) None.
Proof.
  induction rs as [|r rs IH]; intros xj yj; cbn [map interp_from].
  - now destruct (nltb xj p).
  - rewrite scale_comp. cbn [lpos scale_row]. destruct (nleb (lpos r) p); [apply IH|].
    destruct (neqb xj p); auto. cbn. unfold Rdiv. ring.
Qed.

Lemma scale_interp k rows p c : rows <> [] ->
  interp_val (map (scale_row k) rows) p c = k * interp_val rows p c.
Proof.
  destruct rows as [|r rs]; [congruence|]. intros _. cbn [map interp_val].
  rewrite scale_comp. cbn [lpos scale_row]. destruct (nltb p (lpos r)); auto. apply scale_interp_from.
Qed.

Lemma scale_block k rows cs p : rows <> [] ->
  block (map (scale_row k) rows) cs p = map (scale_orow k) (block rows cs p).
Proof.
  intros N. unfold block. rewrite scale_pos. destruct (py_in p (map lpos rows)).
  - rewrite filter_map_comm, !map_map. apply map_ext. intros r. unfold pick, scale_orow. cbn [fst snd].
    f_equal. rewrite map_map. apply map_ext. intros c. cbn. now rewrite scale_comp.
  - cbn [map]. unfold scale_orow. cbn [fst snd]. apply (f_equal (fun l : list (option R) => [(p, l)] : list (orow R))). rewrite map_map. apply map_ext.
    intros c. cbn [option_map]. now rewrite scale_interp.
Qed.

Lemma scale_wf k rows : well_formed rows -> well_formed (map (scale_row k) rows).
Proof.
  intros [S F]. split.
  - clear F. induction S as [|a l S IH F]; cbn; constructor; auto.
    rewrite Forall_forall in *. intros b Hb. apply in_map_iff in Hb. destruct Hb as (q & <- & Hq).
    apply (F q Hq).
  - rewrite Forall_forall in *. intros b Hb. apply in_map_iff in Hb. destruct Hb as (q & <- & Hq).
    apply (F q Hq).
Qed.

Lemma positions_only (rows rows' : list (lrow R)) mp position :
  map lpos rows = map lpos rows' ->
  list_positions (Some rows) mp position = list_positions (Some rows') mp position.
Proof. intros H. unfold list_positions, load_positions. now rewrite H. Qed.

Lemma C09_scale_real qs k rows position mp a cs :
  any_argsort qs -> accepted (Some rows) -> rows <> [] -> designates a cs -> cs <> [] ->
  get_load qs (Some (map (scale_row k) rows)) position mp a
  = rmap (option_map (map (scale_orow k))) (get_load qs (Some rows) position mp a).
Proof.
  intros Hq Ha N Hd C. apply accepted_rows in Ha. apply designates_components in Hd.
  rewrite (get_load_R qs (map (scale_row k) rows) position mp a cs); auto using scale_wf.
  2:{ intros E. apply map_eq_nil in E. contradiction. }
  rewrite (get_load_R qs rows position mp a cs) by auto.
  rewrite (positions_only (map (scale_row k) rows) rows) by apply scale_pos.
  destruct (list_positions (Some rows) mp position) as [[|p sp]|e]; auto.
  cbn [rmap option_map]. do 2 f_equal.
  induction (p :: sp) as [|q l IH]; cbn [flat_map map]; auto.
  rewrite map_app, IH, scale_block; auto.
Qed.


Lemma add_pos rows : forall rows', map lpos rows = map lpos rows' ->
  map lpos (add_rows rows rows') = map lpos rows.
Proof.
  induction rows as [|r rows IH]; intros [|s rows'] H; try discriminate; auto.
  cbn in H |- *. injection H as H1 H2. f_equal. now apply IH.
Qed.

Lemma add_interp_from c p rs : forall rs' xj yj zj, map lpos rs = map lpos rs' ->
  interp_from p xj (yj + zj) (map (fun r => (lpos r, lcomp c r)) (add_rows rs rs')) None
  = interp_from p xj yj (map (fun r => (lpos r, lcomp c r)) rs) None
    + interp_from p xj zj (map (fun r => (lpos r, lcomp c r)) rs') None.
Proof.
  induction rs as [|r rs IH]; intros [|s rs'] xj yj zj H; try discriminate; cbn [map interp_from add_rows combine].
  - now destruct (nltb xj p).
  - injection H as H1 H2. cbn [fst snd]. rewrite add_comp. cbn [lpos add_row].
    rewrite <- H1. destruct (nleb (lpos r) p); [now apply IH|].
    destruct (neqb xj p); auto. cbn. unfold Rdiv. ring.
Qed.

Lemma add_interp rows rows' p c : map lpos rows = map lpos rows' -> rows <> [] ->
  interp_val (add_rows rows rows') p c = interp_val rows p c + interp_val rows' p c.
Proof.
  destruct rows as [|r rs], rows' as [|s rs']; intros H N; try discriminate; [congruence|].
  cbn [add_rows combine map interp_val fst snd] in *. injection H as H1 H2.
  rewrite add_comp. cbn [lpos add_row]. rewrite <- H1.
  destruct (nltb p (lpos r)); auto. now apply add_interp_from.
Qed.

Lemma add_filter (f : R -> bool) rows : forall rows', map lpos rows = map lpos rows' ->
  filter (fun r => f (lpos r)) (add_rows rows rows')
  = add_rows (filter (fun r => f (lpos r)) rows) (filter (fun r => f (lpos r)) rows').
Proof.
  induction rows as [|r rows IH]; intros [|s rows'] H; try discriminate; auto.
  injection H as H1 H2. cbn [add_rows combine map filter fst snd]. cbn [lpos add_row].
  rewrite <- H1. fold (add_rows rows rows'). rewrite IH by auto.
  destruct (f (lpos r)); reflexivity.
Qed.

Lemma add_pick cs r s : pick cs (add_row r s) = add_orow (pick cs r) (pick cs s).
Proof.
  unfold pick, add_orow. cbn [fst snd]. f_equal.
  induction cs as [|c cs IH]; cbn; auto. rewrite add_comp. f_equal. exact IH.
Qed.

Definition add_orows (a b : list (orow R)) : list (orow R) :=
  map (fun ab => add_orow (fst ab) (snd ab)) (combine a b).

Lemma add_block rows rows' cs p : map lpos rows = map lpos rows' -> rows <> [] ->
  List.length (block rows cs p) = List.length (block rows' cs p) /\
  map fst (block rows cs p) = map fst (block rows' cs p) /\
  block (add_rows rows rows') cs p = add_orows (block rows cs p) (block rows' cs p).
Proof.
  intros H N. unfold block. rewrite add_pos by auto. rewrite <- H.
  destruct (py_in p (map lpos rows)).
  - assert (G : forall l l', map lpos l = map lpos l' ->
      map lpos (filter (fun r : lrow R => neqb (lpos r) p) l)
      = map lpos (filter (fun r : lrow R => neqb (lpos r) p) l')).
    { induction l as [|x l IH]; intros [|y l'] E; try discriminate; auto. injection E as E1 E2.
      cbn. rewrite <- E1. destruct (Reqb (lpos x) p); cbn; [f_equal|]; auto. }
    specialize (G rows rows' H).
    rewrite (add_filter (fun q => neqb q p)) by auto.
    set (l := filter _ rows) in *. set (l' := filter _ rows') in *.
    split; [|split].
    + rewrite !map_length. rewrite <- (map_length lpos l), G. apply map_length.
    + rewrite !map_map. exact G.
    + clearbody l l'. revert l' G. induction l as [|x l IH]; intros [|y l'] E; try discriminate; auto.
      injection E as E1 E2. cbn [add_rows combine map fst snd]. unfold add_orows. cbn [combine map fst snd].
      rewrite add_pick. f_equal. now apply IH.
  - split; [|split]; auto. cbn. unfold add_orows, add_orow. cbn [combine map fst snd]. apply (f_equal (fun l : list (option R) => [(p, l)] : list (orow R))).
    induction cs as [|c cs IH]; cbn [map combine]; auto. rewrite add_interp by auto. f_equal. exact IH.
Qed.

Lemma add_wf rows : forall rows', map lpos rows = map lpos rows' -> well_formed rows ->
  well_formed (add_rows rows rows').
Proof.
  intros rows' E [S F].
  assert (G : forall l l' : list (lrow R), map lpos l = map lpos l' -> well_formed l -> well_formed l').
  { clear. intros l l' E [S F]. split.
    - revert l' E. induction S as [|a l S IH Fa]; intros [|b l'] E; try discriminate; constructor.
      + injection E as _ E. apply IH; auto. now apply Forall_inv_tail in F.
      + injection E as E1 E. rewrite Forall_forall in *. intros q Hq. rewrite <- E1.
        assert (In (lpos q) (map lpos l)) by (rewrite E; now apply in_map).
        apply in_map_iff in H. destruct H as (z & <- & Hz). now apply Fa.
    - rewrite Forall_forall in *. intros q Hq.
      assert (In (lpos q) (map lpos l)) by (rewrite E; now apply in_map).
      apply in_map_iff in H. destruct H as (z & <- & Hz). now apply F. }
  apply G with rows; [|split; auto]. symmetry. now apply add_pos.
Qed.

Lemma C09_add_real qs rows rows' ps a cs :
  any_argsort qs -> accepted (Some rows) -> accepted (Some rows') ->
  map lpos rows = map lpos rows' -> rows <> [] -> ps <> [] -> designates a cs -> cs <> [] ->
  exists out out',
    get_load qs (Some rows) (PosList ps) None a = Ok (Some out) /\
    get_load qs (Some rows') (PosList ps) None a = Ok (Some out') /\
    map fst out = map fst out' /\
    get_load qs (Some (add_rows rows rows')) (PosList ps) None a
    = Ok (Some (map (fun ab => add_orow (fst ab) (snd ab)) (combine out out'))).
Proof.
  intros Hq Ha Ha' E N Np Hd C. apply accepted_rows in Ha, Ha'. apply designates_components in Hd.
  set (sp := py_sorted (py_set ps)).
  exists (flat_map (block rows cs) sp), (flat_map (block rows' cs) sp).
  assert (N' : rows' <> []) by (intros ->; destruct rows; [congruence|discriminate]).
  assert (N'' : add_rows rows rows' <> []).
  { destruct rows; [congruence|]. destruct rows'; [congruence|]. discriminate. }
  split; [|split; [|split]].
  - apply (get_load_list (ok := Rok)); auto using wf_table, R_ok.
  - apply (get_load_list (ok := Rok)); auto using wf_table, R_ok.
  - induction sp as [|p sp IH]; cbn [flat_map map]; auto. rewrite !map_app. etransitivity; [exact (f_equal (app _) IH)|]. apply (f_equal (fun l => l ++ _)).
    now apply add_block.
  - rewrite (get_load_list (ok := Rok) _ _ _ _ cs); auto using wf_table, add_wf, R_ok.
    fold sp. do 2 f_equal.
    induction sp as [|p sp IH]; cbn [flat_map]; auto. rewrite IH.
    destruct (add_block rows rows' cs p E N) as (L & _ & B). rewrite B.
    unfold add_orows. rewrite <- map_app. f_equal.
    clear -L. revert L. generalize (block rows cs p) (block rows' cs p).
    induction l as [|x l IH]; intros [|y l'] L; try discriminate; auto.
    cbn. f_equal. apply IH. cbn in L. lia.
Qed.

(** ** C10 *)

Lemma block_one {T} {NT : Num T} {ok : T -> Prop} {NO : NumOrd T ok} (r : lrow T) cs p : ok p ->
  row_ok (ok := ok) r ->
  exists o, block [r] cs p = [o] /\ neqb (fst o) p = true /\ snd o = map (fun c => Some (lcomp c r)) cs.
Proof.
  intros Hp [Hr _]. unfold block. cbn [map py_in existsb filter]. rewrite orb_false_r.
  destruct (neqb p (lpos r)) eqn:E.
  - rewrite (neqb_sym (ok := ok) (lpos r) p) by auto. rewrite E. cbn [map].
    exists (pick cs r). repeat split; auto. cbn. now rewrite (neqb_sym (ok := ok)).
  - eexists. split; [reflexivity|]. split; [now apply (eqv_refl (ok := ok))|]. cbn [snd].
    apply map_ext. intros c. f_equal. cbn. destruct (nltb p (lpos r)); auto.
    destruct (nltb (lpos r) p); auto.
Qed.

Lemma C10_gen {T} {NT : Num T} {ok : T -> Prop} {NO : NumOrd T ok} qs (r : lrow T) ps a cs :
  argsort_ok qs -> row_ok (ok := ok) r -> ps <> [] -> Forall ok ps ->
  components a = Ok cs -> cs <> [] ->
  exists at_ps out, distinct_ascending ps at_ps /\
    get_load qs (Some [r]) (PosList ps) None a = Ok (Some out) /\
    Forall2 (fun p o => neqb (fst o) p = true /\ snd o = map (fun c => Some (lcomp c r)) cs) at_ps out.
Proof.
  intros Hq Hr Np Hp Hc C.
  exists (py_sorted (py_set ps)), (flat_map (block [r] cs) (py_sorted (py_set ps))).
  split; [now apply (distinct_ascending_set (ok := ok))|]. split.
  - apply (get_load_list (ok := ok)); auto; [|discriminate].
    split; [repeat constructor; apply Hr|repeat constructor].
  - pose proof (sorted_set_ok (ok := ok) ps Hp) as K.
    induction K as [|p l Kp K IH]; cbn [flat_map]; [constructor|].
    destruct (block_one (ok := ok) r cs p Kp Hr) as (o & -> & H1 & H2). cbn [app]. constructor; auto.
Qed.

Lemma C10_real qs (vx vy n mx my t : R) ps : any_argsort qs -> ps <> [] ->
  exists lc at_ps,
    constant_load vx vy n mx my t = Ok lc /\ distinct_ascending ps at_ps /\
    get_load qs lc (PosList ps) None CNone
    = Ok (Some (map (fun p => (p, map Some [vx; vy; n; mx; my; t])) at_ps)).
Proof.
  intros Hq Np. exists (Some [mk_lrow 0 vx vy n mx my t]), (py_sorted (py_set ps)).
  assert (W : well_formed [mk_lrow 0 vx vy n mx my t]).
  { split; repeat constructor; cbn; lra. }
  split; [|split].
  - unfold constant_load. apply C01_accept. right. exists [mk_lrow 0 vx vy n mx my t].
    split; auto.
    replace (nflt 0 1) with (0 : R) by (cbn; field). apply (one_row (mk_lrow 0 vx vy n mx my t)).
  - apply (distinct_ascending_set (ok := Rok)), R_ok.
  - rewrite (get_load_list (ok := Rok) _ _ _ _ all_comps); auto using wf_table, R_ok; try discriminate.
    do 2 f_equal. induction (py_sorted (py_set ps)) as [|p l IH]; cbn [flat_map map]; auto.
    rewrite IH.
    destruct (block_one (ok := Rok) (mk_lrow 0 vx vy n mx my t) all_comps p I (R_row_ok _)) as ([q v] & -> & H1 & H2).
    cbn in H1, H2. apply Reqb_true in H1. subst. reflexivity.
Qed.

Lemma C10_num_real qs (vx vy n mx my t p : R) : any_argsort qs ->
  exists lc, constant_load vx vy n mx my t = Ok lc /\
    get_load qs lc (PosNum p) None CNone = Ok (Some [(p, map Some [vx; vy; n; mx; my; t])]).
Proof.
  intros Hq. destruct (C10_real qs vx vy n mx my t [p] Hq) as (lc & at_ps & H1 & H2 & H3); [discriminate|].
  exists lc. split; auto.
  replace (get_load qs lc (PosNum p) None CNone) with (get_load qs lc (PosList [p]) None CNone) by reflexivity.
  rewrite H3. do 2 f_equal. destruct H2 as (S & I1 & I2).
  destruct at_ps as [|a l].
  - destruct (I2 p) as (q & [] & _). cbn. auto.
  - assert (a = p) by (destruct (I1 a) as [|[]]; cbn; auto). subst a.
    destruct l as [|b l]; auto. exfalso.
    assert (b = p) by (destruct (I1 b) as [|[]]; cbn; auto). subst b.
    apply StronglySorted_inv in S. destruct S as [_ S]. apply Forall_inv in S.
    apply Rltb_true in S. lra.
Qed.

(** On Python floats. *)
Lemma C10_float qs (vx vy n mx my t : pynum) ps : any_argsort qs -> ps <> [] -> Forall Pok ps ->
  Forall (fun v => nisfloat v = true) [vx; vy; n; mx; my; t] ->
  exists lc at_ps out,
    constant_load vx vy n mx my t = Ok lc /\ distinct_ascending ps at_ps /\
    get_load qs lc (PosList ps) None CNone = Ok (Some out) /\
    Forall2 (fun p o => neqb (fst o) p = true /\ snd o = map Some [vx; vy; n; mx; my; t]) at_ps out.
Proof.
  intros Hq Np Hp Hv.
  set (r := mk_lrow (fl 0 1) vx vy n mx my t).
  assert (Hr : row_ok (ok := Pok) r).
  { split; [vm_compute; exact I|]. rewrite Forall_forall in Hv. intros c. apply Hv. destruct c; cbn; tauto. }
  destruct (C10_gen (ok := Pok) qs r ps CNone all_comps Hq Hr Np Hp) as (at_ps & out & H1 & H2 & H3);
    auto; try discriminate.
  exists (Some [r]), at_ps, out. split; auto.
  unfold constant_load, load_case. cbn [row_of_list].
  assert (E : np_table [mk_lrow (nflt 0 1) vx vy n mx my t] = [r]).
  { unfold np_table. cbn [existsb lrow_list]. cbn [nisfloat nflt PNum lpos]. cbn [orb map].
    unfold r, lrow_map. cbn [lpos lVX lVY lN lMX lMY lT].
    assert (G : forall v, In v [vx; vy; n; mx; my; t] -> nfloat v = v).
    { intros v Hin. rewrite Forall_forall in Hv. apply (ord_float (ok := Pok)). auto. }
    rewrite (G vx), (G vy), (G n), (G mx), (G my), (G t) by (cbn; tauto). reflexivity. }
  rewrite E. reflexivity.
Qed.

(** ** C11 *)

Lemma C11_real qs ps a : exists at_ps, distinct_ascending ps at_ps /\
  get_load (T := R) qs None (PosList ps) None a = Ok (Some (map (fun p => (p, [None])) at_ps)).
Proof.
  exists (py_sorted (py_set ps)). split; [apply (distinct_ascending_set (ok := Rok)), R_ok|].
  unfold get_load. cbn [list_positions bind]. now rewrite np_array_id.
Qed.

Lemma C11_float qs ps a : Forall Pok ps -> exists at_ps, distinct_ascending ps at_ps /\
  get_load (T := pynum) qs None (PosList ps) None a = Ok (Some (map (fun p => (p, [None])) at_ps)).
Proof.
  intros H. exists (py_sorted (py_set ps)). split; [now apply (distinct_ascending_set (ok := Pok))|].
  unfold get_load. cbn [list_positions bind]. do 3 f_equal. unfold np_array.
  destruct (existsb _ _); auto. pose proof (sorted_set_ok (ok := Pok) ps H) as K.
  induction K as [|x l Kx K IH]; cbn [map]; auto. rewrite IH. f_equal.
  apply (ord_float (ok := Pok)). now apply (ord_isfloat (ok := Pok)).
Qed.

Lemma C11_min_gen {T} {NT : Num T} qs n a : get_load (T := T) qs None PosNone (Some n) a = Err TypeError.
Proof. reflexivity. Qed.

(** ** C12 *)

Lemma C12_single (lc : lcase R) p a : ~ (0 <= p <= 1) -> single_position lc p a = Err AssertionError.
Proof.
  intros H. unfold single_position.
  destruct (nleb (nint 0) p && nleb p (nflt 1 1)) eqn:E; auto.
  apply andb_true_iff in E. destruct E as [E1 E2]. cbn in E1, E2. apply Rleb_true in E1, E2. exfalso. lra.
Qed.

(** Outside the stored range the end values are reported. *)
Lemma outside_real qs rows r rs p : any_argsort qs -> accepted (Some rows) ->
  (rows = r :: rs /\ p < lpos r \/ rows = rs ++ [r] /\ lpos r < p) ->
  get_load qs (Some rows) (PosNum p) None CNone
  = Ok (Some [(p, map (fun c => Some (lcomp c r)) [VX; VY; N; MX; MY; T_])]).
Proof.
  intros Hq Ha H. apply accepted_rows in Ha.
  assert (N : rows <> []) by (destruct H as [[-> _]|[-> _]]; [discriminate|destruct rs; discriminate]).
  rewrite (get_load_num (ok := Rok) qs rows p CNone all_comps); auto using wf_table; try discriminate;
    try exact I.
  do 2 f_equal. destruct Ha as [S _].
  assert (Hn : forall q, In q rows -> neqb (lpos q) p = false).
  { intros q Hq'. apply Reqb_false. destruct H as [[-> L]|[-> L]].
    - apply StronglySorted_inv in S. destruct S as [_ F]. rewrite Forall_forall in F.
      destruct Hq' as [<-|Hq']; [lra|]. specialize (F q Hq'). lra.
    - assert (lpos q <= lpos r); [|lra]. clear -S Hq'. induction rs as [|x rs IH].
      + destruct Hq' as [<-|[]]. lra.
      + cbn [app] in S. apply StronglySorted_inv in S. destruct S as [S F].
        destruct Hq' as [<-|Hq']; auto. rewrite Forall_forall in F. apply F. apply in_or_app. cbn. auto. }
  unfold block. rewrite (proj2 (not_stored (ok := Rok) rows p I (R_rows_ok rows)) Hn).
  do 2 f_equal. apply map_ext. intros c. f_equal.
  destruct H as [[E L]|[E L]].
  - rewrite E. cbn. unfold Rltb. destruct (Rlt_dec p (lpos r)); auto. lra.
  - subst rows. clear N Hn.
    assert (F : forall rs x, StronglySorted (fun a b => lpos a <= lpos b) (x :: rs ++ [r]) ->
      interp_from p (lpos x) (lcomp c x) (map (fun r => (lpos r, lcomp c r)) (rs ++ [r])) None = lcomp c r).
    { clear -L. induction rs as [|y rs IH]; intros x S; cbn [app map interp_from]; cbn [nleb nltb RNum].
      - unfold Rleb, Rltb. destruct (Rle_dec (lpos r) p); [|lra]. destruct (Rlt_dec (lpos r) p); auto.
      - apply StronglySorted_inv in S. destruct S as [S Fx].
        assert (lpos y <= lpos r).
        { cbn [app] in S. apply StronglySorted_inv in S. destruct S as [S Fy]. rewrite Forall_forall in Fy.
          apply Fy. apply in_or_app. cbn. auto. }
        unfold Rleb. destruct (Rle_dec (lpos y) p); [|lra]. now apply IH. }
    destruct rs as [|x rs]; cbn [app interp_val].
    + cbn. unfold Rltb. destruct (Rlt_dec p (lpos r)), (Rlt_dec (lpos r) p); auto.
    + assert (lpos x <= lpos r).
      { cbn [app] in S. apply StronglySorted_inv in S. destruct S as [_ Fx]. rewrite Forall_forall in Fx.
        apply Fx. apply in_or_app. cbn. auto. }
      cbn [nltb RNum]. unfold Rltb. destruct (Rlt_dec p (lpos x)); [lra|]. now apply F.
Qed.

(** ** C75, C76 *)


Lemma interp_from_line left right x r : forall l xj yj,
  StronglySorted (fun a b => fst a <= fst b) (l ++ (xj, yj) :: r) -> xj <= x ->
  line_value (l ++ (xj, yj) :: r) left right x (interp_from x xj yj r right).
Proof.
  induction r as [|[x1 y1] r IH]; intros l xj yj S L; cbn [interp_from]; cbn [nltb nleb neqb RNum].
  - unfold Rltb. destruct (Rlt_dec xj x).
    + now apply lv_right with l xj.
    + assert (xj = x) by lra. subst. eapply lv_last with (l := l); eauto. cbn. tauto.
  - unfold Rleb. destruct (Rle_dec x1 x).
    + replace (l ++ (xj, yj) :: (x1, y1) :: r) with ((l ++ [(xj, yj)]) ++ (x1, y1) :: r) in *
        by now rewrite <- app_assoc.
      now apply IH.
    + unfold Reqb. destruct (Req_EM_T xj x) as [->|N].
      * eapply lv_last with (l := l); eauto. intros q Hq.
        assert (S2 : StronglySorted (fun a b : R * R => fst a <= fst b) ((x1, y1) :: r)).
        { clear -S. induction l as [|a l IH]; cbn [app] in S; apply StronglySorted_inv in S; destruct S as [S _]; auto. }
        apply StronglySorted_inv in S2. destruct S2 as [_ F]. rewrite Forall_forall in F.
        destruct Hq as [<-|Hq]; [cbn; lra|]. specialize (F q Hq). cbn in F. lra.
      * eapply lv_between with (l := l); eauto; [lra|].
        apply (chord xj x1 yj y1 x). lra.
Qed.

Lemma interp1_line x samples left right :
  StronglySorted (fun a b => fst a <= fst b) samples -> samples <> [] ->
  exists v, interp1 x samples left right = Ok v /\ line_value samples left right x v.
Proof.
  intros S N. unfold interp1. cbn [nfloat RNum].
  assert (E : map (fun p : R * R => (fst p, snd p)) samples = samples).
  { rewrite <- (map_id samples) at 2. apply map_ext. intros []. reflexivity. }
  rewrite E. destruct samples as [|[x0 y0] r]; [congruence|]. cbn [nltb RNum]. unfold Rltb.
  destruct (Rlt_dec x x0).
  - eexists. split; [reflexivity|]. eapply lv_left; eauto.
  - eexists. split; [reflexivity|]. apply (interp_from_line left right x r []); auto. lra.
Qed.

Lemma combine_sorted (xp : list R) : forall fp : list R, StronglySorted Rle xp ->
  StronglySorted (fun a b => fst a <= fst b) (combine xp fp).
Proof.
  intros fp S. revert fp. induction S as [|x xp S IH F]; intros [|f fp]; cbn; constructor; auto.
  rewrite Forall_forall in *. intros [a b] Hab. apply in_combine_l in Hab. cbn. auto.
Qed.

Lemma np_interp_line xs xp fp left right :
  StronglySorted Rle xp -> xp <> [] -> List.length xp = List.length fp ->
  exists ys, np_interp xs xp fp left right = Ok ys /\
    Forall2 (line_value (combine xp fp) left right) xs ys.
Proof.
  intros S N L. unfold np_interp. rewrite L, Nat.eqb_refl.
  assert (Nc : combine xp fp <> []).
  { destruct xp, fp; cbn in *; try congruence; discriminate. }
  induction xs as [|x xs IH]; cbn [mapM].
  - exists []. auto.
  - destruct (interp1_line x (combine xp fp) left right) as (v & E & Hv); auto using combine_sorted.
    rewrite E. cbn [bind]. destruct IH as (ys & -> & Hys). cbn [bind]. exists (v :: ys). auto.
Qed.

Lemma C75_real xs xp fs left right :
  StronglySorted Rle xp -> xp <> [] -> fs <> [] ->
  Forall (fun f => List.length f = List.length xp) fs ->
  exists yss, multi_interp (XArr xs) xp (Fp2 fs) left right = Ok yss /\
    Forall2 (fun f ys =>
      multi_interp (XArr xs) xp (Fp1 f) left right = Ok [ys] /\
      Forall2 (line_value (combine xp f) left right) xs ys) fs yss.
Proof.
  intros S Nx Nf F. unfold multi_interp. destruct fs as [|f0 fs0] eqn:Ef; [congruence|].
  rewrite <- Ef in *. clear Ef Nf f0 fs0.
  induction F as [|f fs L F IH]; cbn [mapM].
  - exists []. auto.
  - destruct (np_interp_line xs xp f left right) as (ys & E & H); auto.
    destruct IH as (yss & E' & H'). rewrite E, E'. cbn [bind]. exists (ys :: yss).
    split; auto. constructor; auto. rewrite E. auto.
Qed.

Lemma C75_none_gen {T} {NT : Num T} (xp : list T) fp left right :
  multi_interp XNone xp fp left right = Err ValueError /\
  multi_interp (XList []) xp fp left right = Err ValueError.
Proof. auto. Qed.

Lemma C75_list_gen {T} {NT : Num T} (x : T) xs xp fp left right :
  multi_interp (XList (x :: xs)) xp fp left right = multi_interp (XArr (x :: xs)) xp fp left right.
Proof. auto. Qed.

(** ** Facts used by the examples *)

Lemma stable_argsort_ok {T} : any_argsort (T := T) stable_argsort.
Proof.
  assert (P : forall (x : nat * orow T) l, Permutation (insert_idx x l) (x :: l)).
  { intros x l. induction l as [|y l IH]; cbn [insert_idx]; auto.
    destruct (Nat.ltb (fst y) (fst x)); auto.
    apply Permutation_trans with (y :: x :: l); [now apply perm_skip|apply perm_swap]. }
  assert (S : forall (x : nat * orow T) l, StronglySorted (fun a b => fst a <= fst b)%nat l ->
    StronglySorted (fun a b => fst a <= fst b)%nat (insert_idx x l)).
  { intros x l H. induction H as [|y l H IH F]; cbn [insert_idx]; [repeat constructor|].
    destruct (Nat.ltb (fst y) (fst x)) eqn:E.
    - apply Nat.ltb_lt in E. constructor; auto. rewrite Forall_forall in *. intros z Hz.
      apply (Permutation_in _ (P x l)) in Hz. destruct Hz as [<-|Hz]; [lia|auto].
    - apply Nat.ltb_ge in E. constructor; [constructor; auto|]. constructor; auto.
      rewrite Forall_forall in *. intros z Hz. specialize (F z Hz). lia. }
  intros l. induction l as [|x l [IH1 IH2]]; cbn; [split; constructor|]. split; auto.
  eapply Permutation_trans; [apply P|]. now apply perm_skip.
Qed.

Lemma C12_refuted_lemma : ~ (forall qs rows p a,
  any_argsort qs -> accepted (Some rows) -> ~ (0 <= p <= 1) ->
  exists e, get_load qs (Some rows) (PosNum p) None a = Err e).
Proof.
  intros H.
  assert (W : well_formed [mk_lrow 0 1 1 1 1 1 1]) by (split; repeat constructor; cbn; lra).
  destruct (H stable_argsort [mk_lrow 0 1 1 1 1 1 1] 2 CNone) as (e & E).
  - apply stable_argsort_ok.
  - now apply accepted_rows.
  - lra.
  - rewrite (get_load_num (ok := Rok) _ _ _ _ all_comps) in E; auto using wf_table, stable_argsort_ok;
      try discriminate. + apply stable_argsort_ok. + exact I.
Qed.

Lemma C76_refuted_lemma : ~ (forall (xs xp : list R) fs,
  xs <> [] -> ~ StronglySorted Rle xp -> fs <> [] ->
  Forall (fun f => List.length f = List.length xp) fs ->
  multi_interp (XArr xs) xp (Fp2 fs) None None = Err ValueError).
Proof.
  intros H. specialize (H [0] [1; 0] [[1; 2]]).
  assert (E : multi_interp (XArr [0]) [1; 0] (Fp2 [[1; 2]]) None None = Ok [[1]]).
  { cbn. unfold Rltb. destruct (Rlt_dec 0 1); [reflexivity|lra]. }
  rewrite E in H. discriminate H.
  - discriminate.
  - intros S. apply StronglySorted_inv in S. destruct S as [_ F]. apply Forall_inv in F. lra.
  - discriminate.
  - repeat constructor.
Qed.

Lemma C76_errors (xs : list R) xp fp left right e :
  multi_interp (XArr xs) xp fp left right = Err e -> e = ValueError.
Proof. apply multi_interp_err. Qed.

Lemma C76_lengths (x : R) xs xp f left right : List.length xp <> List.length f ->
  multi_interp (XArr (x :: xs)) xp (Fp1 f) left right = Err ValueError.
Proof.
  intros H. unfold multi_interp, np_interp. rewrite (proj2 (Nat.eqb_neq _ _) H). reflexivity.
Qed.

Lemma C02_float_lemma qs rows ps component cs :
  any_argsort qs ->
  Forall (fun r => Pok (lpos r) /\ forall c, nisfloat (lcomp c r) = true) rows ->
  StronglySorted (fun a b => nleb (lpos a) (lpos b) = true) rows ->
  rows <> [] -> Forall Pok ps -> ps <> [] -> designates component cs -> cs <> [] ->
  exists at_ps blocks,
    distinct_ascending ps at_ps /\ Forall2 (rows_at rows cs) at_ps blocks /\
    get_load qs (Some rows) (PosList ps) None component = Ok (Some (List.concat blocks)).
Proof. intros. apply (C02_gen (ok := Pok)); auto. split; auto. Qed.

(** A four-row table with two rows at the same position. *)
Definition tab4 : list (lrow R) :=
  [mk_lrow 0 1 2 3 4 5 6; mk_lrow (1/2) 2 2 2 2 2 2; mk_lrow (1/2) 3 0 3 0 3 0;
   mk_lrow 1 (-1) (-2) (-3) 4 5 6].
Lemma tab4_accepted : accepted (Some tab4).
Proof. apply accepted_rows. split; repeat constructor; cbn; lra. Qed.
Definition ftab : list (lrow pynum) :=
  [mk_lrow (fl 0 1) (fl 1 1) (fl 2 1) (fl 3 1) (fl 4 1) (fl 5 1) (fl 6 1);
   mk_lrow (fl 1 3) (fl 1 10) (fl 2 1) (fl 3 1) (fl 4 1) (fl 5 1) (fl 6 1);
   mk_lrow (fl 1 1) (fl 7 10) (fl 2 1) (fl 3 1) (fl 4 1) (fl 5 1) (fl 6 1)].
Lemma ftab_rows : Forall (fun r => Pok (lpos r) /\ forall c, nisfloat (lcomp c r) = true) ftab.
Proof. repeat constructor; try (intros []; reflexivity); vm_compute; exact I. Qed.
Lemma ftab_sorted : StronglySorted (fun a b => nleb (lpos a) (lpos b) = true) ftab.
Proof. repeat constructor; vm_compute; reflexivity. Qed.
