(** A load case can be replaced by a finer table of its own answers. *)

From Coq Require Import ZArith Reals List Bool Sorted Lra Lia.
From Verif Require Import Base Num RNum Numpy LoadCase OrdFacts LoadFacts LoadSpec LoadProofs
  Beam BeamSpec TableCut TabulateSpec.
Import ListNotations.
Open Scope R_scope.

(** ** One more row *)

Definition val_row (rows : list (lrow R)) (t : R) : lrow R :=
  mk_lrow t (interp_val rows t VX) (interp_val rows t VY) (interp_val rows t N)
    (interp_val rows t MX) (interp_val rows t MY) (interp_val rows t T_).

Definition refine (rows : list (lrow R)) (t : R) : list (lrow R) :=
  if py_in t (map lpos rows) then rows else lower t rows ++ val_row rows t :: upper t rows.

Lemma val_row_comp rows t c : lcomp c (val_row rows t) = interp_val rows t c.
Proof. destruct c; reflexivity. Qed.

Lemma py_in_R (t : R) l : py_in t l = true <-> In t l.
Proof.
  unfold py_in. rewrite existsb_exists. split.
  - intros (x & Hx & E). apply Reqb_true in E. now subst.
  - intros H. exists t. split; auto. now apply Reqb_true.
Qed.

Lemma not_stored t rows : py_in t (map lpos rows) = false -> forall r : lrow R, In r rows -> lpos r <> t.
Proof.
  intros H r Hr E. assert (py_in t (map lpos rows) = true); [|congruence].
  apply py_in_R. rewrite <- E. now apply in_map.
Qed.

Lemma val_row_interpolates rows t : well_formed rows -> rows <> [] ->
  (forall r, In r rows -> lpos r <> t) -> forall c, interpolates rows c t (load_of c (val_row rows t)).
Proof.
  intros W N Hn c. change (load_of c (val_row rows t)) with (lcomp c (val_row rows t)). rewrite val_row_comp.
  assert (K : Forall2 (fun c v => interpolates rows c t v) [c] (map (interp_val rows t) [c])).
  { assert (B : rows_at rows [c] t (block rows [c] t)).
    { assert (X := blocks_spec (ok := Rok) rows [c] [t] (R_ok _) (R_rows_ok rows) N).
      inversion X; subst. auto. }
    unfold block in B. destruct (py_in t (map lpos rows)) eqn:E.
    - apply py_in_R in E. apply in_map_iff in E. destruct E as (r & Er & Hr). destruct (Hn r Hr Er).
    - inversion B as [(r & Hr & Er)|vs Hv F Ev].
      + apply Reqb_true in Er. destruct (Hn r Hr Er).
      + inversion F; subst. inversion H3; subst. cbn in Ev. injection Ev as Ev. subst. cbn. constructor; auto. }
  inversion K; subst. auto.
Qed.

Lemma refine_wf rows t : well_formed rows -> 0 <= t <= 1 -> well_formed (refine rows t).
Proof.
  intros [S F] Ht. unfold refine. destruct (py_in _ _); [split; auto|]. rewrite Forall_forall in F. split.
  - apply sorted_app_rows; [now apply sorted_filter_rows|constructor; [now apply sorted_filter_rows|]|].
    + apply Forall_forall. intros q Hq. apply in_upper in Hq. cbn. lra.
    + intros x y Hx Hy. apply in_lower in Hx. destruct Hy as [<-|Hy]; [cbn; lra|]. apply in_upper in Hy. lra.
  - apply Forall_forall. intros q Hq. apply in_app_iff in Hq. destruct Hq as [Hq|[<-|Hq]]; auto.
    + apply in_lower in Hq. apply F. tauto.
    + apply in_upper in Hq. apply F. tauto.
Qed.

Lemma refine_nonempty rows t : rows <> [] -> refine rows t <> [].
Proof.
  intros N. unfold refine. destruct (py_in _ _); auto. intros E. now apply app_eq_nil in E.
Qed.

Lemma refine_pos rows t x : well_formed rows ->
  In x (map lpos (refine rows t)) <-> In x (map lpos rows) \/ x = t.
Proof.
  intros [S _]. unfold refine. destruct (py_in t (map lpos rows)) eqn:E.
  - apply py_in_R in E. split; [auto|]. intros [H| ->]; auto.
  - assert (Ms : same t rows = []) by (apply filter_nil_all; intros a Ha; apply Reqb_false; now apply (not_stored t rows)).
    assert (Sp : map lpos rows = map lpos (lower t rows) ++ map lpos (upper t rows)).
    { rewrite <- map_app. f_equal. rewrite (split_sorted t rows S) at 1. now rewrite Ms. }
    rewrite Sp, map_app. cbn [map]. rewrite !in_app_iff. cbn [In lpos val_row].
    split; intros H; repeat (destruct H as [H|H]); subst; auto.
Qed.

Lemma refine_block rows t cs x : well_formed rows -> rows <> [] -> block (refine rows t) cs x = block rows cs x.
Proof.
  intros W N. unfold refine. destruct (py_in t (map lpos rows)) eqn:E; auto.
  pose proof (not_stored t rows E) as Hn. pose proof W as [S _].
  assert (Hm : rows_at_cut rows t [val_row rows t]).
  { constructor; auto. now apply val_row_interpolates. }
  assert (Sp : rows = lower t rows ++ upper t rows).
  { rewrite (split_sorted t rows S) at 1.
    now assert (same t rows = []) as -> by (apply filter_nil_all; intros a Ha; apply Reqb_false; auto). }
  destruct (Req_dec x t) as [->|D].
  - unfold block at 2. rewrite E. unfold block.
    assert (py_in t (map lpos (lower t rows ++ val_row rows t :: upper t rows)) = true) as ->.
    { apply py_in_R. rewrite map_app. apply in_app_iff. right. now left. }
    rewrite filter_app. cbn [filter].
    rewrite (filter_nil_all _ (lower t rows)) by (intros a Ha; apply in_lower in Ha; apply Reqb_false; lra).
    rewrite (filter_nil_all _ (upper t rows)) by (intros a Ha; apply in_upper in Ha; apply Reqb_false; lra).
    assert (neqb (lpos (val_row rows t)) t = true) as -> by (now apply Reqb_true).
    cbn [app map]. unfold pick. cbn [lpos val_row]. do 2 f_equal. apply map_ext. intros c.
    now rewrite <- (val_row_comp rows t c).
  - apply block_same_val.
    + transitivity (filter (fun r => neqb (lpos r) x) (lower t rows ++ upper t rows)); [|now rewrite <- Sp].
      rewrite !filter_app. cbn [filter].
      assert (neqb (lpos (val_row rows t)) x = false) as -> by (apply Reqb_false; cbn; lra). reflexivity.
    + intros Hx c. destruct (Rlt_dec x t) as [L|L].
      * rewrite <- (cut_left_val rows t [val_row rows t] x c W Hm L Hx N).
        destruct (lower t rows) as [|r0 A].
        { cbn [app]. rewrite !interp_val_cons.
          now assert (Rltb x (lpos (val_row rows t)) = true) as -> by (apply Rltb_true; cbn; lra). }
        cbn [app]. rewrite !interp_val_cons. destruct (Rltb x (lpos r0)); auto.
        apply ifr_ext. rewrite !ifr_cons.
        now assert (Rleb (lpos (val_row rows t)) x = false) as -> by (apply Rleb_false; cbn; lra).
      * assert (t < x) by lra. rewrite <- (cut_right_val rows t [val_row rows t] x c W Hm H Hx N).
        assert (LA : forall q, In q (lower t rows) -> lpos q < t) by (intros; now apply (in_lower t rows)).
        destruct (lower t rows) as [|r0 A]; auto.
        cbn [app]. rewrite !interp_val_cons.
        assert (lpos r0 < t) by (apply LA; now left).
        assert (Rltb x (lpos (val_row rows t)) = false) as -> by (apply Rltb_false; cbn; lra).
        assert (Rltb x (lpos r0) = false) as -> by (apply Rltb_false; lra).
        rewrite (ifr_skip x c A) by (intros q Hq; assert (lpos q < t) by (apply LA; now right); lra).
        rewrite ifr_cons. now assert (Rleb (lpos (val_row rows t)) x = true) as -> by (apply Rleb_true; cbn; lra).
Qed.

(** ** Many more rows *)

Lemma refine_all ts : forall rows, well_formed rows -> rows <> [] -> Forall (fun t => 0 <= t <= 1) ts ->
  let rows' := fold_left refine ts rows in
  well_formed rows' /\ rows' <> [] /\ (forall x, In x (map lpos rows') <-> In x (map lpos rows) \/ In x ts) /\
  forall cs x, block rows' cs x = block rows cs x.
Proof.
  induction ts as [|t ts IH]; intros rows W N F; cbn [fold_left].
  - split; [exact W|]. split; [exact N|]. split; auto. intros x. split; [auto|]. intros [H|[]]; auto.
  - inversion F; subst. destruct (IH (refine rows t)) as (A & B & C & D); auto using refine_wf, refine_nonempty.
    split; [exact A|]. split; [exact B|]. split.
    + intros x. rewrite C, (refine_pos rows t x W). cbn [In]. intuition.
    + intros cs x. rewrite D. now apply refine_block.
Qed.

Lemma same_blocks rows rows' : well_formed rows -> well_formed rows' -> rows <> [] -> rows' <> [] ->
  (forall cs x, block rows' cs x = block rows cs x) -> same_answers (Some rows) (Some rows').
Proof.
  intros W W' N N' H qs position a cs Hq Hd C. pose proof (designates_components a cs Hd) as Hc.
  rewrite (get_load_R qs rows position None a cs), (get_load_R qs rows' position None a cs) by auto.
  assert (list_positions (Some rows') None position = list_positions (Some rows) None position) as -> by (destruct position; reflexivity).
  destruct (list_positions (Some rows) None position) as [[|p sp]|e]; auto.
  do 2 f_equal. apply flat_map_ext. intros x. now rewrite H.
Qed.

(** ** The answer of a query as a table *)

Lemma all_six (rows : list (lrow R)) : map (pick all_comps) rows =
  map (fun r => (lpos r, [Some (lVX r); Some (lVY r); Some (lN r); Some (lMX r); Some (lMY r); Some (lT r)])) rows.
Proof. reflexivity. Qed.

Lemma tabulate rows sp : well_formed rows -> rows <> [] -> sp <> [] -> ascending sp -> Forall (fun t => 0 <= t <= 1) sp ->
  exists rows', reads_as (flat_map (block rows all_comps) sp) rows' /\ well_formed rows' /\ rows' <> [] /\
    (forall x, In x (map lpos rows') <-> In x sp) /\ (forall cs x, In x sp -> block rows' cs x = block rows cs x) /\
    ((forall r, In r rows -> In (lpos r) sp) -> forall cs x, block rows' cs x = block rows cs x).
Proof.
  intros W N Ns A F. destruct (refine_all sp rows W N F) as (W1 & N1 & P & B). set (rows1 := fold_left refine sp rows) in *.
  set (rows' := filter (fun r => py_in (lpos r) sp) rows1).
  assert (W' : well_formed rows').
  { destruct W1 as [S1 F1]. split; [now apply sorted_filter_rows|]. rewrite Forall_forall in *. intros r Hr. apply filter_In in Hr. now apply F1. }
  assert (P' : forall x, In x (map lpos rows') <-> In x sp).
  { intros x. unfold rows'. rewrite in_map_iff. split.
    - intros (r & <- & Hr). apply filter_In in Hr. now apply py_in_R.
    - intros Hx. assert (H : In x (map lpos rows1)) by (apply P; auto). apply in_map_iff in H. destruct H as (r & <- & Hr).
      exists r. split; auto. apply filter_In. split; auto. now apply py_in_R. }
  assert (N' : rows' <> []).
  { intros E. destruct sp as [|x sp]; [congruence|]. assert (H : In x (map lpos rows')) by (apply P'; now left). rewrite E in H. contradiction. }
  assert (B' : forall cs x, In x sp -> block rows' cs x = block rows cs x).
  { intros cs x Hx. rewrite <- B. unfold block.
    assert (py_in x (map lpos rows') = true) as -> by now apply py_in_R, P'.
    assert (py_in x (map lpos rows1) = true) as -> by (apply py_in_R, P; auto).
    f_equal. unfold rows'. apply filter_keep. intros r E. apply Reqb_true in E. apply py_in_R. now rewrite E. }
  exists rows'. split; [|split; [auto|split; [auto|split; [auto|split; [auto|]]]]].
  - unfold reads_as. rewrite <- all_six.
    transitivity (flat_map (block rows' all_comps) sp).
    { rewrite !flat_map_concat_map. f_equal. apply map_ext_in. intros x Hx. symmetry. now apply B'. }
    rewrite <- (direct_blocks (ok := Rok) rows' all_comps sp (fun _ => true)); auto using wf_table, R_ok.
    + now rewrite filter_all.
    + intros r Hr. symmetry. apply py_in_R, P'. now apply in_map.
    + intros p Hp. now apply py_in_R, P'.
  - intros I cs x. rewrite <- B. unfold rows'. rewrite filter_all; auto.
    intros r Hr. apply py_in_R. assert (H : In (lpos r) (map lpos rows1)) by now apply in_map.
    apply P in H. destruct H as [H|H]; auto. apply in_map_iff in H. destruct H as (q & <- & Hq). auto.
Qed.

Lemma construct rows : well_formed rows -> rows <> [] -> load_case (InRows (map seven rows)) = Ok (Some rows).
Proof.
  intros W N. apply C01_accept. right. exists rows. destruct rows as [|r rows]; [congruence|]. split; [constructor|auto].
Qed.

(** ** Two theorems *)

Lemma C137_min qs rows n : any_argsort qs -> accepted (Some rows) -> rows <> [] -> (0 <= n)%Z ->
  exists out rows', get_load qs (Some rows) PosNone (Some n) CNone = Ok (Some out) /\ reads_as out rows' /\
    load_case (InRows (map seven rows')) = Ok (Some rows') /\ same_answers (Some rows) (Some rows') /\
    forall qs', any_argsort qs' -> get_load qs' (Some rows') PosNone (Some n) CNone = Ok (Some out).
Proof.
  intros Hq Ha N Hn. destruct (C06_positions_real rows n Ha Hn) as (ps & E & S & F & HI & L). apply accepted_rows in Ha.
  pose proof (list_positions_asc _ _ _ _ E) as A.
  assert (Np : ps <> []).
  { destruct rows as [|r rows]; [congruence|]. intros ->. apply (HI (lpos r)). left. exists r. cbn. auto. }
  destruct (tabulate rows ps Ha N Np A F) as (rows' & R' & W' & N' & P' & B1 & B2).
  assert (B : forall cs x, block rows' cs x = block rows cs x) by (apply B2; intros r Hr; apply HI; left; eauto).
  exists (flat_map (block rows all_comps) ps), rows'.
  assert (G : forall qs' rs, any_argsort qs' -> well_formed rs -> rs <> [] -> list_positions (Some rs) (Some n) PosNone = Ok ps ->
    get_load qs' (Some rs) PosNone (Some n) CNone = Ok (Some (flat_map (block rs all_comps) ps))).
  { intros qs' rs Q W0 N0 E0. rewrite (get_load_R qs' rs PosNone (Some n) CNone all_comps); auto; [|discriminate].
    rewrite E0. destruct ps; [congruence|auto]. }
  split; [now apply G|]. split; auto. split; [now apply construct|]. split; [now apply same_blocks|].
  intros qs' Q. rewrite (G qs' rows'); auto.
  - do 2 f_equal. apply flat_map_ext. intros x. apply B.
  - rewrite min_positions_list in * by auto. injection E as E. rewrite <- E. f_equal. apply sorted_set_same.
    intros p. rewrite !in_app_iff, P', <- E, Rin_sorted_set, in_app_iff. tauto.
Qed.

Lemma C137_list qs rows ps : any_argsort qs -> accepted (Some rows) -> rows <> [] -> ps <> [] ->
  Forall (fun p => 0 <= p <= 1) ps ->
  exists out rows', get_load qs (Some rows) (PosList ps) None CNone = Ok (Some out) /\ reads_as out rows' /\
    load_case (InRows (map seven rows')) = Ok (Some rows') /\
    (forall qs' p a cs, any_argsort qs' -> In p ps -> designates a cs -> cs <> [] ->
      get_load qs' (Some rows') (PosNum p) None a = get_load qs' (Some rows) (PosNum p) None a) /\
    ((forall r, In r rows -> In (lpos r) ps) -> same_answers (Some rows) (Some rows')).
Proof.
  intros Hq Ha N Np F. apply accepted_rows in Ha. set (sp := py_sorted (py_set ps)).
  assert (A : ascending sp) by apply (sorted_set_ascending (ok := Rok)), R_ok.
  assert (I : forall p, In p sp <-> In p ps) by (intros; apply Rin_sorted_set).
  assert (Fs : Forall (fun p => 0 <= p <= 1) sp) by (rewrite Forall_forall in *; intros p Hp; apply F, I, Hp).
  assert (Ns : sp <> []) by (intros E; apply Np; now apply (sorted_set_nil ps)).
  destruct (tabulate rows sp Ha N Ns A Fs) as (rows' & R' & W' & N' & P' & B1 & B2).
  exists (flat_map (block rows all_comps) sp), rows'.
  split; [apply (get_load_list (ok := Rok)); auto using wf_table, R_ok; discriminate|].
  split; auto. split; [now apply construct|]. split.
  - intros qs' p a cs Q Hp Hd C. pose proof (designates_components a cs Hd) as Hc.
    rewrite !(get_load_num (ok := Rok) qs' _ p a cs) by (auto using wf_table; exact Logic.I).
    do 2 f_equal. apply B1. now apply I.
  - intros All. apply same_blocks; auto. apply B2. intros r Hr. apply I. auto.
Qed.
