(** Minimum numbers of positions, and tables of answers, on doubles. *)

From Coq Require Import ZArith Reals List Bool Sorted Permutation Lra Lia Floats.SpecFloat.
From Verif Require Import Base Num PyNum Numpy LoadCase OrdFacts LoadFacts LoadSpec LoadProofs
  FloatRound FloatOps FloatSpec FloatFacts FloatBeam FloatLocs FloatValSpec FloatInterp FloatError FloatUtil
  FloatTableSpec FloatTable FloatLin TabulateAny.
Import ListNotations.
Open Scope R_scope.

Lemma row_pos r : double_row r -> double (lpos r).
Proof. intros H. now inversion H. Qed.

Lemma row_loads r : double_row r -> forall c, double (lcomp c r).
Proof.
  unfold double_row, seven. intros H c. destruct r as [p x1 x2 x3 x4 x5 x6]. cbn in H.
  repeat match goal with H : Forall double (_ :: _) |- _ => apply Forall_cons_iff in H; destruct H end.
  now destruct c.
Qed.

Lemma pos_unit rows : Forall double_row rows -> well_formed_double rows -> Forall unit_double (map lpos rows).
Proof.
  intros D [U _]. apply Forall_map. rewrite Forall_forall in *. intros r Hr. destruct (U r Hr) as [A B].
  destruct (unit_fin (lpos r) (row_pos r (D r Hr)) A B) as (f & E & F & _). split; [apply finite_double_fin; eauto|auto].
Qed.

Lemma unit_Pok x : unit_double x -> Pok x.
Proof. intros [H _]. now apply finite_Pok. Qed.

Lemma units_Pok l : Forall unit_double l -> Forall Pok l.
Proof. intros H. eapply Forall_impl; [|exact H]. apply unit_Pok. Qed.

Lemma double_table rows : Forall double_row rows -> well_formed_double rows -> table_ok (ok := Pok) rows.
Proof.
  intros D W. pose proof (pos_unit rows D W) as U. destruct W as [_ S]. split; [|exact S].
  rewrite Forall_map in U. rewrite Forall_forall in *. intros r Hr. split; [apply unit_Pok; auto|].
  intros c. apply double_float. apply row_loads. auto.
Qed.

Lemma interp_double x y l : double x -> Forall (fun xy => double (fst xy) /\ double (snd xy)) l -> forall p, double p -> double y ->
  double (interp_from p x y l None).
Proof.
  intros Hx H. revert x y Hx. induction H as [|[x1 y1] l [H1 H2] _ IH]; intros x y Hx p Hp Hy; cbn [interp_from].
  - now destruct (nltb x p).
  - destruct (nleb x1 p); [now apply IH|]. destruct (neqb x p); auto.
    assert (A : forall fi ff a b, (forall f g, valid64 f -> valid64 g -> valid64 (ff f g)) -> double a -> double b -> double (arith2 fi ff a b)).
    { intros fi ff a b K Ha Hb. apply double_arith2; auto. left. now apply double_float. }
    cbn [fst snd] in *. apply A; [apply valid_add| |auto].
    apply A; [apply valid_mul| |apply A; [apply valid_sub|auto|auto]].
    assert (B : forall a b, double a -> double b -> double (ndiv a b)).
    { intros a b (f & -> & F) (g & -> & G). eexists. split; [reflexivity|]. now apply valid_div. }
    apply B; apply A; auto using valid_sub.
Qed.

Lemma val_double rows p c : Forall double_row rows -> double p -> double (interp_val rows p c).
Proof.
  intros D Hp. destruct rows as [|r rows]; auto. cbn [interp_val]. inversion D; subst.
  destruct (nltb p (lpos r)); [now apply row_loads|]. apply interp_double; auto using row_pos, row_loads.
  apply Forall_map. rewrite Forall_forall in *. intros q Hq. cbn. auto using row_pos, row_loads.
Qed.

Lemma Hval_float rows : Forall double_row rows -> forall p c, Pok p -> nisfloat (interp_val rows p c) = true.
Proof.
  intros D p c Hp. destruct rows as [|r rows]; [now destruct p|]. cbn [interp_val]. inversion D as [|? ? Hr Dr]; subst.
  assert (F : forall q, double_row q -> nisfloat (lcomp c q) = true) by (intros; now apply double_float, row_loads).
  destruct (nltb p (lpos r)); auto.
  assert (G : forall l x y, Forall (fun xy => nisfloat (snd xy) = true) l -> nisfloat y = true -> nisfloat (interp_from p x y l None) = true).
  { induction l as [|[x1 y1] l IH]; intros x y Hl Hy; cbn [interp_from]; [now destruct (nltb x p)|].
    inversion Hl; subst. destruct (nleb x1 p); [now apply IH|]. destruct (neqb x p); auto. }
  apply G; [|now apply F]. apply Forall_map. rewrite Forall_forall in *. intros q Hq. apply F. auto.
Qed.

Lemma new_double rows p : Forall double_row rows -> double p -> double_row (new_row rows p).
Proof.
  intros D Hp. unfold double_row, seven, new_row. cbn. repeat constructor; auto using val_double.
Qed.

Lemma tab_double rows sp : Forall double_row rows -> Forall double sp -> Forall double_row (tab rows sp).
Proof.
  intros D S. apply Forall_forall. intros r Hr. unfold tab in Hr. apply in_flat_map in Hr. destruct Hr as (p & Hp & Hr).
  unfold cell in Hr. rewrite Forall_forall in S. destruct (py_in p (map lpos rows)).
  - apply filter_In in Hr. rewrite Forall_forall in D. now apply D.
  - destruct Hr as [<-|[]]. apply new_double; auto.
Qed.

Lemma tab_wf rows sp : Forall double_row rows -> well_formed_double rows -> Forall unit_double sp -> ascending sp ->
  well_formed_double (tab rows sp).
Proof.
  intros D W S A. pose proof (double_table rows D W) as K.
  destruct (tab_ok rows K (Hval_float rows D) sp (units_Pok sp S) A) as [_ Ss]. split; [|exact Ss].
  apply Forall_forall. intros r Hr. unfold tab in Hr. apply in_flat_map in Hr. destruct Hr as (p & Hp & Hr).
  rewrite Forall_forall in S. unfold cell in Hr. destruct (py_in p (map lpos rows)).
  - apply filter_In in Hr. destruct W as [U _]. rewrite Forall_forall in U. now apply U.
  - destruct Hr as [<-|[]]. cbn [lpos new_row]. destruct (S p Hp) as [_ B]. exact B.
Qed.

Lemma construct_double rows : Forall double_row rows -> well_formed_double rows -> rows <> [] ->
  load_case (InRows (map seven rows)) = Ok (Some rows).
Proof.
  intros D W N. destruct rows as [|r rows]; [congruence|].
  destruct (C141_accept _ _ (some_rows r rows) D) as [[E _]|[_ H]]; [exact E|contradiction].
Qed.

(** ** Positions *)

Lemma eqv_val x y : unit_double x -> unit_double y -> neqb x y = true -> val x = val y.
Proof.
  intros [Hx _] [Hy _] E. apply finite_double_fin in Hx, Hy. destruct Hx as (f & -> & F), Hy as (g & -> & G).
  cbn [neqb PNum] in E. apply andb_true_iff in E. destruct E as [E1 E2].
  apply (fle_R f g F G) in E1. apply (fle_R g f G F) in E2. rewrite !val_sfR. lra.
Qed.

Lemma list_double rows n : Forall double_row rows -> well_formed_double rows -> (0 <= n <= 2 ^ 52)%Z ->
  exists lin, let ps := py_sorted (py_set (map lpos rows ++ lin)) in
    linspace (fl 0 1) (fl 1 1) n = Ok lin /\ Forall unit_double lin /\ Forall unit_double ps /\ ascending ps /\
    list_positions (Some rows) (Some n) PosNone = Ok ps /\ (n <= Z.of_nat (List.length ps))%Z /\
    List.length lin = Z.to_nat n /\
    forall i x, nth_error lin i = Some x -> Rabs (val x - even_point n i) <= powerRZ 2 (-51).
Proof.
  intros D W Hn. destruct (lin_unit n Hn) as (lin & El & Ll & Ul & Al & Cl). exists lin. cbv zeta.
  pose proof (pos_unit rows D W) as Up. assert (Ua : Forall unit_double (map lpos rows ++ lin)) by (apply Forall_app; auto).
  pose proof (units_Pok _ Ua) as Ka.
  assert (Us : Forall unit_double (py_sorted (py_set (map lpos rows ++ lin)))).
  { rewrite Forall_forall in *. intros x Hx. apply Ua. now apply sorted_set_incl. }
  assert (L : (n <= Z.of_nat (List.length (py_sorted (py_set (map lpos rows ++ lin)))))%Z).
  { enough (List.length lin <= List.length (py_sorted (py_set (map lpos rows ++ lin))))%nat by lia.
    apply (distinct_length (ok := Pok)); auto using units_Pok, (sorted_set_ok (ok := Pok)).
    - pose proof (units_Pok _ Ul) as Kl. clear - Al Kl. unfold distinct, ascending in *. induction Al as [|x l S IH F]; constructor.
      + inversion Kl; subst. rewrite Forall_forall in *. intros y Hy. apply (lt_not_eqv (ok := Pok)); auto.
      + apply IH. now inversion Kl.
    - intros x Hx. apply (sorted_set_has (ok := Pok)); auto. apply in_app_iff. auto. }
  split; auto. split; auto. split; auto. split; [now apply (sorted_set_ascending (ok := Pok))|].
  split; [|auto]. cbn [list_positions load_positions bind]. change (nflt 0 1) with (fl 0 1). change (nflt 1 1) with (fl 1 1).
  rewrite El. cbn [bind]. cbv zeta. rewrite set_update_app.
  assert ((Z.of_nat (List.length (py_sorted (py_set (map lpos rows ++ lin)))) <? n)%Z = false) as -> by (apply Z.ltb_ge; lia).
  reflexivity.
Qed.

Lemma C142_positions_double rows n : Forall double_row rows -> well_formed_double rows -> (0 <= n <= 2 ^ 52)%Z ->
  exists ps, list_positions (Some rows) (Some n) PosNone = Ok ps /\
    StronglySorted (fun a b => nltb a b = true) ps /\ Forall unit_double ps /\ (n <= Z.of_nat (List.length ps))%Z /\
    (forall p, In p ps -> (exists r, In r rows /\ lpos r = p) \/
       (exists i, (Z.of_nat i < n)%Z /\ Rabs (val p - even_point n i) <= powerRZ 2 (-51))) /\
    (forall r, In r rows -> exists p, In p ps /\ neqb (lpos r) p = true) /\
    (forall i, (Z.of_nat i < n)%Z -> exists p, In p ps /\ Rabs (val p - even_point n i) <= powerRZ 2 (-51)).
Proof.
  intros D W Hn. destruct (list_double rows n D W Hn) as (lin & El & Ul & Us & A & E & L & Ll & Cl).
  pose proof (pos_unit rows D W) as Up. assert (Ua : Forall unit_double (map lpos rows ++ lin)) by (apply Forall_app; auto).
  pose proof (units_Pok _ Ua) as Ka.
  eexists. split; [exact E|]. split; [exact A|]. split; [exact Us|]. split; [exact L|]. split; [|split].
  - intros p Hp. apply sorted_set_incl in Hp. apply in_app_iff in Hp. destruct Hp as [Hp|Hp].
    + left. apply in_map_iff in Hp. destruct Hp as (r & <- & Hr). eauto.
    + right. apply In_nth_error in Hp. destruct Hp as (i & Hi). exists i. split; [|now apply Cl].
      assert (i < List.length lin)%nat by (apply nth_error_Some; congruence). lia.
  - intros r Hr. apply (sorted_set_has (ok := Pok)); auto. apply in_app_iff. left. now apply in_map.
  - intros i Hi. destruct (nth_error lin i) as [x|] eqn:Ex; [|apply nth_error_None in Ex; lia].
    assert (Hx : In x (map lpos rows ++ lin)) by (apply in_app_iff; right; now apply nth_error_In in Ex).
    destruct (sorted_set_has (ok := Pok) _ x Ka Hx) as (p & Hp & Ep). exists p. split; auto.
    rewrite Forall_forall in Ua, Us. rewrite <- (eqv_val x p); auto.
Qed.

(** ** Tables of answers *)

Lemma tab_reads (rows : list (lrow pynum)) sp : reads_as_table (flat_map (block rows all_comps) sp) (tab rows sp).
Proof. unfold reads_as_table. rewrite <- tab_blocks. reflexivity. Qed.

Lemma tab_point rows sp qs' p a cs : Forall double_row rows -> well_formed_double rows -> rows <> [] ->
  Forall unit_double sp -> ascending sp -> sp <> [] ->
  any_argsort qs' -> In p (map fst (flat_map (block rows all_comps) sp)) -> designates a cs -> cs <> [] ->
  get_load qs' (Some (tab rows sp)) (PosNum p) None a = get_load qs' (Some rows) (PosNum p) None a.
Proof.
  intros D W N U A Ns Q Hp Hd C. pose proof (designates_components a cs Hd) as Hc. pose proof (double_table rows D W) as K.
  pose proof (Hval_float rows D) as V. pose proof (units_Pok sp U) as Ks.
  rewrite <- tab_blocks, map_map in Hp. change (In p (map lpos (tab rows sp))) in Hp.
  pose proof (tab_ok rows K V sp Ks A) as K'.
  assert (Pok p).
  { pose proof (load_pos_ok (ok := Pok) _ (proj1 K')) as L. rewrite Forall_forall in L. auto. }
  rewrite (get_load_num (ok := Pok) qs' rows p a cs) by auto.
  rewrite (get_load_num (ok := Pok) qs' (tab rows sp) p a cs); auto.
  - do 2 f_equal. now apply (tab_block rows K V).
  - now apply (tab_nonempty rows K).
Qed.

Lemma C143_min qs rows n : any_argsort qs -> Forall double_row rows -> well_formed_double rows -> rows <> [] -> (0 <= n <= 2 ^ 52)%Z ->
  exists out rows', get_load qs (Some rows) PosNone (Some n) CNone = Ok (Some out) /\ reads_as_table out rows' /\
    load_case (InRows (map seven rows')) = Ok (Some rows') /\
    (forall qs' p a cs, any_argsort qs' -> In p (map fst out) -> designates a cs -> cs <> [] ->
      get_load qs' (Some rows') (PosNum p) None a = get_load qs' (Some rows) (PosNum p) None a) /\
    (forall qs', any_argsort qs' -> get_load qs' (Some rows') PosNone (Some n) CNone = Ok (Some out)).
Proof.
  intros Q D W N Hn. destruct (list_double rows n D W Hn) as (lin & El & Ul & Us & A & E & L & _). cbv zeta in *.
  set (sp := py_sorted (py_set (map lpos rows ++ lin))) in *.
  pose proof (double_table rows D W) as K. pose proof (Hval_float rows D) as V. pose proof (units_Pok sp Us) as Ks.
  assert (Ns : sp <> []).
  { intros X. destruct rows as [|r rows]; [congruence|]. unfold sp in X. apply (proj1 (sorted_set_nil _)) in X. discriminate X. }
  assert (Dt : Forall double_row (tab rows sp)).
  { apply tab_double; auto. eapply Forall_impl; [|exact Us]. now intros x [[H _] _]. }
  pose proof (tab_wf rows sp D W Us A) as Wt. pose proof (tab_nonempty rows K sp Ks Ns) as Nt.
  exists (flat_map (block rows all_comps) sp), (tab rows sp).
  split; [apply (get_load_blocks (ok := Pok)); auto; discriminate|].
  split; [apply tab_reads|]. split; [now apply construct_double|].
  split; [intros; eapply tab_point; eauto|].
  intros qs' Q'. rewrite <- (tab_same rows K V sp all_comps) by auto.
  apply (get_load_blocks (ok := Pok)); auto; [now apply double_table| |discriminate].
  destruct (list_double (tab rows sp) n Dt Wt Hn) as (lin' & El' & _ & _ & _ & E' & _). rewrite El in El'. injection El' as <-.
  rewrite E'. f_equal. apply (tab_positions rows K V). now apply units_Pok.
Qed.

Lemma C143_list qs rows ps : any_argsort qs -> Forall double_row rows -> well_formed_double rows -> rows <> [] ->
  ps <> [] -> Forall unit_double ps ->
  exists out rows', get_load qs (Some rows) (PosList ps) None CNone = Ok (Some out) /\ reads_as_table out rows' /\
    load_case (InRows (map seven rows')) = Ok (Some rows') /\
    (forall qs' p a cs, any_argsort qs' -> In p (map fst out) -> designates a cs -> cs <> [] ->
      get_load qs' (Some rows') (PosNum p) None a = get_load qs' (Some rows) (PosNum p) None a) /\
    (forall qs', any_argsort qs' -> get_load qs' (Some rows') (PosList ps) None CNone = Ok (Some out)).
Proof.
  intros Q D W N Np U. set (sp := py_sorted (py_set ps)). pose proof (units_Pok ps U) as Kp.
  assert (Us : Forall unit_double sp).
  { rewrite Forall_forall in *. intros x Hx. apply U. now apply sorted_set_incl. }
  pose proof (sorted_set_ascending (ok := Pok) ps Kp) as A. fold sp in A.
  pose proof (double_table rows D W) as K. pose proof (Hval_float rows D) as V. pose proof (units_Pok sp Us) as Ks.
  assert (Ns : sp <> []) by (intros X; apply Np; now apply (sorted_set_nil ps)).
  assert (Dt : Forall double_row (tab rows sp)).
  { apply tab_double; auto. eapply Forall_impl; [|exact Us]. now intros x [[H _] _]. }
  pose proof (tab_wf rows sp D W Us A) as Wt. pose proof (tab_nonempty rows K sp Ks Ns) as Nt.
  exists (flat_map (block rows all_comps) sp), (tab rows sp).
  split; [apply (get_load_list (ok := Pok)); auto; discriminate|].
  split; [apply tab_reads|]. split; [now apply construct_double|].
  split; [intros; eapply tab_point; eauto|].
  intros qs' Q'. rewrite <- (tab_same rows K V sp all_comps) by auto.
  apply (get_load_list (ok := Pok)); auto; [now apply double_table|discriminate].
Qed.
