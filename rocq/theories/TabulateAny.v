(** Tables of answers in any ordered arithmetic. *)

From Coq Require Import ZArith List Bool Sorted Permutation Lia.
From Verif Require Import Base Num Numpy LoadCase OrdFacts LoadFacts LoadSpec LoadProofs FloatTableSpec.
Import ListNotations.

Section Any.
Context {T : Type} {NT : Num T} {ok : T -> Prop} {NO : NumOrd T ok}.

(** ** Sets keep the first of equal numbers *)

Definition eq_to (k x : T) : bool := neqb x k.

Lemma set_filter k l : ok k -> Forall ok l -> forall s, Forall ok s ->
  filter (eq_to k) (set_update s l) =
  match filter (eq_to k) s with [] => firstn 1 (filter (eq_to k) l) | f => f end.
Proof.
  intros Hk. induction l as [|x l IH]; intros Hl s Hs.
  - cbn. destruct (filter (eq_to k) s); auto.
  - apply Forall_cons_iff in Hl. destruct Hl as [Hx Hl]. unfold set_update in *. cbn [fold_left].
    rewrite IH; auto; [|now apply (set_add_ok (ok := ok))]. unfold set_add. destruct (py_in x s) eqn:E.
    + destruct (filter (eq_to k) s) eqn:F; auto. cbn [filter]. unfold eq_to at 2. destruct (neqb x k) eqn:K; auto. exfalso.
      apply py_in_iff in E. destruct E as (y & Hy & E). rewrite Forall_forall in Hs.
      assert (In y (filter (eq_to k) s)); [|rewrite F in *; contradiction]. apply filter_In. split; auto. unfold eq_to.
      rewrite (neqb_eqv_l (ok := ok) y x k); auto. apply (eqv_sym (ok := ok)); auto.
    + rewrite filter_app. cbn [filter]. destruct (eq_to k x) eqn:Kx.
      * destruct (filter (eq_to k) s) as [|t f] eqn:F; [reflexivity|]. exfalso.
        assert (Ht : In t (filter (eq_to k) s)) by (rewrite F; cbn; auto). apply filter_In in Ht. destruct Ht as [Ht Kt].
        rewrite Forall_forall in Hs. rewrite py_in_false in E. specialize (E t Ht). unfold eq_to in *.
        assert (neqb x t = true); [|congruence]. apply (eqv_trans (ok := ok)) with k; auto. apply (eqv_sym (ok := ok)); auto.
      * rewrite app_nil_r. reflexivity.
Qed.

Lemma py_set_filter k l : ok k -> Forall ok l -> filter (eq_to k) (py_sorted (py_set l)) = firstn 1 (filter (eq_to k) l).
Proof.
  intros Hk Hl. etransitivity; [exact (sort_filter (ok := ok) (fun x => x) (py_set l) k (py_set_ok (ok := ok) l Hl) Hk)|].
  unfold py_set. exact (set_filter k l Hk Hl [] (Forall_nil _)).
Qed.

Lemma sorted_set_eq l m : Forall ok l -> Forall ok m ->
  (forall k, ok k -> firstn 1 (filter (eq_to k) l) = firstn 1 (filter (eq_to k) m)) ->
  py_sorted (py_set l) = py_sorted (py_set m).
Proof.
  intros Hl Hm H. apply (sorted_unique (ok := ok) (fun x => x)).
  - exact (sorted_set_ok (ok := ok) l Hl).
  - exact (sorted_set_ok (ok := ok) m Hm).
  - apply (sort_sorted (ok := ok)). exact (py_set_ok (ok := ok) l Hl).
  - apply (sort_sorted (ok := ok)). exact (py_set_ok (ok := ok) m Hm).
  - intros x Hx. assert (ok x).
    { rewrite Forall_forall in Hl, Hm. destruct Hx as [Hx|Hx]; [apply Hl|apply Hm]; now apply sorted_set_incl. }
    change (filter (eq_to x) (py_sorted (py_set l)) = filter (eq_to x) (py_sorted (py_set m))).
    rewrite !py_set_filter by auto. now apply H.
Qed.

Lemma set_update_app (a b : list T) : set_update (py_set a) b = py_set (a ++ b).
Proof. unfold py_set, set_update. now rewrite fold_left_app. Qed.

Lemma find_filter (p : T -> bool) l : find p l = hd_error (filter p l).
Proof. induction l as [|x l IH]; auto. cbn. destruct (p x); auto. Qed.

(** Distinct numbers, each with an equal one in [s]. *)
Lemma distinct_length l : forall s, Forall ok l -> Forall ok s -> distinct l ->
  (forall x, In x l -> exists y, In y s /\ eqv x y) -> (length l <= length s)%nat.
Proof.
  induction l as [|x l IH]; intros s Hl Hs D H; [cbn; lia|].
  destruct (H x (or_introl eq_refl)) as (y & Hy & E). apply in_split in Hy. destruct Hy as (s1 & s2 & ->).
  apply Forall_cons_iff in Hl. destruct Hl as [Hx Hl]. inversion D as [|? ? D1 D2]; subst.
  rewrite app_length. cbn [length]. enough (length l <= length (s1 ++ s2))%nat by (rewrite app_length in *; lia).
  assert (Hs' : Forall ok (s1 ++ s2) /\ ok y).
  { rewrite !Forall_app, !Forall_cons_iff in *. tauto. }
  apply IH; auto; [tauto|]. intros z Hz. destruct (H z (or_intror Hz)) as (w & Hw & Ew).
  exists w. split; auto. apply in_app_iff in Hw. apply in_app_iff. destruct Hw as [Hw|[<-|Hw]]; auto. exfalso.
  rewrite Forall_forall in D1, Hl. specialize (D1 z Hz). cbn in D1.
  assert (neqb x z = true); [|congruence]. apply (eqv_trans (ok := ok)) with y; auto; [tauto|].
  apply (eqv_sym (ok := ok)); auto; tauto.
Qed.

(** ** The table of answers *)
Section Rows.
Variable rows : list (lrow T).
Hypothesis Hrows : table_ok (ok := ok) rows.
Hypothesis Hval : forall p c, ok p -> nisfloat (interp_val rows p c) = true.

Definition new_row (p : T) : lrow T :=
  mk_lrow p (interp_val rows p VX) (interp_val rows p VY) (interp_val rows p N)
    (interp_val rows p MX) (interp_val rows p MY) (interp_val rows p T_).

Definition cell (p : T) : list (lrow T) :=
  if py_in p (map lpos rows) then filter (fun r => neqb (lpos r) p) rows else [new_row p].

Definition tab (sp : list T) : list (lrow T) := flat_map cell sp.

Lemma new_comp p c : lcomp c (new_row p) = interp_val rows p c.
Proof. destruct c; reflexivity. Qed.

Lemma cell_block cs p : map (pick cs) (cell p) = block rows cs p.
Proof.
  unfold cell, block. destruct (py_in p (map lpos rows)); auto. cbn [map]. unfold pick. cbn [lpos new_row]. do 2 f_equal.
  apply map_ext. intros c. now rewrite <- (new_comp p c).
Qed.

Lemma tab_blocks cs sp : map (pick cs) (tab sp) = flat_map (block rows cs) sp.
Proof. induction sp as [|p sp IH]; auto. unfold tab in *. cbn [flat_map]. now rewrite map_app, IH, cell_block. Qed.

Lemma cell_ok p : ok p -> Forall (row_ok (ok := ok)) (cell p).
Proof.
  intros Hp. unfold cell. destruct (py_in p (map lpos rows)).
  - destruct Hrows as [H _]. rewrite Forall_forall in *. intros r Hr. apply filter_In in Hr. now apply H.
  - constructor; [|constructor]. split; auto. intros c. rewrite new_comp. auto.
Qed.

Lemma cell_pos p r : ok p -> In r (cell p) -> eqv (lpos r) p.
Proof.
  intros Hp Hr. assert (H : In (pick [] r) (block rows [] p)) by (rewrite <- (cell_block [] p); now apply in_map).
  apply (block_pos (ok := ok)) in H; auto; [apply H|apply Hrows].
Qed.

Lemma tab_rows_ok sp : Forall ok sp -> Forall (row_ok (ok := ok)) (tab sp).
Proof.
  intros H. unfold tab. apply Forall_forall. intros r Hr. apply in_flat_map in Hr. destruct Hr as (p & Hp & Hr).
  rewrite Forall_forall in H. pose proof (cell_ok p (H p Hp)) as C. rewrite Forall_forall in C. auto.
Qed.

Lemma tab_ok sp : Forall ok sp -> ascending sp -> table_ok (ok := ok) (tab sp).
Proof.
  intros H A. split; [now apply tab_rows_ok|].
  pose proof (blocks_sorted (ok := ok) rows [] sp (proj1 Hrows) H A) as S. rewrite <- tab_blocks in S.
  clear - S. revert S. unfold sorted. induction (tab sp) as [|r l IH]; [constructor|]. cbn [map]. intros S. inversion S as [|? ? S1 S2]; subst.
  constructor; [now apply IH|]. rewrite Forall_map in S2. exact S2.
Qed.

Lemma pick_inj (r q : lrow T) : pick all_comps r = pick all_comps q -> r = q.
Proof. destruct r, q. cbn. intros [=]. now subst. Qed.

Lemma map_inj {A B} (f : A -> B) : (forall x y, f x = f y -> x = y) -> forall l m, map f l = map f m -> l = m.
Proof.
  intros H. induction l as [|x l IH]; intros [|y m] E; try discriminate; auto. cbn in E. injection E as E1 E2. f_equal; auto.
Qed.

Lemma tab_filter sp k : Forall ok sp -> ascending sp -> ok k ->
  filter (fun r => neqb (lpos r) k) (tab sp) = match find (fun p => neqb p k) sp with Some p => cell p | None => [] end.
Proof.
  intros H A Hk. apply (map_inj _ pick_inj).
  pose proof (blocks_filter (ok := ok) rows all_comps sp k (proj1 Hrows) H A Hk) as B.
  rewrite <- tab_blocks, filter_map_comm in B. etransitivity; [exact B|].
  destruct (find _ sp); [|reflexivity]. symmetry. apply cell_block.
Qed.

Lemma find_self sp p : Forall ok sp -> ascending sp -> In p sp -> find (fun q => neqb q p) sp = Some p.
Proof.
  intros H A Hp. induction A as [|q sp A IH F]; [contradiction|]. apply Forall_cons_iff in H. destruct H as [Hq H]. cbn [find].
  destruct Hp as [->|Hp].
  - now rewrite (eqv_refl (ok := ok) p Hq : neqb p p = true).
  - rewrite Forall_forall in F, H. rewrite (lt_not_eqv (ok := ok) q p); auto.
    apply IH; auto. now apply Forall_forall.
Qed.

Lemma cell_stored p k : ok p -> ok k -> eqv p k -> py_in k (map lpos rows) = true ->
  cell p = filter (fun r => neqb (lpos r) k) rows.
Proof.
  intros Hp Hk E S. unfold cell. rewrite (py_in_eqv (ok := ok) p k), S; auto; [|now apply (load_pos_ok (ok := ok)), Hrows].
  apply filter_ext_in'. intros r Hr. destruct Hrows as [R _]. rewrite Forall_forall in R. destruct (R r Hr).
  now apply (neqb_eqv_r (ok := ok)).
Qed.

Lemma tab_block sp cs x : Forall ok sp -> ascending sp -> In x (map lpos (tab sp)) -> block (tab sp) cs x = block rows cs x.
Proof.
  intros H A Hx. pose proof (load_pos_ok (ok := ok) _ (tab_rows_ok sp H)) as L. rewrite Forall_forall in L. pose proof (L x Hx) as Kx.
  apply in_map_iff in Hx. destruct Hx as (r & Ex & Hr). unfold tab in Hr. apply in_flat_map in Hr. destruct Hr as (p & Hp & Hr).
  rewrite Forall_forall in H. pose proof (H p Hp) as Kp. rewrite <- Forall_forall in H.
  pose proof (cell_pos p r Kp Hr) as E. rewrite Ex in E.
  assert (F : find (fun q => neqb q x) sp = Some p).
  { rewrite <- (find_self sp p H A Hp). clear - NO H Kp Kx E. induction sp as [|q sp IH]; auto. cbn [find].
    apply Forall_cons_iff in H. destruct H as [Hq H]. rewrite (neqb_eqv_r (ok := ok) x p q); auto. destruct (neqb q p); auto. }
  unfold block at 1. assert (py_in x (map lpos (tab sp)) = true) as ->.
  { apply (py_in_self (ok := ok)); auto. apply in_map_iff. exists r. split; auto. unfold tab. apply in_flat_map. eauto. }
  rewrite tab_filter, F by auto. destruct (py_in x (map lpos rows)) eqn:S.
  - rewrite (cell_stored p x) by (auto; now apply (eqv_sym (ok := ok))). unfold block. now rewrite S.
  - assert (S' : py_in p (map lpos rows) = false).
    { rewrite <- S. symmetry. apply (py_in_eqv (ok := ok)); auto. apply (load_pos_ok (ok := ok)), Hrows. }
    unfold cell in Hr. rewrite S' in Hr. destruct Hr as [<-|[]]. cbn in Ex. subst p. apply cell_block.
Qed.

Lemma cell_nonempty p : ok p -> cell p <> [].
Proof.
  intros Hp E. pose proof (cell_block [] p) as B. rewrite E in B.
  apply (block_nonempty (ok := ok) rows [] p (proj1 Hrows) Hp). now rewrite <- B.
Qed.

Lemma tab_block_in sp cs x : Forall ok sp -> ascending sp -> In x sp -> block (tab sp) cs x = block rows cs x.
Proof.
  intros H A Hx. assert (Kx : ok x) by (rewrite Forall_forall in H; auto).
  rewrite <- (cell_block cs x). unfold block.
  assert (py_in x (map lpos (tab sp)) = true) as ->.
  { destruct (cell x) as [|r l] eqn:E; [now apply cell_nonempty in E|].
    apply py_in_iff. exists (lpos r). split.
    - apply in_map_iff. exists r. split; auto. unfold tab. apply in_flat_map. exists x. rewrite E. cbn. auto.
    - assert (Hr : In r (cell x)) by (rewrite E; cbn; auto). apply (eqv_sym (ok := ok)); auto; [|now apply cell_pos].
      pose proof (cell_ok x Kx) as C. rewrite Forall_forall in C. apply (C r Hr). }
  now rewrite tab_filter, find_self by auto.
Qed.

Lemma tab_same sp cs : Forall ok sp -> ascending sp -> flat_map (block (tab sp) cs) sp = flat_map (block rows cs) sp.
Proof.
  intros H A. rewrite !flat_map_concat_map. f_equal. apply map_ext_in. intros x Hx. now apply tab_block_in.
Qed.

Lemma tab_nonempty sp : Forall ok sp -> sp <> [] -> tab sp <> [].
Proof.
  intros H N E. destruct sp as [|p sp]; [congruence|]. unfold tab in E. cbn in E. apply app_eq_nil in E.
  inversion H; subst. now apply (cell_nonempty p).
Qed.

(** Listing the positions again. *)
Lemma tab_positions lin : Forall ok lin -> let sp := py_sorted (py_set (map lpos rows ++ lin)) in
  py_sorted (py_set (map lpos (tab sp) ++ lin)) = sp.
Proof.
  intros Hl sp. pose proof (load_pos_ok (ok := ok) rows (proj1 Hrows)) as Hp.
  assert (Ha : Forall ok (map lpos rows ++ lin)) by (apply Forall_app; auto).
  pose proof (sorted_set_ok (ok := ok) _ Ha) as Hs. pose proof (sorted_set_ascending (ok := ok) _ Ha) as A. fold sp in Hs, A.
  apply sorted_set_eq; auto.
  { apply Forall_app. split; auto. apply (load_pos_ok (ok := ok)). now apply tab_rows_ok. }
  intros k Hk. pose proof (py_set_filter k _ Hk Ha) as F. fold sp in F.
  rewrite !filter_app in *. rewrite <- F.
  assert (G : filter (eq_to k) (map lpos (tab sp)) = match hd_error (filter (eq_to k) sp) with Some p => map lpos (cell p) | None => [] end).
  { rewrite filter_map_comm. unfold eq_to at 1. rewrite (tab_filter sp k) by auto. rewrite find_filter. change (fun p => neqb p k) with (eq_to k).
    destruct (hd_error _); auto. }
  rewrite G. rewrite F. destruct (filter (eq_to k) (map lpos rows)) as [|y l] eqn:E1.
  - cbn [app] in *. destruct (filter (eq_to k) lin) as [|p l] eqn:E2; [reflexivity|]. cbn [firstn hd_error].
    assert (Hin : In p (filter (eq_to k) lin)) by (rewrite E2; cbn; auto). apply filter_In in Hin. destruct Hin as [Hin Ep].
    assert (Kp : ok p) by (rewrite Forall_forall in Hl; auto).
    assert (S : py_in p (map lpos rows) = false).
    { apply py_in_false. intros z Hz. destruct (neqb p z) eqn:E; auto. exfalso.
      assert (Kz : ok z) by (rewrite Forall_forall in Hp; auto).
      assert (In z (filter (eq_to k) (map lpos rows))); [|rewrite E1 in *; contradiction].
      apply filter_In. split; auto. unfold eq_to. apply (eqv_trans (ok := ok)) with p; auto. now apply (eqv_sym (ok := ok)). }
    unfold cell. now rewrite S.
  - cbn [app firstn hd_error].
    assert (Hin : In y (filter (eq_to k) (map lpos rows))) by (rewrite E1; cbn; auto). apply filter_In in Hin. destruct Hin as [Hin Ey].
    assert (Ky : ok y) by (rewrite Forall_forall in Hp; auto).
    rewrite (cell_stored y k); auto.
    + pose proof (filter_map_comm lpos (eq_to k) rows) as M. rewrite E1 in M.
      change (fun r => neqb (lpos r) k) with (fun r => eq_to k (lpos r)). rewrite <- M. reflexivity.
    + apply py_in_iff. exists y. split; auto. now apply (eqv_sym (ok := ok)).
Qed.
End Rows.
End Any.
