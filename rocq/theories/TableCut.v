(** Cutting a load table: the two halves report what the whole table reports. *)

From Coq Require Import ZArith Reals List Bool Sorted Lra Lia.
From Verif Require Import Base Num RNum Numpy LoadCase OrdFacts LoadFacts LoadSpec LoadProofs
  Beam BeamSpec.
Import ListNotations.
Open Scope R_scope.

Definition ifr (x : R) (r : lrow R) (B : list (lrow R)) (c : comp) : R :=
  interp_from x (lpos r) (lcomp c r) (map (fun r => (lpos r, lcomp c r)) B) None.

Lemma interp_val_cons r B x c :
  interp_val (r :: B) x c = if Rltb x (lpos r) then lcomp c r else ifr x r B c.
Proof. reflexivity. Qed.

Lemma ifr_cons x r q B c : ifr x r (q :: B) c =
  if Rleb (lpos q) x then ifr x q B c
  else if Reqb (lpos r) x then lcomp c r
  else (lcomp c q - lcomp c r) / (lpos q - lpos r) * (x - lpos r) + lcomp c r.
Proof. reflexivity. Qed.

Lemma ifr_nil x r c : ifr x r [] c = lcomp c r.
Proof. unfold ifr. cbn. now destruct (Rltb _ _). Qed.

Lemma last_cons {A} (q : A) l r : last (q :: l) r = last l q.
Proof.
  revert q r. induction l as [|a l IH]; intros q r; auto.
  change (last (q :: a :: l) r) with (last (a :: l) r). rewrite (IH a r). symmetry. apply IH.
Qed.

Lemma last_in {A} (l : list A) r : last l r = r \/ In (last l r) l.
Proof.
  revert r. induction l as [|a l IH]; intros r; auto. rewrite last_cons.
  destruct (IH a) as [->|H]; right; [now left|now right].
Qed.

Lemma ifr_skip x c A : forall r B, (forall q, In q A -> lpos q <= x) ->
  ifr x r (A ++ B) c = ifr x (last A r) B c.
Proof.
  induction A as [|q A IH]; intros r B H; auto. cbn [app]. rewrite ifr_cons.
  rewrite (proj2 (Rleb_true (lpos q) x)) by (apply H; now left).
  rewrite IH by (intros; apply H; now right). now rewrite last_cons.
Qed.

Lemma ifr_ext x c A : forall r B B', ifr x (last A r) B c = ifr x (last A r) B' c ->
  ifr x r (A ++ B) c = ifr x r (A ++ B') c.
Proof.
  induction A as [|q A IH]; intros r B B' H; auto. cbn [app]. rewrite !ifr_cons.
  rewrite last_cons in H. now rewrite (IH q B B' H).
Qed.

(** ** Sorted tables split at [t] *)

Definition lower (t : R) (rows : list (lrow R)) := filter (fun r => Rltb (lpos r) t) rows.
Definition same (t : R) (rows : list (lrow R)) := filter (fun r => Reqb (lpos r) t) rows.
Definition upper (t : R) (rows : list (lrow R)) := filter (fun r => Rltb t (lpos r)) rows.

Lemma filter_nil_all {A} (f : A -> bool) l : (forall a, In a l -> f a = false) -> filter f l = [].
Proof. induction l as [|a l IH]; cbn; intros H; auto. rewrite H by auto. auto. Qed.

Lemma split_sorted t rows : StronglySorted (fun a b => lpos a <= lpos b) rows ->
  rows = lower t rows ++ same t rows ++ upper t rows.
Proof.
  induction 1 as [|r rows S IH F]; auto. unfold lower, same, upper in *. cbn [filter].
  rewrite Forall_forall in F.
  destruct (Rltb (lpos r) t) eqn:E1.
  - apply Rltb_true in E1. assert (Reqb (lpos r) t = false) as -> by (apply Reqb_false; lra).
    assert (Rltb t (lpos r) = false) as -> by (apply Rltb_false; lra).
    cbn [app]. now rewrite <- IH.
  - apply Rltb_false in E1.
    rewrite (filter_nil_all (fun r => Rltb (lpos r) t) rows) in *
      by (intros a Ha; apply Rltb_false; specialize (F a Ha); lra).
    cbn [app] in *. destruct (Reqb (lpos r) t) eqn:E2.
    + apply Reqb_true in E2. assert (Rltb t (lpos r) = false) as -> by (apply Rltb_false; lra).
      cbn [app]. now rewrite <- IH.
    + apply Reqb_false in E2.
      rewrite (filter_nil_all (fun r => Reqb (lpos r) t) rows) in *
        by (intros a Ha; apply Reqb_false; specialize (F a Ha); lra).
      cbn [app] in *. assert (Rltb t (lpos r) = true) as -> by (apply Rltb_true; lra). now rewrite <- IH.
Qed.

Lemma in_lower t rows r : In r (lower t rows) -> In r rows /\ lpos r < t.
Proof. unfold lower. rewrite filter_In, Rltb_true. auto. Qed.
Lemma in_same t rows r : In r (same t rows) -> In r rows /\ lpos r = t.
Proof. unfold same. rewrite filter_In, Reqb_true. auto. Qed.
Lemma in_upper t rows r : In r (upper t rows) -> In r rows /\ t < lpos r.
Proof. unfold upper. rewrite filter_In, Rltb_true. auto. Qed.

(** The interpolated value is the one the specification allows. *)
Lemma interpolates_val rows c t v : StronglySorted (fun a b => lpos a <= lpos b) rows ->
  well_formed rows -> interpolates rows c t v -> v = interp_val rows t c.
Proof.
  intros S W I. destruct I as [r rs E L|rs r E L|l r1 r2 l' E L1 L2].
  - cbn in L. rewrite E, interp_val_cons, L. reflexivity.
  - cbn in L. apply Rltb_true in L.
    assert (A : forall q, In q rows -> lpos q <= t).
    { intros q Hq. rewrite E in Hq, S. apply in_app_iff in Hq. destruct Hq as [Hq|[<-|[]]]; [|lra].
      clear -S Hq L. induction rs as [|a rs IH]; [contradiction|]. cbn [app] in S.
      apply StronglySorted_inv in S. destruct S as [S F]. destruct Hq as [<-|Hq]; [|auto].
      rewrite Forall_forall in F. assert (lpos a <= lpos r); [|lra]. apply F. apply in_app_iff. cbn. auto. }
    destruct rs as [|q rs].
    + subst rows. cbn [app]. rewrite interp_val_cons, ifr_nil. now destruct (Rltb _ _).
    + subst rows. cbn [app]. rewrite interp_val_cons.
      assert (Rltb t (lpos q) = false) as -> by (apply Rltb_false; apply A; now left).
      rewrite <- (app_nil_r (rs ++ [r])). rewrite ifr_skip.
      * rewrite ifr_nil. now rewrite last_last.
      * intros q' Hq'. apply A. now right.
  - cbn in L1, L2. apply Rltb_true in L1, L2. cbn. symmetry. apply interp_between with l l'; auto.
Qed.

(** ** Below the cut *)
Lemma cut_left_val rows t mid x c : well_formed rows -> rows_at_cut rows t mid -> x < t ->
  (forall r, In r rows -> lpos r <> x) -> rows <> [] ->
  interp_val (lower t rows ++ mid) x c = interp_val rows x c.
Proof.
  intros W Hm Hx Hn N. destruct W as [S W]. pose proof (conj S W) as WF.
  assert (E : rows = lower t rows ++ same t rows ++ upper t rows) by now apply split_sorted.
  assert (LA : forall q, In q (lower t rows) -> lpos q < t) by (intros; now apply (in_lower t rows)).
  assert (LC : forall q, In q (upper t rows) -> t < lpos q) by (intros; now apply (in_upper t rows)).
  assert (LM : forall q, In q (same t rows) -> lpos q = t) by (intros; now apply (in_same t rows)).
  destruct Hm as [(r & Hr & Er)|m Hne Em Hi].
  - change (filter (fun r0 => Reqb (lpos r0) t) rows) with (same t rows).
    assert (Hs : In r (same t rows)) by (unfold same; rewrite filter_In, Reqb_true; auto).
    rewrite E at 3. clear E. set (A := lower t rows) in *. set (M := same t rows) in *. set (C := upper t rows) in *.
    clearbody A M C. destruct M as [|m0 M]; [contradiction|].
    assert (lpos m0 = t) by (apply LM; now left).
    destruct A as [|r0 A].
    + cbn [app]. rewrite !interp_val_cons. assert (Rltb x (lpos m0) = true) as -> by (apply Rltb_true; lra). auto.
    + cbn [app]. rewrite !interp_val_cons. destruct (Rltb x (lpos r0)); auto.
      apply ifr_ext. cbn [app]. rewrite !ifr_cons.
      assert (Rleb (lpos m0) x = false) as -> by (apply Rleb_false; lra). auto.
  - assert (Ms : same t rows = []) by (apply filter_nil_all; intros a Ha; apply Reqb_false; auto).
    rewrite Ms in E. cbn [app] in E.
    pose proof (interpolates_val rows c t _ S WF (Hi c)) as Hv. change (load_of c m) with (lcomp c m) in Hv. rewrite E in Hv. rewrite E at 2.
    assert (N' : lower t rows ++ upper t rows <> []) by congruence.
    clear E Hi Ms Hne. set (A := lower t rows) in *. set (C := upper t rows) in *.
    clearbody A C. destruct A as [|r0 A].
    + cbn [app] in *. destruct C as [|c0 C]; [congruence|].
      rewrite !interp_val_cons in *. assert (t < lpos c0) by (apply LC; now left).
      assert (Rltb t (lpos c0) = true) as Q by (apply Rltb_true; lra). rewrite Q in Hv.
      assert (Rltb x (lpos c0) = true) as -> by (apply Rltb_true; lra).
      assert (Rltb x (lpos m) = true) as -> by (apply Rltb_true; lra). auto.
    + cbn [app] in *. rewrite !interp_val_cons in *.
      assert (lpos r0 < t) by (apply LA; now left).
      assert (Rltb t (lpos r0) = false) as Q by (apply Rltb_false; lra). rewrite Q in Hv.
      rewrite ifr_skip in Hv by (intros q Hq; assert (lpos q < t) by (apply LA; now right); lra).
      destruct (Rltb x (lpos r0)); auto. apply ifr_ext.
      set (q := last A r0) in *.
      assert (lpos q < t). { apply LA. unfold q. destruct (last_in A r0) as [->|]; [now left|now right]. }
      clearbody q. rewrite !ifr_cons.
      assert (Rleb (lpos m) x = false) as -> by (apply Rleb_false; lra).
      rewrite Em.
      destruct C as [|c0 C].
      * rewrite ifr_nil in *. rewrite Hv. destruct (Reqb (lpos q) x); auto. unfold Rdiv. ring.
      * assert (t < lpos c0) by (apply LC; now left). rewrite ifr_cons in *.
        assert (Rleb (lpos c0) x = false) as -> by (apply Rleb_false; lra).
        assert (Q1 : Rleb (lpos c0) t = false) by (apply Rleb_false; lra). rewrite Q1 in Hv.
        assert (Q2 : Reqb (lpos q) t = false) by (apply Reqb_false; lra). rewrite Q2 in Hv.
        destruct (Reqb (lpos q) x); auto. rewrite Hv. field. lra.
Qed.

(** ** Above the cut *)
Lemma cut_right_val rows t mid x c : well_formed rows -> rows_at_cut rows t mid -> t < x ->
  (forall r, In r rows -> lpos r <> x) -> rows <> [] ->
  interp_val (mid ++ upper t rows) x c = interp_val rows x c.
Proof.
  intros W Hm Hx Hn N. destruct W as [S W]. pose proof (conj S W) as WF.
  assert (E : rows = lower t rows ++ same t rows ++ upper t rows) by now apply split_sorted.
  assert (LA : forall q, In q (lower t rows) -> lpos q < t) by (intros; now apply (in_lower t rows)).
  assert (LC : forall q, In q (upper t rows) -> t < lpos q) by (intros; now apply (in_upper t rows)).
  assert (LM : forall q, In q (same t rows) -> lpos q = t) by (intros; now apply (in_same t rows)).
  destruct Hm as [(r & Hr & Er)|m Hne Em Hi].
  - change (filter (fun r0 => Reqb (lpos r0) t) rows) with (same t rows).
    assert (Hs : In r (same t rows)) by (unfold same; rewrite filter_In, Reqb_true; auto).
    rewrite E at 3. clear E. set (A := lower t rows) in *. set (M := same t rows) in *. set (C := upper t rows) in *.
    clearbody A M C. destruct M as [|m0 M]; [contradiction|].
    assert (lpos m0 = t) by (apply LM; now left).
    destruct A as [|r0 A]; auto.
    cbn [app]. rewrite !interp_val_cons.
    assert (lpos r0 < t) by (apply LA; now left).
    assert (Rltb x (lpos m0) = false) as -> by (apply Rltb_false; lra).
    assert (Rltb x (lpos r0) = false) as -> by (apply Rltb_false; lra).
    rewrite (ifr_skip x c A) by (intros q Hq; assert (lpos q < t) by (apply LA; now right); lra).
    rewrite ifr_cons. assert (Rleb (lpos m0) x = true) as -> by (apply Rleb_true; lra). auto.
  - assert (Ms : same t rows = []) by (apply filter_nil_all; intros a Ha; apply Reqb_false; auto).
    rewrite Ms in E. cbn [app] in E.
    pose proof (interpolates_val rows c t _ S WF (Hi c)) as Hv. change (load_of c m) with (lcomp c m) in Hv. rewrite E in Hv. rewrite E at 2.
    assert (N' : lower t rows ++ upper t rows <> []) by congruence.
    clear E Hi Ms Hne. set (A := lower t rows) in *. set (C := upper t rows) in *.
    clearbody A C. destruct A as [|r0 A].
    + cbn [app] in *. destruct C as [|c0 C]; [congruence|].
      rewrite !interp_val_cons in *. assert (t < lpos c0) by (apply LC; now left).
      assert (Rltb t (lpos c0) = true) as Q by (apply Rltb_true; lra). rewrite Q in Hv.
      assert (Rltb x (lpos m) = false) as -> by (apply Rltb_false; lra).
      rewrite ifr_cons. destruct (Rltb x (lpos c0)) eqn:Q1.
      * apply Rltb_true in Q1. assert (Rleb (lpos c0) x = false) as -> by (apply Rleb_false; lra).
        rewrite Em. assert (Reqb t x = false) as -> by (apply Reqb_false; lra). rewrite Hv. unfold Rdiv. ring.
      * apply Rltb_false in Q1. assert (Rleb (lpos c0) x = true) as -> by (apply Rleb_true; lra). auto.
    + cbn [app] in *. rewrite !interp_val_cons in *.
      assert (lpos r0 < t) by (apply LA; now left).
      assert (Rltb t (lpos r0) = false) as Q by (apply Rltb_false; lra). rewrite Q in Hv.
      rewrite ifr_skip in Hv by (intros q Hq; assert (lpos q < t) by (apply LA; now right); lra).
      assert (Rltb x (lpos m) = false) as -> by (apply Rltb_false; lra).
      assert (Rltb x (lpos r0) = false) as -> by (apply Rltb_false; lra).
      rewrite ifr_skip by (intros q Hq; assert (lpos q < t) by (apply LA; now right); lra).
      set (q := last A r0) in *.
      assert (lpos q < t). { apply LA. unfold q. destruct (last_in A r0) as [->|]; [now left|now right]. }
      clearbody q. destruct C as [|c0 C].
      * rewrite ifr_nil in *. now rewrite ifr_nil.
      * assert (t < lpos c0) by (apply LC; now left). rewrite ifr_cons in *.
        assert (Q1 : Rleb (lpos c0) t = false) by (apply Rleb_false; lra). rewrite Q1 in Hv.
        assert (Q2 : Reqb (lpos q) t = false) by (apply Reqb_false; lra). rewrite Q2 in Hv.
        rewrite ifr_cons. destruct (Rleb (lpos c0) x) eqn:Q3; auto. apply Rleb_false in Q3.
        rewrite Em. assert (Reqb t x = false) as -> by (apply Reqb_false; lra).
        assert (Reqb (lpos q) x = false) as -> by (apply Reqb_false; lra). rewrite Hv. field. lra.
Qed.

(** ** Moving positions *)
Section Move.
Variables (f : R -> R) (k d : R).
Hypothesis Hk : 0 < k.
Hypothesis Hf : forall x, f x = k * x + d.

Lemma move_lt a b : Rltb (f a) (f b) = Rltb a b.
Proof. rewrite !Hf. unfold Rltb. destruct (Rlt_dec a b), (Rlt_dec (k * a + d) (k * b + d)); auto; nra. Qed.
Lemma move_le a b : Rleb (f a) (f b) = Rleb a b.
Proof. rewrite !Hf. unfold Rleb. destruct (Rle_dec a b), (Rle_dec (k * a + d) (k * b + d)); auto; nra. Qed.
Lemma move_eq a b : Reqb (f a) (f b) = Reqb a b.
Proof. rewrite !Hf. unfold Reqb. destruct (Req_EM_T a b), (Req_EM_T (k * a + d) (k * b + d)); auto; [subst; lra|].
  exfalso. apply n. apply Rmult_eq_reg_l with k; lra.
Qed.

Lemma move_comp c r : lcomp c (move f r) = lcomp c r.
Proof. destruct c; reflexivity. Qed.

Lemma move_ifr x c B : forall r, lpos r <= x -> ifr (f x) (move f r) (map (move f) B) c = ifr x r B c.
Proof.
  induction B as [|q B IH]; intros r Hr; cbn [map]; [now rewrite !ifr_nil, move_comp|].
  rewrite !ifr_cons, !move_comp. change (lpos (move f r)) with (f (lpos r)).
  change (lpos (move f q)) with (f (lpos q)). rewrite move_le, move_eq.
  destruct (Rleb (lpos q) x) eqn:E; [apply Rleb_true in E; auto|]. apply Rleb_false in E.
  destruct (Reqb (lpos r) x); auto. rewrite !Hf.
  assert (0 < k * (lpos q - lpos r)) by (apply Rmult_lt_0_compat; lra). field. split; lra.
Qed.

Lemma move_val x c rows : rows <> [] -> interp_val (map (move f) rows) (f x) c = interp_val rows x c.
Proof.
  destruct rows as [|r B]; [congruence|]. intros _. cbn [map]. rewrite !interp_val_cons, move_comp.
  change (lpos (move f r)) with (f (lpos r)). rewrite move_lt.
  destruct (Rltb x (lpos r)) eqn:E; auto. apply Rltb_false in E. now apply move_ifr.
Qed.

Lemma move_in x rows : py_in (f x) (map lpos (map (move f) rows)) = py_in x (map lpos rows).
Proof.
  unfold py_in. induction rows as [|r rows IH]; auto. cbn [map existsb]. rewrite IH. f_equal.
  apply (move_eq x (lpos r)).
Qed.

Lemma move_filter x rows : filter (fun r => neqb (lpos r) (f x)) (map (move f) rows)
  = map (move f) (filter (fun r => neqb (lpos r) x) rows).
Proof.
  induction rows as [|r rows IH]; auto. cbn [map filter]. rewrite IH.
  replace (neqb (lpos (move f r)) (f x)) with (neqb (lpos r) x) by (symmetry; apply (move_eq (lpos r) x)).
  now destruct (neqb (lpos r) x).
Qed.

Lemma move_block x rows cs : rows <> [] ->
  map snd (block (map (move f) rows) cs (f x)) = map snd (block rows cs x).
Proof.
  intros N. unfold block. rewrite move_in. destruct (py_in x (map lpos rows)).
  - rewrite move_filter, !map_map. apply map_ext. intros r. cbn. apply map_ext. intros c. now rewrite move_comp.
  - cbn [map snd]. f_equal. apply map_ext. intros c. now rewrite move_val.
Qed.
End Move.

(** ** Blocks of the halves *)

Lemma block_same_val (r1 r2 : list (lrow R)) cs x :
  filter (fun r => neqb (lpos r) x) r1 = filter (fun r => neqb (lpos r) x) r2 ->
  ((forall r, In r r2 -> lpos r <> x) -> forall c, interp_val r1 x c = interp_val r2 x c) ->
  block r1 cs x = block r2 cs x.
Proof.
  intros F V. unfold block.
  assert (G : forall rows : list (lrow R), py_in x (map lpos rows) =
    match filter (fun r => neqb (lpos r) x) rows with [] => false | _ => true end).
  { clear. induction rows as [|r rows IH]; auto. cbn [map filter]. unfold py_in in *. cbn [existsb].
    rewrite IH. cbn [neqb RNum]. assert (Reqb x (lpos r) = Reqb (lpos r) x) as ->.
    { unfold Reqb. destruct (Req_EM_T x (lpos r)), (Req_EM_T (lpos r) x); auto; congruence. }
    now destruct (Reqb (lpos r) x). }
  rewrite !G, F. destruct (filter (fun r => neqb (lpos r) x) r2) eqn:E; auto.
  do 2 f_equal. apply map_ext. intros c. f_equal. apply V. intros r Hr Er.
  assert (In r (filter (fun r => neqb (lpos r) x) r2)) as X; [|rewrite E in X; contradiction].
  apply filter_In. split; auto. now apply Reqb_true.
Qed.

Lemma mid_positions rows t mid : rows_at_cut rows t mid -> mid <> [] /\ forall r, In r mid -> lpos r = t.
Proof.
  intros [(r & Hr & Er)|m Hne Em Hi].
  - split.
    + intros E. assert (In r (filter (fun r => Reqb (lpos r) t) rows)) as X; [|rewrite E in X; contradiction].
      apply filter_In. split; auto. now apply Reqb_true.
    + intros q Hq. now apply (in_same t rows).
  - split; [discriminate|]. intros q [<-|[]]; auto.
Qed.

Lemma filter_keep (f g : lrow R -> bool) rows : (forall r, f r = true -> g r = true) ->
  filter f (filter g rows) = filter f rows.
Proof.
  intros H. induction rows as [|r rows IH]; auto. cbn [filter]. destruct (g r) eqn:E; cbn [filter].
  - now rewrite IH.
  - rewrite IH. destruct (f r) eqn:E2; auto. apply H in E2. congruence.
Qed.

Lemma left_block rows t left right x cs : accepted (Some rows) -> rows <> [] -> 0 < t ->
  table_cut rows t left right -> x < t ->
  map snd (block left cs (x / t)) = map snd (block rows cs x).
Proof.
  intros A N Ht (mid & Hm & -> & _) Hx. apply accepted_rows in A.
  destruct (mid_positions rows t mid Hm) as [Nm Pm].
  rewrite (move_block (fun x => x / t) (/ t) 0).
  - f_equal. apply block_same_val.
    + rewrite filter_app.
      rewrite (filter_nil_all _ mid) by (intros a Ha; apply Reqb_false; rewrite (Pm a Ha); lra).
      rewrite app_nil_r. apply filter_keep. intros r Er. apply Reqb_true in Er. apply Rltb_true. lra.
    + intros Hn c. apply cut_left_val; auto.
  - now apply Rinv_0_lt_compat.
  - intros y. unfold Rdiv. ring.
  - intros E. apply app_eq_nil in E. tauto.
Qed.

Lemma right_block rows t left right x cs : accepted (Some rows) -> rows <> [] -> t < 1 ->
  table_cut rows t left right -> t < x ->
  map snd (block right cs ((x - t) / (1 - t))) = map snd (block rows cs x).
Proof.
  intros A N Ht (mid & Hm & _ & ->) Hx. apply accepted_rows in A.
  destruct (mid_positions rows t mid Hm) as [Nm Pm].
  rewrite (move_block (fun x => (x - t) / (1 - t)) (/ (1 - t)) (- t * / (1 - t))).
  - f_equal. apply block_same_val.
    + rewrite filter_app.
      rewrite (filter_nil_all _ mid) by (intros a Ha; apply Reqb_false; rewrite (Pm a Ha); lra).
      apply filter_keep. intros r Er. apply Reqb_true in Er. apply Rltb_true. lra.
    + intros Hn c. apply cut_right_val; auto.
  - apply Rinv_0_lt_compat. lra.
  - intros y. field. lra.
  - intros E. apply app_eq_nil in E. tauto.
Qed.

(** The halves are acceptable tables. *)
Lemma sorted_app_rows (a b : list (lrow R)) :
  StronglySorted (fun a b => lpos a <= lpos b) a -> StronglySorted (fun a b => lpos a <= lpos b) b ->
  (forall x y, In x a -> In y b -> lpos x <= lpos y) -> StronglySorted (fun a b => lpos a <= lpos b) (a ++ b).
Proof.
  intros Ha Hb H. induction Ha as [|x a Ha IH F]; cbn; auto. constructor.
  - apply IH. intros; apply H; auto. now right.
  - apply Forall_app. split; auto. apply Forall_forall. intros y Hy. apply H; auto. now left.
Qed.

Lemma sorted_const (a : list (lrow R)) t : (forall r, In r a -> lpos r = t) ->
  StronglySorted (fun a b => lpos a <= lpos b) a.
Proof.
  induction a as [|x a IH]; intros H; constructor.
  - apply IH. intros; apply H; now right.
  - apply Forall_forall. intros y Hy. rewrite (H x), (H y) by (cbn; auto). lra.
Qed.

Lemma sorted_move f k d (Hk : 0 < k) (Hf : forall x, f x = k * x + d) rows :
  StronglySorted (fun a b => lpos a <= lpos b) rows ->
  StronglySorted (fun a b => lpos a <= lpos b) (map (move f) rows).
Proof.
  induction 1 as [|x a Ha IH F]; cbn; constructor; auto. apply Forall_map.
  eapply Forall_impl; [|exact F]. cbn. intros y Hy. rewrite !Hf. nra.
Qed.

Lemma sorted_filter_rows f rows : StronglySorted (fun a b => lpos a <= lpos b) rows ->
  StronglySorted (fun a b : lrow R => lpos a <= lpos b) (filter f rows).
Proof.
  induction 1 as [|x l H IH F]; cbn; [constructor|]. destruct (f x); auto. constructor; auto.
  rewrite Forall_forall in *. intros y Hy. apply filter_In in Hy. now apply F.
Qed.

Lemma cut_accepted rows t left right : accepted (Some rows) -> 0 < t < 1 -> table_cut rows t left right ->
  (accepted (Some left) /\ left <> []) /\ (accepted (Some right) /\ right <> []).
Proof.
  intros A Ht (mid & Hm & -> & ->). apply accepted_rows in A. destruct A as [S F].
  destruct (mid_positions rows t mid Hm) as [Nm Pm]. rewrite Forall_forall in F.
  split; (split; [apply accepted_rows; split|]).
  - apply (sorted_move _ (/ t) 0); [apply Rinv_0_lt_compat; lra|intros; unfold Rdiv; ring|].
    apply sorted_app_rows; [now apply sorted_filter_rows|now apply sorted_const with t|].
    intros x y Hx Hy. apply filter_In in Hx. rewrite Rltb_true in Hx. rewrite (Pm y Hy). lra.
  - apply Forall_map. apply Forall_forall. intros r Hr. cbn [lpos move].
    assert (0 <= lpos r <= t).
    { apply in_app_iff in Hr. destruct Hr as [Hr|Hr]; [|rewrite (Pm r Hr); lra].
      apply filter_In in Hr. rewrite Rltb_true in Hr. destruct Hr as [Hr L]. specialize (F r Hr). lra. }
    split; [apply Rmult_le_pos; [lra|]; apply Rlt_le, Rinv_0_lt_compat; lra|].
    apply Rmult_le_reg_r with t; [lra|]. unfold Rdiv. rewrite Rmult_assoc, Rinv_l; lra.
  - intros E. apply map_eq_nil in E. apply app_eq_nil in E. tauto.
  - apply (sorted_move _ (/ (1 - t)) (- t * / (1 - t))); [apply Rinv_0_lt_compat; lra|intros; field; lra|].
    apply sorted_app_rows; [now apply sorted_const with t|now apply sorted_filter_rows|].
    intros x y Hx Hy. apply filter_In in Hy. rewrite Rltb_true in Hy. rewrite (Pm x Hx). lra.
  - apply Forall_map. apply Forall_forall. intros r Hr. cbn [lpos move].
    assert (t <= lpos r <= 1).
    { apply in_app_iff in Hr. destruct Hr as [Hr|Hr]; [rewrite (Pm r Hr); lra|].
      apply filter_In in Hr. rewrite Rltb_true in Hr. destruct Hr as [Hr L]. specialize (F r Hr). lra. }
    split; [apply Rmult_le_pos; [lra|]; apply Rlt_le, Rinv_0_lt_compat; lra|].
    apply Rmult_le_reg_r with (1 - t); [lra|]. unfold Rdiv. rewrite Rmult_assoc, Rinv_l; lra.
  - intros E. apply map_eq_nil in E. apply app_eq_nil in E. tauto.
Qed.
