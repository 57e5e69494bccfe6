(** [get_load] computes, position by position, the stored or interpolated rows. *)

From Coq Require Import ZArith List Bool Lia Permutation Sorted.
From Verif Require Import Base Num Numpy OrdFacts LoadCase.
Import ListNotations.

Section Load.
Context {T : Type} {NT : Num T} {ok : T -> Prop} {NO : NumOrd T ok}.

(** Rows of floats with comparable positions in ascending order. *)
Definition row_ok (r : lrow T) : Prop :=
  ok (lpos r) /\ forall c, nisfloat (lcomp c r) = true.
Definition table_ok (rows : list (lrow T)) : Prop :=
  Forall row_ok rows /\ sorted lpos rows.

(** numpy's argsort, whatever it does with ties. *)
Definition argsort_ok (qs : argsort_oracle T) : Prop :=
  forall l, Permutation (qs l) l /\ StronglySorted (fun a b => fst a <= fst b)%nat (qs l).

(** The interpolated value of component c at p. *)
Definition interp_val (rows : list (lrow T)) (p : T) (c : comp) : T :=
  match rows with
  | [] => p
  | r :: rs => if nltb p (lpos r) then lcomp c r
               else interp_from p (lpos r) (lcomp c r)
                      (map (fun r => (lpos r, lcomp c r)) rs) None
  end.

(** The rows reported for one position. *)
Definition block (rows : list (lrow T)) (cs : list comp) (p : T) : list (orow T) :=
  if py_in p (map lpos rows)
  then map (pick cs) (filter (fun r => neqb (lpos r) p) rows)
  else [(p, map (fun c => Some (interp_val rows p c)) cs)].

(** * Small list facts *)

Lemma mapM_ok {A B} (f : A -> res B) (g : A -> B) l :
  (forall a, In a l -> f a = Ok (g a)) -> mapM f l = Ok (map g l).
Proof.
  induction l as [|a l IH]; intros H; cbn; auto.
  rewrite (H a) by (cbn; auto). cbn. rewrite IH; auto. intros. apply H. cbn. auto.
Qed.

Lemma transpose_map {A} (f : comp -> A -> T) ps cs :
  transpose (length ps) (map (fun c => map (f c) ps) cs)
  = map (fun p => map (fun c => f c p) cs) ps.
Proof.
  induction ps as [|p ps IH]; cbn; auto. f_equal.
  - rewrite map_map. reflexivity.
  - rewrite map_map. cbn. exact IH.
Qed.

Lemma combine_map {A B} (f : A -> B) l : combine l (map f l) = map (fun a => (a, f a)) l.
Proof. induction l; cbn; congruence. Qed.

Lemma map_snd_combine_seq {A} (l : list A) : forall n, map snd (combine (seq n (length l)) l) = l.
Proof. induction l; intros; cbn; auto. now rewrite IHl. Qed.

Lemma filter_map_comm {A B} (f : A -> B) (p : B -> bool) l :
  filter p (map f l) = map f (filter (fun a => p (f a)) l).
Proof. induction l; cbn; auto. destruct (p (f a)); cbn; congruence. Qed.

Lemma filter_none {A} (p : A -> bool) l : (forall x, In x l -> p x = false) -> filter p l = [].
Proof.
  induction l as [|x l IH]; intros H; cbn; auto. rewrite (H x) by (cbn; auto).
  apply IH. intros. apply H. cbn. auto.
Qed.

Lemma filter_all {A} (p : A -> bool) l : (forall x, In x l -> p x = true) -> filter p l = l.
Proof.
  induction l as [|x l IH]; intros H; cbn; auto. rewrite (H x) by (cbn; auto). f_equal.
  apply IH. intros. apply H. cbn. auto.
Qed.

Lemma filter_ext_in' {A} (p q : A -> bool) l :
  (forall x, In x l -> p x = q x) -> filter p l = filter q l.
Proof.
  induction l as [|x l IH]; intros H; cbn; auto. rewrite (H x) by (cbn; auto).
  rewrite IH; auto. intros. apply H. cbn. auto.
Qed.

Lemma filter_filter {A} (p q : A -> bool) l :
  filter p (filter q l) = filter (fun x => q x && p x) l.
Proof. induction l as [|x l IH]; cbn; auto. destruct (q x); cbn; [destruct (p x)|]; congruence. Qed.

(** * Interpolation *)

Lemma interp1_value rows p c : Forall row_ok rows -> rows <> [] -> ok p ->
  interp1 p (combine (map lpos rows) (map (lcomp c) rows)) None None = Ok (interp_val rows p c).
Proof.
  intros H N Hp. unfold interp1.
  assert (E : map (fun q : T * T => (nfloat (fst q), nfloat (snd q)))
                (combine (map lpos rows) (map (lcomp c) rows))
              = map (fun r => (lpos r, lcomp c r)) rows).
  { clear N. induction H as [|r rows [H1 H2] H IH]; cbn; auto. rewrite IH. f_equal. f_equal.
    - apply (ord_float (ok := ok)). now apply (ord_isfloat (ok := ok)).
    - apply (ord_float (ok := ok)). apply H2. }
  rewrite E. destruct rows as [|r rows]; [congruence|]. cbn [map].
  rewrite (ord_float (ok := ok) p) by now apply (ord_isfloat (ok := ok)).
  cbn [interp_val]. destruct (nltb p (lpos r)); reflexivity.
Qed.

Lemma multi_interp_value rows ps cs : Forall row_ok rows -> rows <> [] -> Forall ok ps -> cs <> [] ->
  multi_interp (XArr ps) (map lpos rows) (Fp2 (map (fun c => map (lcomp c) rows) cs)) None None
  = Ok (map (fun c => map (fun p => interp_val rows p c) ps) cs).
Proof.
  intros H N Hp C. unfold multi_interp.
  destruct (map (fun c => map (lcomp c) rows) cs) eqn:E; [destruct cs; [congruence|discriminate]|].
  rewrite <- E. clear E.
  assert (G : forall cs', mapM (fun f => np_interp ps (map lpos rows) f None None)
      (map (fun c => map (lcomp c) rows) cs')
    = Ok (map (fun c => map (fun p => interp_val rows p c) ps) cs')); [|apply G].
  induction cs' as [|c cs' IH]; cbn [map mapM]; auto.
  unfold np_interp at 1. rewrite !map_length, Nat.eqb_refl.
  rewrite (mapM_ok _ (fun p => interp_val rows p c)).
  - cbn [bind]. rewrite IH. reflexivity.
  - intros p Hp'. rewrite Forall_forall in Hp. apply interp1_value; auto.
Qed.

(** * Blocks *)

Lemma pick_float cs r : row_ok r -> orow_float (pick cs r) = pick cs r.
Proof.
  intros [H1 H2]. unfold orow_float, pick. cbn. f_equal.
  - apply (ord_float (ok := ok)). now apply (ord_isfloat (ok := ok)).
  - rewrite map_map. apply map_ext. intros c. cbn. f_equal. apply (ord_float (ok := ok)). apply H2.
Qed.

Lemma block_pos rows cs p r : Forall row_ok rows -> ok p -> In r (block rows cs p) ->
  ok (fst r) /\ eqv (fst r) p.
Proof.
  intros H Hp. unfold block. destruct (py_in p (map lpos rows)).
  - intros Hr. apply in_map_iff in Hr. destruct Hr as (x & <- & Hx). apply filter_In in Hx.
    rewrite Forall_forall in H. destruct Hx as [Hx E]. split; auto. apply H in Hx. apply Hx.
  - intros [<-|[]]. split; auto. now apply eqv_refl.
Qed.

Lemma block_nonempty rows cs p : Forall row_ok rows -> ok p -> block rows cs p <> [].
Proof.
  intros H Hp. unfold block. destruct (py_in p (map lpos rows)) eqn:E; [|discriminate].
  apply py_in_iff in E. destruct E as (y & Hy & E). apply in_map_iff in Hy.
  destruct Hy as (r & <- & Hr). intros F. apply map_eq_nil in F.
  assert (In r (filter (fun r => neqb (lpos r) p) rows)).
  { apply filter_In. split; auto. rewrite Forall_forall in H. apply H in Hr. destruct Hr.
    apply (eqv_sym (ok := ok)); auto. }
  rewrite F in H0. contradiction.
Qed.

Lemma block_eqv_filter rows cs p k : Forall row_ok rows -> ok p -> ok k ->
  filter (fun r => neqb (fst r) k) (block rows cs p) = if neqb p k then block rows cs p else [].
Proof.
  intros H Hp Hk. destruct (neqb p k) eqn:E.
  - apply filter_all. intros r Hr. apply block_pos in Hr; auto.
    apply (eqv_trans (ok := ok)) with p; tauto.
  - apply filter_none. intros r Hr. apply block_pos in Hr; auto.
    rewrite (neqb_eqv_l (ok := ok) (fst r) p k); tauto.
Qed.

Definition rpos (r : orow T) : T := fst r.

Lemma blocks_filter rows cs sp k : Forall row_ok rows -> Forall ok sp -> ascending sp -> ok k ->
  filter (fun r => neqb (rpos r) k) (flat_map (block rows cs) sp) =
  match find (fun p => neqb p k) sp with Some p => block rows cs p | None => [] end.
Proof.
  intros H Hs A Hk. induction A as [|p sp A IH F]; cbn; auto.
  apply Forall_cons_iff in Hs. destruct Hs as [Hp Hs].
  rewrite filter_app. unfold rpos at 1. rewrite block_eqv_filter by auto.
  destruct (neqb p k) eqn:E.
  - rewrite IH by auto.
    assert (find (fun p => neqb p k) sp = None) as ->; [|apply app_nil_r].
    clear IH. rewrite Forall_forall in F, Hs. clear A. induction sp as [|q sp IHs]; auto. cbn.
    assert (neqb q k = false) as ->.
    { rewrite (neqb_sym (ok := ok)) by (auto; apply Hs; cbn; auto).
      rewrite <- (neqb_eqv_l (ok := ok) p k q); auto; [|apply Hs; cbn; auto].
      apply (lt_not_eqv (ok := ok)); auto; [apply Hs; cbn; auto|apply F; cbn; auto]. }
    apply IHs; intros; [apply Hs|apply F]; cbn; auto.
  - now apply IH.
Qed.

Lemma blocks_okk rows cs sp : Forall row_ok rows -> Forall ok sp ->
  okk (ok := ok) rpos (flat_map (block rows cs) sp).
Proof.
  intros H Hs. unfold okk. rewrite Forall_forall in *. intros r Hr. apply in_flat_map in Hr.
  destruct Hr as (p & Hp & Hr). apply block_pos in Hr; auto; [apply Hr|now rewrite Forall_forall].
Qed.

Lemma block_sorted rows cs p : Forall row_ok rows -> ok p -> sorted rpos (block rows cs p).
Proof.
  intros H Hp. assert (G : forall r, In r (block rows cs p) -> ok (fst r) /\ eqv (fst r) p).
  { intros r Hr. eapply block_pos; eauto. }
  induction (block rows cs p) as [|r l IH]; constructor.
  - apply IH. intros. apply G. cbn. auto.
  - rewrite Forall_forall. intros s Hs. destruct (G r) as [K1 E1]; [cbn; auto|].
    destruct (G s) as [K2 E2]; [cbn; auto|].
    assert (eqv (fst r) (fst s)). { apply (eqv_trans (ok := ok)) with p; auto. apply (eqv_sym (ok := ok)); auto. }
    apply (eqv_iff (ok := ok)) in H0; tauto.
Qed.

Lemma blocks_sorted rows cs sp : Forall row_ok rows -> Forall ok sp -> ascending sp ->
  sorted rpos (flat_map (block rows cs) sp).
Proof.
  intros H Hs A. induction A as [|p sp A IH F]; cbn; [constructor|].
  apply Forall_cons_iff in Hs. destruct Hs as [Hp Hs]. apply sorted_app.
  - now apply block_sorted.
  - now apply IH.
  - intros x y Hx Hy. apply block_pos in Hx; auto. apply in_flat_map in Hy.
    destruct Hy as (q & Hq & Hy). rewrite Forall_forall in F, Hs.
    apply block_pos in Hy; auto. destruct Hx as [K1 E1], Hy as [K2 E2].
    apply (eqv_iff (ok := ok)) in E1, E2; auto.
    apply (le_trans (ok := ok)) with p; auto; [tauto|].
    apply (le_trans (ok := ok)) with q; auto; [|tauto]. apply (lt_le (ok := ok)); auto.
Qed.

(** The stored rows at the requested positions, when every requested position is stored. *)
Lemma direct_blocks rows cs sp (sel : T -> bool) :
  table_ok rows -> Forall ok sp -> ascending sp ->
  (forall r, In r rows -> sel (lpos r) = py_in (lpos r) sp) ->
  (forall p, In p sp -> py_in p (map lpos rows) = true) ->
  map (pick cs) (filter (fun r => sel (lpos r)) rows) = flat_map (block rows cs) sp.
Proof.
  intros [H S] Hs A Hsel Hin.
  apply (sorted_unique (ok := ok) rpos).
  - unfold okk. rewrite Forall_forall. intros r Hr. apply in_map_iff in Hr.
    destruct Hr as (x & <- & Hx). apply filter_In in Hx. rewrite Forall_forall in H.
    apply (H x). tauto.
  - now apply blocks_okk.
  - assert (G : sorted lpos (filter (fun r => sel (lpos r)) rows)) by now apply sorted_filter.
    induction G as [|r l G IH F]; cbn; constructor; auto.
    rewrite Forall_forall in *. intros s Hs'. apply in_map_iff in Hs'.
    destruct Hs' as (x & <- & Hx). now apply F.
  - now apply blocks_sorted.
  - intros x Hx.
    assert (Kx : ok (rpos x)).
    { destruct Hx as [Hx|Hx].
      - apply in_map_iff in Hx. destruct Hx as (y & <- & Hy). apply filter_In in Hy.
        rewrite Forall_forall in H. apply (H y). tauto.
      - pose proof (blocks_okk rows cs sp H Hs) as K. unfold okk in K.
        rewrite Forall_forall in K. now apply K. }
    rewrite blocks_filter by auto. rewrite filter_map_comm, filter_filter. unfold rpos at 1.
    cbn [pick fst].
    destruct (find (fun p => neqb p (rpos x)) sp) as [p|] eqn:E.
    + apply find_some in E. destruct E as [Hp E]. unfold block. rewrite (Hin p Hp). f_equal.
      apply filter_ext_in'. intros r Hr.
      rewrite Forall_forall in H, Hs. destruct (H r Hr) as [Kr _]. specialize (Hs p Hp) as Kp.
      rewrite (Hsel r Hr). destruct (neqb (lpos r) (rpos x)) eqn:Er.
      * rewrite andb_true_r. rewrite (neqb_eqv_r (ok := ok) p (rpos x) (lpos r)) by auto.
        rewrite Er. apply py_in_iff. exists p. split; auto.
        apply (eqv_trans (ok := ok)) with (rpos x); auto. now apply (eqv_sym (ok := ok)).
      * rewrite andb_false_r. rewrite (neqb_eqv_r (ok := ok) p (rpos x) (lpos r)) by auto. auto.
    + match goal with |- map _ ?f = [] => assert (F : f = []); [|rewrite F; reflexivity] end.
      apply filter_none. intros r Hr. rewrite (Hsel r Hr).
      destruct (py_in (lpos r) sp) eqn:Ei; auto. cbn.
      apply py_in_iff in Ei. destruct Ei as (p & Hp & Ep).
      rewrite Forall_forall in H, Hs. destruct (H r Hr) as [Kr _].
      rewrite (neqb_eqv_l (ok := ok) (lpos r) p (rpos x)); auto.
      apply (find_none _ _ E p Hp).
Qed.

(** * The split-and-merge path *)

Lemma sorted_lt_perm {A} (l : list (nat * A)) : forall m, Permutation l m ->
  StronglySorted (fun a b => fst a < fst b)%nat l ->
  StronglySorted (fun a b => fst a <= fst b)%nat m -> l = m.
Proof.
  induction l as [|x l IH]; intros m P Sl Sm.
  - now apply Permutation_nil in P.
  - destruct m as [|y m]; [symmetry in P; now apply Permutation_nil in P|].
    apply StronglySorted_inv in Sl, Sm. destruct Sl as [Sl Fl], Sm as [Sm Fm].
    rewrite Forall_forall in Fl, Fm.
    assert (Hx : In x (y :: m)) by (apply Permutation_in with (x :: l); cbn; auto).
    assert (Hy : In y (x :: l)) by (apply Permutation_in with (y :: m); [now symmetry|cbn; auto]).
    assert (x = y).
    { destruct Hy as [|Hy]; auto. destruct Hx as [|Hx]; auto.
      specialize (Fl y Hy). specialize (Fm x Hx). lia. }
    subst y. f_equal. apply IH; auto. now apply Permutation_cons_inv in P.
Qed.

Lemma combine_seq_sorted {A} (l : list A) : forall n,
  StronglySorted (fun a b => fst a < fst b)%nat (combine (seq n (length l)) l)
  /\ Forall (fun a => n <= fst a)%nat (combine (seq n (length l)) l).
Proof.
  induction l as [|x l IH]; intros n; cbn; [split; constructor|].
  destruct (IH (S n)) as [I1 I2]. split; constructor; cbn; auto.
  rewrite Forall_forall in *. intros a Ha. specialize (I2 a Ha). lia.
Qed.

Lemma filter_combine_seq_map {A} (p : A -> bool) (l : list A) : forall n,
  map snd (filter (fun a => p (snd a)) (combine (seq n (length l)) l)) = filter p l.
Proof.
  induction l as [|x l IH]; intros n; cbn; auto. destruct (p x); cbn; rewrite IH; auto.
Qed.

Lemma StronglySorted_filter {A} (R : A -> A -> Prop) (p : A -> bool) l :
  StronglySorted R l -> StronglySorted R (filter p l).
Proof.
  intros H. induction H as [|x l H IH F]; cbn; [constructor|].
  destruct (p x); auto. constructor; auto.
  rewrite Forall_forall in *. intros z Hz. apply filter_In in Hz. apply F. tauto.
Qed.

Lemma Permutation_filter {A} (p : A -> bool) l m : Permutation l m ->
  Permutation (filter p l) (filter p m).
Proof.
  intros P. induction P; cbn; auto.
  - destruct (p x); auto.
  - destruct (p x), (p y); auto. apply perm_swap.
  - now transitivity (filter p l').
Qed.

Lemma merge_lists qs (d i : list (orow T)) (M : list (orow T)) :
  argsort_ok qs ->
  okk (ok := ok) rpos d -> okk (ok := ok) rpos i ->
  okk (ok := ok) rpos M -> sorted rpos M ->
  (forall k, ok k -> filter (fun r => neqb (rpos r) k) i = [] /\
                     filter (fun r => neqb (rpos r) k) d = filter (fun r => neqb (rpos r) k) M
                  \/ filter (fun r => neqb (rpos r) k) d = [] /\
                     filter (fun r => neqb (rpos r) k) i = filter (fun r => neqb (rpos r) k) M) ->
  map snd (sort_by (fun r => fst (snd r))
     (qs (combine (seq 0 (length d)) d ++ combine (seq 0 (length i)) i))) = M.
Proof.
  intros Hqs Kd Ki KM SM HF.
  set (all := combine (seq 0 (length d)) d ++ combine (seq 0 (length i)) i).
  destruct (Hqs all) as [P S].
  set (key := fun r : nat * orow T => rpos (snd r)).
  change (map snd (sort_by key (qs all)) = M).
  assert (Kall : okk (ok := ok) key all).
  { unfold okk, all. apply Forall_app.
    assert (G : forall l n, okk (ok := ok) rpos l ->
      Forall (fun a => ok (key a)) (combine (seq n (length l)) l)).
    { induction l as [|x l IH]; intros n K; cbn; constructor; apply Forall_cons_iff in K.
      - unfold key. cbn. apply K.
      - apply IH. apply K. }
    split; now apply G. }
  assert (Kqs : okk (ok := ok) key (qs all)).
  { unfold okk in *. rewrite Forall_forall in *. intros x Hx. apply Kall.
    now apply Permutation_in with (qs all). }
  assert (Ks : okk (ok := ok) key (sort_by key (qs all))) by now apply sort_okk.
  apply (sorted_unique (ok := ok) rpos).
  - unfold okk in *. rewrite Forall_forall in *. intros x Hx. apply in_map_iff in Hx.
    destruct Hx as (y & <- & Hy). apply (Ks y Hy).
  - auto.
  - assert (G : sorted key (sort_by key (qs all))) by now apply sort_sorted.
    induction G as [|x l G IH F]; cbn; constructor.
    + apply IH. now apply Forall_cons_iff in Ks.
    + rewrite Forall_forall in *. intros z Hz. apply in_map_iff in Hz.
      destruct Hz as (y & <- & Hy). apply (F y Hy).
  - auto.
  - intros x Hx.
    assert (Kx : ok (rpos x)).
    { destruct Hx as [Hx|Hx].
      - apply in_map_iff in Hx. destruct Hx as (y & <- & Hy). unfold okk in Ks.
        rewrite Forall_forall in Ks. apply (Ks y Hy).
      - unfold okk in KM. rewrite Forall_forall in KM. now apply KM. }
    set (k := rpos x) in *.
    rewrite filter_map_comm.
    change (fun a : nat * orow T => neqb (rpos (snd a)) k) with (fun a => neqb (key a) k).
    rewrite sort_filter by auto.
    assert (G : filter (fun a => neqb (key a) k) all = filter (fun a => neqb (key a) k) (qs all)).
    { apply sorted_lt_perm.
      - apply Permutation_filter. now symmetry.
      - unfold all. rewrite filter_app.
        assert (Z : forall l, filter (fun r => neqb (rpos r) k) l = [] ->
          filter (fun a => neqb (key a) k) (combine (seq 0 (length l)) l) = []).
        { intros l Hl. apply map_eq_nil with (f := snd).
          rewrite (filter_combine_seq_map (fun r => neqb (rpos r) k)). exact Hl. }
        destruct (HF k Kx) as [[Z1 _]|[Z1 _]]; rewrite (Z _ Z1); rewrite ?app_nil_r; cbn [app];
          apply StronglySorted_filter; apply combine_seq_sorted.
      - now apply StronglySorted_filter. }
    rewrite <- G. unfold all. rewrite filter_app, map_app.
    rewrite !(filter_combine_seq_map (fun r => neqb (rpos r) k)).
    destruct (HF k Kx) as [[Z1 Z2]|[Z1 Z2]]; rewrite Z1, Z2; rewrite ?app_nil_r; reflexivity.
Qed.

(** * The main lemma *)

Lemma direct_filter rows cs sp k : table_ok rows -> Forall ok sp -> ascending sp -> ok k ->
  py_in k (map lpos rows) = true ->
  filter (fun r => neqb (rpos r) k)
    (map (pick cs) (filter (fun r => py_in (lpos r) (filter (fun p => py_in p (map lpos rows)) sp)) rows))
  = filter (fun r => neqb (rpos r) k) (flat_map (block rows cs) sp).
Proof.
  intros Ht Hs A Hk Hin. pose proof Ht as [H S].
  assert (Hd : Forall ok (filter (fun p => py_in p (map lpos rows)) sp)).
  { rewrite Forall_forall in *. intros p Hp. apply filter_In in Hp. apply Hs. tauto. }
  rewrite (direct_blocks rows cs (filter (fun p => py_in p (map lpos rows)) sp)
            (fun p => py_in p (filter (fun p => py_in p (map lpos rows)) sp))); auto.
  - rewrite !blocks_filter; auto; [|apply StronglySorted_filter; auto].
    assert (E : find (fun p => neqb p k) (filter (fun p => py_in p (map lpos rows)) sp)
                = find (fun p => neqb p k) sp).
    { clear A Hd. induction sp as [|p sp IH]; cbn; auto. apply Forall_cons_iff in Hs.
      destruct (neqb p k) eqn:E.
      - rewrite (py_in_eqv (ok := ok) p k); try tauto.
        + rewrite Hin. cbn. now rewrite E.
        + rewrite Forall_forall in *. intros x Hx. apply in_map_iff in Hx.
          destruct Hx as (r & <- & Hr). apply (H r Hr).
      - destruct (py_in p (map lpos rows)); cbn; rewrite ?E; apply IH; tauto. }
    now rewrite E.
  - apply StronglySorted_filter; auto.
  - intros p Hp. apply filter_In in Hp. tauto.
Qed.

Lemma load_pos_ok rows : Forall row_ok rows -> Forall ok (map lpos rows).
Proof.
  intros H. rewrite Forall_forall in *. intros x Hx. apply in_map_iff in Hx.
  destruct Hx as (r & <- & Hr). apply (H r Hr).
Qed.

(** Results of [get_load] once the position list is known. *)
Theorem get_load_blocks qs rows position mp component sp cs :
  argsort_ok qs -> table_ok rows -> rows <> [] ->
  list_positions (Some rows) mp position = Ok sp -> Forall ok sp -> ascending sp -> sp <> [] ->
  components component = Ok cs -> cs <> [] ->
  get_load qs (Some rows) position mp component = Ok (Some (flat_map (block rows cs) sp)).
Proof.
  intros Hqs Ht Hn Hl Hs A Hsn Hc Hcn. pose proof Ht as [H S].
  pose proof (load_pos_ok rows H) as Hlp.
  unfold get_load. rewrite Hl. cbn [bind]. rewrite Hc. cbn [bind].
  set (lp := map lpos rows) in *.
  set (pd := filter (fun p => py_in p lp) sp).
  set (pi := filter (fun p => negb (py_in p lp)) sp).
  destruct (array_equal sp (np_unique lp)) eqn:E.
  { (* the fast path *)
    do 2 f_equal. apply array_equal_iff in E.
    rewrite <- (direct_blocks rows cs sp (fun p => py_in p sp)); auto.
    - f_equal. symmetry. apply filter_all. intros r Hr.
      assert (Hr' : In (lpos r) lp) by (now apply in_map).
      destruct (sorted_set_has (ok := ok) lp (lpos r) Hlp Hr') as (y & Hy & Ey).
      apply py_in_iff.
      assert (exists x, In x sp /\ eqv x y) as (x & Hx & Ex).
      { clear -E Hy. unfold np_unique in E. induction E; [contradiction|].
        destruct Hy as [<-|Hy]; [exists x; cbn; auto|].
        destruct (IHE Hy) as (z & Hz & Ez). exists z. cbn. auto. }
      exists x. split; auto. rewrite Forall_forall in Hs, Hlp.
      assert (ok y) by (apply Hlp; now apply sorted_set_incl).
      apply (eqv_trans (ok := ok)) with y; auto. apply (eqv_sym (ok := ok)); auto.
    - intros p Hp.
      assert (exists y, In y (np_unique lp) /\ eqv p y) as (y & Hy & Ey).
      { clear -E Hp. induction E; [contradiction|].
        destruct Hp as [<-|Hp]; [exists y; cbn; auto|].
        destruct (IHE Hp) as (z & Hz & Ez). exists z. cbn. auto. }
      apply py_in_iff. exists y. split; auto. now apply sorted_set_incl. }
  (* the loads by interpolation *)
  set (irow := fun p : T => (p, map (fun c => Some (interp_val rows p c)) cs) : orow T).
  assert (Hpi : Forall ok pi).
  { rewrite Forall_forall in *. intros p Hp. apply filter_In in Hp. apply Hs. tauto. }
  assert (EI : forall k,
    match pi with
    | [] => Ok None
    | _ => let! cols := multi_interp (XArr pi) lp (Fp2 (map (fun c => map (lcomp c) rows) cs))
                          None None in
           Ok (Some (map (fun pv => (nfloat (fst pv), map Some (snd pv)))
                      (combine pi (transpose (length pi) cols))))
    end = k -> k = Ok (match pi with [] => None | _ => Some (map irow pi) end)).
  { intros k <-. destruct pi as [|p0 pi'] eqn:Epi; auto. rewrite <- Epi in *.
    unfold lp. rewrite multi_interp_value by auto. cbn [bind]. do 2 f_equal.
    rewrite (transpose_map (fun c p => interp_val rows p c) pi cs).
    rewrite combine_map, map_map. apply map_ext_in. intros p Hp. unfold irow. cbn [fst snd].
    rewrite map_map. f_equal. apply (ord_float (ok := ok)). apply (ord_isfloat (ok := ok)).
    rewrite Forall_forall in Hpi. auto. }
  rewrite (EI _ eq_refl). clear EI. cbn [bind].
  set (dr := filter (fun r => py_in (lpos r) pd) rows).
  (* case: no direct position *)
  destruct pd as [|d0 pd'] eqn:Epd.
  { assert (Epi : pi = sp).
    { apply filter_all. intros p Hp. destruct (py_in p lp) eqn:Ei; auto. exfalso.
      assert (In p pd) by (apply filter_In; auto). rewrite Epd in H0. contradiction. }
    rewrite Epi. destruct sp as [|s0 sp'] eqn:Esp; [congruence|]. rewrite <- Esp in *.
    do 2 f_equal.
    assert (Q : forall p, In p sp -> py_in p lp = false).
    { intros p Hp. rewrite <- Epi in Hp. apply filter_In in Hp. destruct Hp as [_ Hp].
      now destruct (py_in p lp). }
    clear -Q. induction sp as [|p sp IH]; cbn; auto.
    rewrite IH by (intros; apply Q; cbn; auto).
    unfold block at 2. fold lp. rewrite (Q p) by (cbn; auto). reflexivity. }
  assert (Edr : dr = filter (fun r => py_in (lpos r) pd) rows) by (unfold dr; now rewrite Epd).
  clearbody dr.
  assert (Hpd : Forall ok pd).
  { rewrite Forall_forall in *. intros p Hp. apply filter_In in Hp. apply Hs. tauto. }
  destruct pi as [|i0 pi'] eqn:Epi.
  { (* every position is stored *)
    assert (Eps : pd = sp).
    { apply filter_all. intros p Hp. destruct (py_in p lp) eqn:Ei; auto. exfalso.
      assert (In p pi) by (apply filter_In; rewrite Ei; auto). rewrite Epi in H0. contradiction. }
    do 2 f_equal. rewrite Edr, Eps.
    apply (direct_blocks rows cs sp (fun p => py_in p sp)); auto.
    intros p Hp. rewrite <- Eps in Hp. apply filter_In in Hp. apply Hp. }
  rewrite <- Epi in Hpi. rewrite <- Epi. do 2 f_equal. subst dr. set (dr := filter (fun r => py_in (lpos r) pd) rows).
  assert (Hdr : Forall row_ok dr).
  { rewrite Forall_forall in *. intros r Hr. apply filter_In in Hr. apply H. tauto. }
  assert (Ef : map orow_float (map (pick cs) dr) = map (pick cs) dr).
  { rewrite map_map. apply map_ext_in. intros r Hr. apply pick_float.
    rewrite Forall_forall in Hdr. auto. }
  rewrite Ef. clear Ef.
  apply merge_lists; auto.
  - unfold okk. rewrite Forall_forall in *. intros r Hr. apply in_map_iff in Hr.
    destruct Hr as (x & <- & Hx). apply (Hdr x Hx).
  - unfold okk. rewrite Forall_forall in *. intros r Hr. apply in_map_iff in Hr.
    destruct Hr as (x & <- & Hx). apply (Hpi x Hx).
  - now apply blocks_okk.
  - now apply blocks_sorted.
  - intros k Hk. destruct (py_in k lp) eqn:Ek.
    + left. split; [|now apply direct_filter].
      apply filter_none. intros r Hr. apply in_map_iff in Hr. destruct Hr as (p & <- & Hp).
      cbn. apply filter_In in Hp. destruct Hp as [Hp Hq].
      destruct (neqb p k) eqn:E'; auto. rewrite Forall_forall in Hs.
      rewrite (py_in_eqv (ok := ok) p k) in Hq; auto. rewrite Ek in Hq. discriminate.
    + right. split.
      * apply filter_none. intros r Hr. apply in_map_iff in Hr. destruct Hr as (x & <- & Hx).
        cbn. apply filter_In in Hx. destruct Hx as [Hx _]. rewrite py_in_false in Ek.
        rewrite (neqb_sym (ok := ok)); auto; [apply Ek; now apply in_map|].
        rewrite Forall_forall in H. apply (H x Hx).
      * rewrite blocks_filter by auto. rewrite filter_map_comm.
        unfold irow at 1. unfold rpos at 1. cbn [fst].
        unfold pi. clear Epi Epd pd Hpd dr Hdr Hpi. clear pi. clear E Hl Hsn.
        induction sp as [|p sp IH]; cbn; auto.
        apply Forall_cons_iff in Hs. destruct Hs as [Kp Hs].
        assert (A' := ascending_tail _ _ A).
        destruct (neqb p k) eqn:E.
        -- rewrite (py_in_eqv (ok := ok) p k); auto. rewrite Ek. cbn. rewrite E. cbn.
           unfold block. fold lp. rewrite (py_in_eqv (ok := ok) p k); auto. rewrite Ek.
           f_equal.
           match goal with |- map _ ?f = [] => assert (F : f = []); [|rewrite F; reflexivity] end.
           apply filter_none. intros q Hq. apply filter_In in Hq. destruct Hq as [Hq _].
           assert (ok q) by (rewrite Forall_forall in Hs; auto).
           rewrite (neqb_sym (ok := ok)); auto. rewrite <- (neqb_eqv_l (ok := ok) p k q); auto.
           apply (lt_not_eqv (ok := ok)); auto. eapply ascending_lt; eauto.
        -- destruct (py_in p lp); cbn; rewrite ?E; apply IH; auto.
Qed.
End Load.
