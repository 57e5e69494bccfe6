(** Sorting, sets and membership over an arbitrary [NumOrd]. *)

From Coq Require Import ZArith List Bool Lia Permutation Sorted.
From Verif Require Import Base Num Numpy.
Import ListNotations.

Section Ord.
Context {T : Type} {NT : Num T} {ok : T -> Prop} {NO : NumOrd T ok}.

Definition le (x y : T) : Prop := nleb x y = true.
Definition lt (x y : T) : Prop := nltb x y = true.
Definition eqv (x y : T) : Prop := neqb x y = true.

Lemma le_refl x : ok x -> le x x.
Proof. intros H. destruct (ord_total x x H H); auto. Qed.
Lemma le_trans x y z : ok x -> ok y -> ok z -> le x y -> le y z -> le x z.
Proof. apply ord_trans. Qed.
Lemma le_total x y : ok x -> ok y -> le x y \/ le y x.
Proof. apply ord_total. Qed.
Lemma lt_iff x y : ok x -> ok y -> (lt x y <-> ~ le y x).
Proof.
  intros Hx Hy. unfold lt, le. rewrite (ord_lt x y Hx Hy).
  destruct (nleb y x); cbn; split; intros; congruence.
Qed.
Lemma eqv_iff x y : ok x -> ok y -> (eqv x y <-> le x y /\ le y x).
Proof. intros Hx Hy. unfold eqv, le. rewrite (ord_eq x y Hx Hy). apply andb_true_iff. Qed.
Lemma le_dec x y : {le x y} + {~ le x y}.
Proof. unfold le. destruct (nleb x y); [left|right]; congruence. Qed.
Lemma lt_le x y : ok x -> ok y -> lt x y -> le x y.
Proof.
  intros Hx Hy H. apply lt_iff in H; auto. destruct (le_total x y Hx Hy); tauto.
Qed.
Lemma lt_irrefl x : ok x -> ~ lt x x.
Proof. intros Hx H. apply lt_iff in H; auto. apply H. now apply le_refl. Qed.
Lemma lt_le_trans x y z : ok x -> ok y -> ok z -> lt x y -> le y z -> lt x z.
Proof.
  intros Hx Hy Hz H1 H2. apply lt_iff in H1; auto. apply lt_iff; auto.
  intros H3. apply H1. now apply le_trans with z.
Qed.
Lemma le_lt_trans x y z : ok x -> ok y -> ok z -> le x y -> lt y z -> lt x z.
Proof.
  intros Hx Hy Hz H1 H2. apply lt_iff in H2; auto. apply lt_iff; auto.
  intros H3. apply H2. now apply le_trans with x.
Qed.
Lemma lt_trans x y z : ok x -> ok y -> ok z -> lt x y -> lt y z -> lt x z.
Proof. intros Hx Hy Hz H1 H2. apply lt_le_trans with y; auto. now apply lt_le. Qed.
Lemma le_lt_eqv x y : ok x -> ok y -> le x y -> lt x y \/ eqv x y.
Proof.
  intros Hx Hy H. destruct (le_dec y x).
  - right. now apply eqv_iff.
  - left. now apply lt_iff.
Qed.
Lemma eqv_refl x : ok x -> eqv x x.
Proof. intros H. apply eqv_iff; auto using le_refl. Qed.
Lemma eqv_sym x y : ok x -> ok y -> eqv x y -> eqv y x.
Proof. intros Hx Hy H. apply eqv_iff in H; auto. apply eqv_iff; tauto. Qed.
Lemma eqv_trans x y z : ok x -> ok y -> ok z -> eqv x y -> eqv y z -> eqv x z.
Proof.
  intros Hx Hy Hz H1 H2. apply eqv_iff in H1, H2; auto. apply eqv_iff; auto.
  split; [apply le_trans with y|apply le_trans with y]; tauto.
Qed.
Lemma neqb_sym x y : ok x -> ok y -> neqb x y = neqb y x.
Proof. intros Hx Hy. rewrite !ord_eq by auto. apply andb_comm. Qed.
Lemma neqb_eqv_l x y z : ok x -> ok y -> ok z -> eqv x y -> neqb x z = neqb y z.
Proof.
  intros Hx Hy Hz H. apply eq_true_iff_eq. split; intros E.
  - apply eqv_trans with x; auto. now apply eqv_sym.
  - now apply eqv_trans with y.
Qed.
Lemma neqb_eqv_r x y z : ok x -> ok y -> ok z -> eqv x y -> neqb z x = neqb z y.
Proof.
  intros. rewrite (neqb_sym z x), (neqb_sym z y) by auto. now apply neqb_eqv_l.
Qed.
Lemma lt_not_eqv x y : ok x -> ok y -> lt x y -> neqb x y = false.
Proof.
  intros Hx Hy H. destruct (neqb x y) eqn:E; auto. apply eqv_iff in E; auto.
  apply lt_iff in H; tauto.
Qed.
Lemma le_eqv_l x y z : ok x -> ok y -> ok z -> eqv x y -> le x z -> le y z.
Proof. intros Hx Hy Hz H L. apply eqv_iff in H; auto. apply le_trans with x; tauto. Qed.
Lemma le_eqv_r x y z : ok x -> ok y -> ok z -> eqv x y -> le z x -> le z y.
Proof. intros Hx Hy Hz H L. apply eqv_iff in H; auto. apply le_trans with x; tauto. Qed.

(** * Membership *)

Lemma py_in_iff x l : py_in x l = true <-> exists y, In y l /\ eqv x y.
Proof. apply existsb_exists. Qed.
Lemma py_in_false x l : py_in x l = false <-> forall y, In y l -> neqb x y = false.
Proof.
  unfold py_in. split.
  - intros H y Hy. destruct (neqb x y) eqn:E; auto.
    assert (existsb (fun y => neqb x y) l = true) by (apply existsb_exists; eauto). congruence.
  - intros H. destruct (existsb (fun y => neqb x y) l) eqn:E; auto.
    apply existsb_exists in E. destruct E as (y & Hy & E). rewrite (H y Hy) in E. discriminate.
Qed.
Lemma py_in_eqv x y l : ok x -> ok y -> Forall ok l -> eqv x y -> py_in x l = py_in y l.
Proof.
  intros Hx Hy Hl H. unfold py_in. induction Hl as [|z l Hz Hl IH]; auto.
  cbn. rewrite IH. f_equal. now apply neqb_eqv_l.
Qed.
Lemma py_in_self x l : ok x -> In x l -> py_in x l = true.
Proof. intros Hx H. apply py_in_iff. exists x. split; auto. now apply eqv_refl. Qed.

(** * Sets *)

Definition distinct (l : list T) : Prop :=
  ForallOrdPairs (fun x y => neqb x y = false) l.

Lemma set_add_ok s x : Forall ok s -> ok x -> Forall ok (set_add s x).
Proof.
  intros Hs Hx. unfold set_add. destruct (py_in x s); auto. apply Forall_app. auto.
Qed.
Lemma set_update_ok l : forall s, Forall ok s -> Forall ok l -> Forall ok (set_update s l).
Proof.
  induction l as [|x l IH]; intros s Hs Hl; cbn; auto.
  apply Forall_cons_iff in Hl. apply IH; [apply set_add_ok|]; tauto.
Qed.
Lemma py_set_ok l : Forall ok l -> Forall ok (py_set l).
Proof. intros. apply set_update_ok; auto. Qed.

Lemma FOP_app (R : T -> T -> Prop) l x :
  ForallOrdPairs R l -> Forall (fun y => R y x) l -> ForallOrdPairs R (l ++ [x]).
Proof.
  intros H. induction H as [|y l Hy Hl IH]; cbn; intros F.
  - constructor; auto. constructor.
  - apply Forall_cons_iff in F. constructor; [|apply IH; tauto].
    apply Forall_app. split; auto. repeat constructor; tauto.
Qed.

Lemma set_add_distinct s x : Forall ok s -> ok x -> distinct s -> distinct (set_add s x).
Proof.
  intros Hs Hx H. unfold set_add. destruct (py_in x s) eqn:E; auto.
  apply FOP_app; auto. rewrite Forall_forall in *. intros y Hy.
  rewrite neqb_sym by auto. eapply (proj1 (py_in_false x s)); eauto.
Qed.
Lemma set_update_distinct l : forall s, Forall ok s -> Forall ok l -> distinct s ->
  distinct (set_update s l).
Proof.
  induction l as [|x l IH]; intros s Hs Hl H; cbn; auto.
  apply Forall_cons_iff in Hl. apply IH; try tauto.
  - apply set_add_ok; tauto.
  - apply set_add_distinct; tauto.
Qed.
Lemma py_set_distinct l : Forall ok l -> distinct (py_set l).
Proof. intros. apply set_update_distinct; auto. constructor. Qed.

(** Members of the set: each member was given; each given value is represented. *)
Lemma set_add_incl s x y : In y (set_add s x) -> In y s \/ y = x.
Proof.
  unfold set_add. destruct (py_in x s); auto. rewrite in_app_iff. cbn. intuition.
Qed.
Lemma set_add_mono s x y : In y s -> In y (set_add s x).
Proof. unfold set_add. destruct (py_in x s); auto. rewrite in_app_iff. auto. Qed.
Lemma set_add_has s x : ok x -> exists y, In y (set_add s x) /\ eqv x y.
Proof.
  intros Hx. unfold set_add. destruct (py_in x s) eqn:E.
  - now apply py_in_iff.
  - exists x. rewrite in_app_iff. split; [cbn; auto|]. now apply eqv_refl.
Qed.
Lemma set_update_mono l : forall s y, In y s -> In y (set_update s l).
Proof. induction l as [|x l IH]; cbn; auto. intros. apply IH. now apply set_add_mono. Qed.
Lemma set_update_incl l : forall s y, In y (set_update s l) -> In y s \/ In y l.
Proof.
  induction l as [|x l IH]; cbn; auto. intros s y H. apply IH in H.
  destruct H as [H|H]; auto. apply set_add_incl in H. intuition.
Qed.
Lemma set_update_has l : forall s x, Forall ok l -> In x l ->
  exists y, In y (set_update s l) /\ eqv x y.
Proof.
  induction l as [|z l IH]; cbn; [tauto|]. intros s x Hl [->|H].
  - apply Forall_cons_iff in Hl. destruct (set_add_has s x (proj1 Hl)) as (y & Hy & E).
    exists y. split; auto. now apply set_update_mono.
  - apply Forall_cons_iff in Hl. apply IH; tauto.
Qed.
Lemma py_set_incl l y : In y (py_set l) -> In y l.
Proof. intros H. apply set_update_incl in H. destruct H; auto. contradiction. Qed.
Lemma py_set_has l x : Forall ok l -> In x l -> exists y, In y (py_set l) /\ eqv x y.
Proof. apply set_update_has. Qed.
Lemma py_set_nil l : py_set l = [] <-> l = [].
Proof.
  destruct l as [|x l]; [tauto|]. split; [|discriminate]. intros H. exfalso.
  unfold py_set in H. cbn in H.
  assert (In x (set_update [x] l)) by (apply set_update_mono; cbn; auto).
  unfold set_update in H0. rewrite H in H0. contradiction.
Qed.

(** * Stable sorting *)

Section SortBy.
Context {A : Type} (key : A -> T).

Definition okk (l : list A) : Prop := Forall (fun a => ok (key a)) l.
Definition sorted (l : list A) : Prop := StronglySorted (fun a b => le (key a) (key b)) l.

Lemma insert_perm x l : Permutation (insert_by key x l) (x :: l).
Proof.
  induction l as [|y l IH]; cbn; auto.
  destruct (nltb (key y) (key x)); auto. rewrite IH. apply perm_swap.
Qed.
Lemma sort_perm l : Permutation (sort_by key l) l.
Proof. induction l as [|x l IH]; cbn; auto. rewrite insert_perm. now constructor. Qed.
Lemma sort_in l x : In x (sort_by key l) <-> In x l.
Proof. split; apply Permutation_in; [|symmetry]; apply sort_perm. Qed.
Lemma sort_okk l : okk l -> okk (sort_by key l).
Proof. unfold okk. rewrite !Forall_forall. intros H x Hx. apply H. now apply sort_in. Qed.

Lemma insert_sorted x l : ok (key x) -> okk l -> sorted l -> sorted (insert_by key x l).
Proof.
  intros Hx Hl H. induction H as [|y l H IH F]; cbn.
  - repeat constructor.
  - apply Forall_cons_iff in Hl. destruct Hl as [Hy Hl].
    destruct (nltb (key y) (key x)) eqn:E.
    + constructor; [now apply IH|]. rewrite Forall_forall in *.
      intros z Hz. apply (Permutation_in _ (insert_perm x l)) in Hz. destruct Hz as [<-|Hz]; auto.
      now apply lt_le.
    + assert (L : le (key x) (key y)).
      { destruct (le_dec (key x) (key y)); auto. exfalso.
        assert (lt (key y) (key x)) by now apply lt_iff. unfold lt in H0. congruence. }
      constructor; [constructor; auto|]. constructor; auto.
      unfold okk in Hl. rewrite Forall_forall in *. intros z Hz. apply le_trans with (key y); auto.
Qed.
Lemma sort_sorted l : okk l -> sorted (sort_by key l).
Proof.
  intros Hl. induction l as [|x l IH]; cbn; [constructor|].
  apply Forall_cons_iff in Hl. apply insert_sorted; [tauto| |tauto]. now apply sort_okk.
Qed.

(** Stability: rows with the same key keep their order. *)
Lemma insert_filter x l k : ok (key x) -> okk l -> ok k ->
  filter (fun a => neqb (key a) k) (insert_by key x l) =
  filter (fun a => neqb (key a) k) (x :: l).
Proof.
  intros Hx Hl Hk. induction l as [|y l IH]; cbn; auto.
  apply Forall_cons_iff in Hl. destruct Hl as [Hy Hl].
  destruct (nltb (key y) (key x)) eqn:E; auto.
  cbn. rewrite IH by auto. cbn. destruct (neqb (key y) k) eqn:Ey, (neqb (key x) k) eqn:Ex; auto.
  exfalso. assert (eqv (key y) (key x)).
  { apply eqv_trans with k; auto. now apply eqv_sym. }
  assert (neqb (key y) (key x) = false) by now apply lt_not_eqv. unfold eqv in H. congruence.
Qed.
Lemma sort_filter l k : okk l -> ok k ->
  filter (fun a => neqb (key a) k) (sort_by key l) = filter (fun a => neqb (key a) k) l.
Proof.
  intros Hl Hk. induction l as [|x l IH]; cbn [sort_by fold_right]; auto.
  apply Forall_cons_iff in Hl. destruct Hl as [Hx Hl].
  rewrite insert_filter; auto; [|now apply sort_okk].
  cbn. unfold sort_by in IH. now rewrite IH.
Qed.

(** A sorted list is determined by its blocks of equal keys. *)
Lemma sorted_unique l : forall m, okk l -> okk m -> sorted l -> sorted m ->
  (forall x, In x l \/ In x m ->
     filter (fun a => neqb (key a) (key x)) l = filter (fun a => neqb (key a) (key x)) m) ->
  l = m.
Proof.
  induction l as [|x l IH]; intros m Kl Km Sl Sm F.
  - destruct m as [|y m]; auto. exfalso. specialize (F y ltac:(cbn; auto)). cbn in F.
    apply Forall_cons_iff in Km. fold (okk m) in Km.
    pose proof (eqv_refl (key y) (proj1 Km)) as E. unfold eqv in E. rewrite E in F. discriminate.
  - destruct m as [|y m].
    { exfalso. specialize (F x ltac:(cbn; auto)). cbn in F.
      apply Forall_cons_iff in Kl.
      pose proof (eqv_refl (key x) (proj1 Kl)) as E. unfold eqv in E. rewrite E in F. discriminate. }
    assert (Kl' := Kl). assert (Km' := Km).
    apply Forall_cons_iff in Kl. destruct Kl as [Kx Kl]. fold (okk l) in Kl.
    apply Forall_cons_iff in Km. destruct Km as [Ky Km]. fold (okk m) in Km.
    apply StronglySorted_inv in Sl. destruct Sl as [Sl Fl].
    apply StronglySorted_inv in Sm. destruct Sm as [Sm Fm].
    assert (Hx : In x (y :: m)).
    { specialize (F x ltac:(cbn; auto)).
      assert (In x (filter (fun a => neqb (key a) (key x)) (x :: l))).
      { apply filter_In. split; [cbn; auto|]. now apply eqv_refl. }
      rewrite F in H. apply filter_In in H. tauto. }
    assert (Hy : In y (x :: l)).
    { specialize (F y ltac:(cbn; auto)).
      assert (In y (filter (fun a => neqb (key a) (key y)) (y :: m))).
      { apply filter_In. split; [cbn; auto|]. now apply eqv_refl. }
      rewrite <- F in H. apply filter_In in H. tauto. }
    assert (Lyx : le (key y) (key x)).
    { destruct Hx as [->|Hx]; [now apply le_refl|]. rewrite Forall_forall in Fm. now apply Fm. }
    assert (Lxy : le (key x) (key y)).
    { destruct Hy as [->|Hy]; [now apply le_refl|]. rewrite Forall_forall in Fl. now apply Fl. }
    assert (E : eqv (key y) (key x)) by (apply eqv_iff; auto).
    pose proof (F x ltac:(cbn; auto)) as Fx. cbn [filter] in Fx.
    pose proof (eqv_refl (key x) Kx) as Rx. unfold eqv in E, Rx. rewrite E, Rx in Fx.
    injection Fx as <- Fx. f_equal. apply IH; auto.
    intros z Hz. specialize (F z ltac:(cbn; tauto)). cbn [filter] in F.
    destruct (neqb (key x) (key z)); [now injection F|auto].
Qed.

Lemma sorted_filter (p : A -> bool) l : sorted l -> sorted (filter p l).
Proof.
  intros H. induction H as [|x l H IH F]; cbn; [constructor|].
  destruct (p x); auto. constructor; auto.
  rewrite Forall_forall in *. intros z Hz. apply filter_In in Hz. apply F. tauto.
Qed.
Lemma okk_filter (p : A -> bool) l : okk l -> okk (filter p l).
Proof. unfold okk. rewrite !Forall_forall. intros H x Hx. apply filter_In in Hx. apply H. tauto. Qed.

Lemma sorted_app l m : sorted l -> sorted m ->
  (forall x y, In x l -> In y m -> le (key x) (key y)) -> sorted (l ++ m).
Proof.
  intros Hl Hm H. induction Hl as [|x l Hl IH F]; cbn; auto.
  constructor.
  - apply IH. intros. apply H; cbn; auto.
  - apply Forall_app. split; auto. rewrite Forall_forall. intros y Hy. apply H; cbn; auto.
Qed.
End SortBy.

Lemma sort_ok l : Forall ok l -> Forall ok (py_sorted l).
Proof. intros H. apply (sort_okk (fun x => x) l H). Qed.

(** [sorted(set(l))]: strictly ascending. *)
Definition ascending (l : list T) : Prop := StronglySorted lt l.

Lemma sorted_distinct_ascending l : Forall ok l -> sorted (fun x => x) l -> distinct l -> ascending l.
Proof.
  intros K S. induction S as [|x l S IH F]; intros D; [constructor|].
  apply Forall_cons_iff in K. inversion D as [|x' l' D1 D2]; subst.
  constructor; [apply IH; tauto|]. rewrite Forall_forall in *. intros y Hy.
  destruct K as [Kx Kl].
  destruct (le_lt_eqv x y Kx (Kl y Hy) (F y Hy)) as [|E]; auto.
  unfold eqv in E. rewrite (D1 y Hy) in E. discriminate.
Qed.

Lemma distinct_perm l m : Forall ok l -> Permutation l m -> distinct l -> distinct m.
Proof.
  intros K P. induction P as [|x l m P IH|x y l|l m n P1 IH1 P2 IH2]; intros D; auto.
  - apply Forall_cons_iff in K. inversion D; subst. constructor; [|apply IH; tauto].
    rewrite Forall_forall in *. intros z Hz. apply H1. apply Permutation_in with m; auto. now symmetry.
  - apply Forall_cons_iff in K. destruct K as [Ky K]. apply Forall_cons_iff in K. destruct K as [Kx K].
    inversion D as [|? ? D1 D2]; subst. inversion D2 as [|? ? D3 D4]; subst.
    apply Forall_cons_iff in D1. destruct D1 as [D1 D5].
    constructor; [constructor; auto; rewrite neqb_sym; auto|]. constructor; auto.
  - apply IH2; [|now apply IH1]. rewrite Forall_forall in *. intros z Hz. apply K.
    apply Permutation_in with m; auto. now symmetry.
Qed.

Lemma sorted_set_ascending l : Forall ok l -> ascending (py_sorted (py_set l)).
Proof.
  intros K. pose proof (py_set_ok l K) as K'.
  apply sorted_distinct_ascending.
  - now apply sort_ok.
  - apply sort_sorted. exact K'.
  - apply distinct_perm with (py_set l); auto.
    + symmetry. apply (sort_perm (fun x => x)).
    + now apply py_set_distinct.
Qed.
Lemma sorted_set_ok l : Forall ok l -> Forall ok (py_sorted (py_set l)).
Proof. intros. now apply sort_ok, py_set_ok. Qed.
Lemma sorted_set_incl l x : In x (py_sorted (py_set l)) -> In x l.
Proof. intros H. apply py_set_incl. now apply (sort_in (fun x => x)). Qed.
Lemma sorted_set_has l x : Forall ok l -> In x l -> exists y, In y (py_sorted (py_set l)) /\ eqv x y.
Proof.
  intros K H. destruct (py_set_has l x K H) as (y & Hy & E). exists y. split; auto.
  now apply (sort_in (fun x => x)).
Qed.
Lemma sorted_set_in l x : ok x -> Forall ok l -> py_in x (py_sorted (py_set l)) = py_in x l.
Proof.
  intros Hx K. apply eq_true_iff_eq. rewrite !py_in_iff. split; intros (y & Hy & E).
  - exists y. split; auto. now apply sorted_set_incl.
  - destruct (sorted_set_has l y K Hy) as (z & Hz & E'). exists z. split; auto.
    pose proof (sorted_set_ok l K) as K'. rewrite Forall_forall in *.
    apply eqv_trans with y; auto.
Qed.
Lemma sorted_set_nil l : py_sorted (py_set l) = [] <-> l = [].
Proof.
  rewrite <- (py_set_nil l). split; intros H.
  - pose proof (sort_perm (fun x => x) (py_set l)) as P. unfold py_sorted in H. rewrite H in P.
    now apply Permutation_nil.
  - rewrite H. reflexivity.
Qed.

Lemma ascending_lt l x y : ascending (x :: l) -> In y l -> lt x y.
Proof. intros H Hy. apply StronglySorted_inv in H. rewrite Forall_forall in H. now apply H. Qed.
Lemma ascending_tail l x : ascending (x :: l) -> ascending l.
Proof. intros H. now apply StronglySorted_inv in H. Qed.

Lemma ascending_sorted l : Forall ok l -> ascending l -> sorted (fun x => x) l.
Proof.
  intros K S. induction S as [|x l S IH F]; [constructor|].
  apply Forall_cons_iff in K. constructor; [apply IH; tauto|].
  rewrite Forall_forall in *. intros y Hy. apply lt_le; try tauto; try apply F; auto.
  destruct K as [_ K]. auto.
Qed.

(** In an ascending list at most one member is equivalent to a given value. *)
Lemma ascending_eqv l x y : Forall ok l -> ascending l -> In x l -> In y l -> eqv x y -> x = y.
Proof.
  intros K S. revert x y. induction S as [|z l S IH F]; intros x y Hx Hy E; [contradiction|].
  apply Forall_cons_iff in K. destruct K as [Kz K].
  pose proof K as K'. rewrite Forall_forall in K', F.
  destruct Hx as [<-|Hx], Hy as [<-|Hy]; auto.
  - exfalso. assert (neqb z y = false) by (apply lt_not_eqv; auto). unfold eqv in E. congruence.
  - exfalso. apply eqv_sym in E; auto.
    assert (neqb z x = false) by (apply lt_not_eqv; auto). unfold eqv in E. congruence.
Qed.

(** Two ascending lists representing the same values agree position by position. *)
Lemma ascending_same l : forall m, Forall ok l -> Forall ok m -> ascending l -> ascending m ->
  (forall x, In x l -> py_in x m = true) -> (forall y, In y m -> py_in y l = true) ->
  Forall2 eqv l m.
Proof.
  induction l as [|x l IH]; intros m Kl Km Al Am H1 H2.
  - destruct m as [|y m]; [constructor|]. specialize (H2 y ltac:(cbn; auto)). discriminate.
  - destruct m as [|y m]; [specialize (H1 x ltac:(cbn; auto)); discriminate|].
    apply Forall_cons_iff in Kl, Km. destruct Kl as [Kx Kl], Km as [Ky Km].
    pose proof Kl as Kl'. pose proof Km as Km'. rewrite Forall_forall in Kl', Km'.
    assert (E : eqv x y).
    { apply eqv_iff; auto.
      pose proof (H1 x ltac:(cbn; auto)) as I1. pose proof (H2 y ltac:(cbn; auto)) as I2.
      apply py_in_iff in I1, I2. destruct I1 as (a & Ha & Ea), I2 as (b & Hb & Eb).
      split.
      - destruct Hb as [<-|Hb]; [apply eqv_iff in Eb; tauto|].
        pose proof (ascending_lt _ _ _ Al Hb) as L. apply eqv_iff in Eb; auto.
        apply le_trans with b; auto; [now apply lt_le; auto|tauto].
      - destruct Ha as [<-|Ha]; [apply eqv_iff in Ea; tauto|].
        pose proof (ascending_lt _ _ _ Am Ha) as L. apply eqv_iff in Ea; auto.
        apply le_trans with a; auto; [now apply lt_le; auto|tauto]. }
    constructor; auto. apply IH; eauto using ascending_tail.
    + intros z Hz. specialize (H1 z ltac:(cbn; auto)). cbn in H1. apply orb_true_iff in H1.
      destruct H1 as [H1|H1]; auto. exfalso.
      pose proof (ascending_lt _ _ _ Al Hz) as L.
      assert (eqv x z). { apply eqv_trans with y; auto. now apply eqv_sym; auto. }
      assert (neqb x z = false) by (apply lt_not_eqv; auto). unfold eqv in H. congruence.
    + intros z Hz. specialize (H2 z ltac:(cbn; auto)). cbn in H2. apply orb_true_iff in H2.
      destruct H2 as [H2|H2]; auto. exfalso.
      pose proof (ascending_lt _ _ _ Am Hz) as L.
      assert (eqv y z). { apply eqv_trans with x; auto; apply eqv_sym; auto. }
      assert (neqb y z = false) by (apply lt_not_eqv; auto). unfold eqv in H. congruence.
Qed.

Lemma array_equal_iff l : forall m, array_equal l m = true <-> Forall2 eqv l m.
Proof.
  induction l as [|x l IH]; intros [|y m]; cbn; split; intros H; try discriminate;
    try (now inversion H); try constructor.
  - now apply andb_true_iff in H.
  - apply andb_true_iff in H. now apply IH.
  - inversion H; subst. apply andb_true_iff. split; auto. now apply IH.
Qed.
End Ord.
