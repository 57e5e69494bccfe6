(** Equality of materials (C105) and changing the sections of a beam (C111). *)

From Coq Require Import ZArith Reals List Bool String Lra.
From Verif Require Import Base Num RNum PyNum Numpy LoadCase Beam Material Solvers AS4100
  AS4100Spec MatSpec OrdFacts MaterialFacts AS4100Facts Frame.
Import ListNotations.
Open Scope R_scope.

(** * Dicts *)

Lemma sget_key {V} (d : sdict V) k v : NoDup (map fst d) -> In (k, v) d <-> sget k d = Ok v.
Proof.
  induction d as [|[k' v'] d IH]; cbn [map fst sget]; intros N.
  - split; [intros []|discriminate].
  - inversion N as [|? ? N1 N2]; subst. destruct (String.eqb_spec k k') as [->|D].
    + split.
      * intros [[= <-]|H]; auto. exfalso. apply N1. now apply (in_map fst) in H.
      * intros [= <-]. now left.
    + rewrite <- IH by auto. split; [intros [[= E _]|H]; congruence||auto|now right].
Qed.

(** Equal as dicts, for any relation on the values. *)
Definition dict_same {V} (P : V -> V -> Prop) (d d' : sdict V) : Prop :=
  forall k, match sget k d, sget k d' with
            | Ok v, Ok v' => P v v' | Err _, Err _ => True | _, _ => False end.

Lemma sget_err {V} (d : sdict V) k e : sget k d = Err e -> e = KeyError /\ ~ In k (map fst d).
Proof.
  intros H. assert (N : ~ In k (map fst d)).
  { intros I. apply sget_in in I. destruct I as (v & E). congruence. }
  split; auto. rewrite (sget_unknown d k N) in H. congruence.
Qed.

Lemma sdict_eqb_iff {V} (eqb : V -> V -> bool) d d' :
  NoDup (map fst d) -> NoDup (map fst d') ->
  sdict_eqb eqb d d' = true <-> dict_same (fun v v' => eqb v v' = true) d d'.
Proof.
  intros N N'. unfold sdict_eqb, dict_same. rewrite andb_true_iff, forallb_forall, Nat.eqb_eq.
  split.
  - intros (L & H) k.
    assert (I : incl (map fst d) (map fst d')).
    { intros x Hx. apply in_map_iff in Hx. destruct Hx as ([k1 v1] & <- & Hx).
      apply H in Hx. cbn [fst snd] in *. destruct (sget k1 d') eqn:E; [|discriminate].
      apply sget_in. eauto. }
    assert (I' : incl (map fst d') (map fst d)).
    { apply NoDup_length_incl; auto. rewrite !map_length. rewrite L. apply le_n. }
    destruct (sget k d) as [v|e] eqn:E.
    + apply sget_key in E; auto. apply H in E. cbn [fst snd] in E.
      destruct (sget k d'); [exact E|discriminate].
    + destruct (sget k d') as [v'|e'] eqn:E'; auto. apply sget_err in E. apply E. apply I'.
      apply sget_in. eauto.
  - intros H. split.
    + rewrite <- (map_length fst d), <- (map_length fst d').
      apply Nat.le_antisymm; apply NoDup_incl_length; auto; intros k Hk; apply sget_in in Hk;
        destruct Hk as (v & E); specialize (H k); rewrite E in H; apply sget_in.
      * destruct (sget k d'); [eauto|contradiction].
      * destruct (sget k d); [eauto|contradiction].
    + intros [k v] Hk. apply sget_key in Hk; auto. cbn [fst snd]. specialize (H k).
      rewrite Hk in H. destruct (sget k d'); [exact H|contradiction].
Qed.

(** * Values *)

Lemma list_eqb_refl {A} (eqb : A -> A -> bool) l : Forall (fun a => eqb a a = true) l ->
  list_eqb eqb l l = true.
Proof. induction 1; cbn; auto. now rewrite H. Qed.
Lemma list_eqb_sym {A} (P : A -> Prop) (eqb : A -> A -> bool) :
  (forall a b, P a -> P b -> eqb a b = true -> eqb b a = true) ->
  forall l l', Forall P l -> Forall P l' -> list_eqb eqb l l' = true -> list_eqb eqb l' l = true.
Proof.
  intros S. induction l as [|a l IH]; intros [|a' l'] F F' H; cbn in *; auto.
  inversion F; inversion F'; subst. apply andb_true_iff in H. destruct H as (P1 & P2).
  rewrite (S a a') by auto. cbn. auto.
Qed.
Lemma list_eqb_trans {A} (P : A -> Prop) (eqb : A -> A -> bool) :
  (forall a b c, P a -> P b -> P c -> eqb a b = true -> eqb b c = true -> eqb a c = true) ->
  forall l l' l'', Forall P l -> Forall P l' -> Forall P l'' ->
  list_eqb eqb l l' = true -> list_eqb eqb l' l'' = true -> list_eqb eqb l l'' = true.
Proof.
  intros S. induction l as [|a l IH]; intros [|a' l'] [|a'' l''] F F' F'' H H'; cbn in *; auto;
    try discriminate.
  inversion F; inversion F'; inversion F''; subst. apply andb_true_iff in H, H'.
  destruct H as (P1 & P2), H' as (P3 & P4).
  rewrite (S a a' a'') by auto. cbn. apply IH with l'; auto.
Qed.

Section Generic.
Context {T : Type} {NT : Num T} {ok : T -> Prop} {NO : NumOrd T ok}.

Lemma eq_refl_ok x : ok x -> neqb x x = true.
Proof.
  intros. rewrite ord_eq by auto. destruct (ord_total x x) as [H0|H0]; auto; now rewrite H0.
Qed.
Lemma eq_sym_ok x y : ok x -> ok y -> neqb x y = true -> neqb y x = true.
Proof. intros. rewrite ord_eq in * by auto. now rewrite andb_comm. Qed.
Lemma eq_trans_ok x y z : ok x -> ok y -> ok z -> neqb x y = true -> neqb y z = true -> neqb x z = true.
Proof.
  intros Hx Hy Hz. rewrite !ord_eq by auto. rewrite !andb_true_iff. intros (A & B) (C & D).
  split; [apply ord_trans with y|apply ord_trans with y]; auto.
Qed.

Lemma tval_refl v : tval_ok ok v -> tval_eqb v v = true.
Proof.
  destruct v as [s|x|t|]; cbn; intros H; [apply String.eqb_refl|now apply eq_refl_ok| |destruct H].
  apply list_eqb_refl. eapply Forall_impl; [|exact H]. intros l Hl. apply list_eqb_refl.
  eapply Forall_impl; [|exact Hl]. exact eq_refl_ok.
Qed.
Lemma tval_sym v v' : tval_ok ok v -> tval_ok ok v' -> tval_eqb v v' = true -> tval_eqb v' v = true.
Proof.
  destruct v as [s|x|t|], v' as [s'|x'|t'|]; cbn; intros H H' E; auto; try discriminate.
  - now rewrite String.eqb_sym.
  - now apply eq_sym_ok.
  - revert E. apply (list_eqb_sym (Forall ok)); auto. intros a b Ha Hb.
    apply (list_eqb_sym ok); auto. exact eq_sym_ok.
Qed.
Lemma tval_trans v v' v'' : tval_ok ok v -> tval_ok ok v' -> tval_ok ok v'' ->
  tval_eqb v v' = true -> tval_eqb v' v'' = true -> tval_eqb v v'' = true.
Proof.
  destruct v as [s|x|t|], v' as [s'|x'|t'|], v'' as [s''|x''|t''|]; cbn; intros H H' H'' E E'; auto;
    try discriminate.
  - apply String.eqb_eq in E, E'. subst. apply String.eqb_refl.
  - eapply eq_trans_ok with x'; auto.
  - revert E E'. apply (list_eqb_trans (Forall ok)); auto. intros a b c Ha Hb Hc.
    apply (list_eqb_trans ok); auto. exact eq_trans_ok.
Qed.

Lemma props_ok (m : material T) k v : mat_ok ok m -> sget k (mprops m) = Ok v -> tval_ok ok v.
Proof.
  intros (_ & _ & _ & N & F) H. apply sget_key in H; auto.
  rewrite Forall_forall in F. apply (F _ H).
Qed.

Lemma mat_eqb_iff (m m' : material T) :
  NoDup (map fst (mprops m)) -> NoDup (map fst (mprops m')) ->
  mat_eqb m m' = true <->
  mtype m <> None /\ mtype m = mtype m' /\ tval_eqb (mname m) (mname m') = true
  /\ tval_eqb (mstandard m) (mstandard m') = true
  /\ dict_same (fun v v' => tval_eqb v v' = true) (mprops m) (mprops m').
Proof.
  intros N N'. rewrite <- sdict_eqb_iff by auto. unfold mat_eqb.
  destruct (mtype m) as [[]|], (mtype m') as [[]|];
    try (split; [discriminate|intros (A & B & _); congruence]);
    rewrite !andb_true_iff; (split; [intros ((A & B) & C); repeat split; auto; discriminate|tauto]).
Qed.

Lemma mat_refl m : mat_ok ok m -> mat_eqb m m = true.
Proof.
  intros M. pose proof M as (Ty & Na & St & N & F). apply mat_eqb_iff; auto.
  repeat split; auto using tval_refl. intros k. destruct (sget k (mprops m)) eqn:E; auto.
  apply tval_refl. exact (props_ok m k _ M E).
Qed.
Lemma mat_sym m m' : mat_ok ok m -> mat_ok ok m' -> mat_eqb m m' = true -> mat_eqb m' m = true.
Proof.
  intros M M' H. pose proof M as (Ty & Na & St & N & F). pose proof M' as (Ty' & Na' & St' & N' & F').
  apply mat_eqb_iff in H; auto. destruct H as (A & B & C & D & E). apply mat_eqb_iff; auto.
  repeat split; auto using tval_sym. intros k. specialize (E k).
  destruct (sget k (mprops m)) eqn:E1, (sget k (mprops m')) eqn:E2; auto; try contradiction.
  apply tval_sym; auto; [exact (props_ok m k _ M E1)|exact (props_ok m' k _ M' E2)].
Qed.
Lemma mat_trans m m' m'' : mat_ok ok m -> mat_ok ok m' -> mat_ok ok m'' ->
  mat_eqb m m' = true -> mat_eqb m' m'' = true -> mat_eqb m m'' = true.
Proof.
  intros M M' M'' H H'. pose proof M as (Ty & Na & St & N & F).
  pose proof M' as (Ty' & Na' & St' & N' & F'). pose proof M'' as (Ty'' & Na'' & St'' & N'' & F'').
  apply mat_eqb_iff in H, H'; auto. destruct H as (A & B & C & D & E), H' as (A' & B' & C' & D' & E').
  apply mat_eqb_iff; auto. split; auto. split; [congruence|].
  split; [eapply tval_trans with (mname m'); auto|].
  split; [eapply tval_trans with (mstandard m'); auto|].
  intros k. specialize (E k). specialize (E' k).
  destruct (sget k (mprops m)) eqn:E1, (sget k (mprops m')) eqn:E2, (sget k (mprops m'')) eqn:E3;
    auto; try contradiction.
  eapply tval_trans; [| | |exact E|exact E'];
    [exact (props_ok m k _ M E1)|exact (props_ok m' k _ M' E2)|exact (props_ok m'' k _ M'' E3)].
Qed.
End Generic.

Lemma mat_equivalence {T} {NT : Num T} {ok : T -> Prop} {NO : NumOrd T ok} :
  (forall m, mat_ok ok m -> mat_eqb m m = true)
  /\ (forall m m', mat_ok ok m -> mat_ok ok m' ->
        mat_eqb m m' = true -> mat_eqb m' m = true)
  /\ (forall m m' m'', mat_ok ok m -> mat_ok ok m' -> mat_ok ok m'' ->
        mat_eqb m m' = true -> mat_eqb m' m'' = true -> mat_eqb m m'' = true).
Proof. exact (conj mat_refl (conj mat_sym mat_trans)). Qed.

(** * Exact arithmetic *)

Lemma neqb_R (x y : R) : neqb x y = true <-> x = y.
Proof.
  cbn. unfold Reqb. destruct (Req_EM_T x y); split; auto; discriminate.
Qed.
Lemma list_eqb_R l l' : list_eqb (A := R) neqb l l' = true <-> l = l'.
Proof.
  revert l'. induction l as [|a l IH]; intros [|a' l']; cbn [list_eqb]; try (split; congruence).
  rewrite andb_true_iff, neqb_R, IH. split; [intros (-> & ->); auto|intros [= -> ->]; auto].
Qed.
Lemma tval_eqb_R (v v' : tval R) : tval_eqb v v' = true <-> v = v' /\ v <> TOther.
Proof.
  destruct v as [s|x|t|], v' as [s'|x'|t'|]; cbn [tval_eqb];
    try (split; [discriminate|intros (? & ?); congruence]).
  - rewrite String.eqb_eq. split; [intros ->; split; congruence|intros ([= ->] & _); auto].
  - rewrite neqb_R. split; [intros ->; split; congruence|intros ([= ->] & _); auto].
  - assert (K : list_eqb (list_eqb neqb) t t' = true <-> t = t').
    { revert t'. induction t as [|a l IH]; intros [|a' l']; cbn [list_eqb]; try (split; congruence).
      rewrite andb_true_iff, list_eqb_R, IH. split; [intros (-> & ->); auto|intros [= -> ->]; auto]. }
    rewrite K. split; [intros ->; split; congruence|intros ([= ->] & _); auto].
Qed.

Lemma mat_eqb_R (m m' : material R) :
  mat_ok Rok m -> mat_ok Rok m' ->
  mat_eqb m m' = true <->
  mtype m = mtype m' /\ mname m = mname m' /\ mstandard m = mstandard m'
  /\ forall k, sget k (mprops m) = sget k (mprops m').
Proof.
  intros M M'. pose proof M as (Ty & Na & St & N & F). pose proof M' as (Ty' & Na' & St' & N' & F').
  rewrite mat_eqb_iff by auto. rewrite !tval_eqb_R.
  assert (O : forall v : tval R, tval_ok Rok v -> v <> TOther) by (intros [] H; cbn in H; congruence||tauto).
  split.
  - intros (_ & A & (B & _) & (C & _) & D). repeat split; auto. intros k. specialize (D k).
    destruct (sget k (mprops m)) eqn:E1, (sget k (mprops m')) eqn:E2; try contradiction.
    + apply tval_eqb_R in D. f_equal. apply D.
    + apply sget_err in E1, E2. destruct E1 as (-> & _), E2 as (-> & _). reflexivity.
  - intros (A & B & C & D). split; auto. split; auto. split; [auto|]. split; [auto|].
    intros k. rewrite D. destruct (sget k (mprops m')) eqn:E; auto.
    apply tval_eqb_R. split; auto. apply O. apply (props_ok (ok := Rok) m' k); auto.
Qed.

(** * Interchanging equal materials *)

Lemma alike_strengths (m m' : material R) :
  NoDup (map fst (mprops m)) -> NoDup (map fst (mprops m')) -> mat_eqb m m' = true ->
  mtype m = mtype m' /\ forall r, same_strength (mk_as r m) (mk_as r m').
Proof.
  intros N N' H. apply mat_eqb_iff in H; auto. destruct H as (_ & A & _ & _ & D). split; auto.
  assert (E : sget "strengths" (mprops m') = sget "strengths" (mprops m)).
  { specialize (D "strengths"%string).
    destruct (sget "strengths" (mprops m)) eqn:E1, (sget "strengths" (mprops m')) eqn:E2; try contradiction.
    - apply tval_eqb_R in D. destruct D as (-> & _). reflexivity.
    - apply sget_err in E1, E2. destruct E1 as (-> & _), E2 as (-> & _). reflexivity. }
  intros r. unfold same_strength, min_fy, min_fu, as_strengths. cbn [as_material as_radius].
  now rewrite E.
Qed.

Lemma alike_factory s s' : alike s s' ->
  match as_factory s, as_factory s' with
  | Ok w, Ok w' => same_strength w w' | Err e, Err e' => e = e' | _, _ => False end.
Proof.
  intros [x|r m m' N N' H].
  - destruct (as_factory x); auto. repeat split.
  - destruct (alike_strengths m m' N N' H) as (A & B). cbn. rewrite <- A.
    destruct (mtype m) as [[]|]; auto.
Qed.

Lemma alike_factories ss ss' : Forall2 alike ss ss' ->
  match mapM as_factory ss, mapM as_factory ss' with
  | Ok ws, Ok ws' => Forall2 same_strength ws ws' | Err e, Err e' => e = e' | _, _ => False end.
Proof.
  induction 1 as [|s s' ss ss' H F IH]; cbn [mapM]; [constructor|].
  pose proof (alike_factory s s' H) as X.
  destruct (as_factory s), (as_factory s'); cbn [bind]; try contradiction; auto.
  destruct (mapM as_factory ss), (mapM as_factory ss'); cbn [bind]; try contradiction; auto.
Qed.

Lemma alike_make phi au kt b b' s s' :
  Forall2 (fun e e' => same_frame e e' /\ alike (esection e) (esection e')) b b' ->
  match make_as4100 phi au kt (Some b) s, make_as4100 phi au kt (Some b') s' with
  | Ok a, Ok a' => same_check a a' | Err e, Err e' => e = e' | _, _ => False end.
Proof.
  intros F. unfold make_as4100. cbn [sections_of].
  assert (F1 : Forall2 same_frame b b') by (clear - F; induction F; constructor; tauto).
  assert (F2 : Forall2 alike (beam_sections b) (beam_sections b')).
  { clear - F. unfold beam_sections. induction F; cbn; constructor; tauto. }
  pose proof (alike_factories _ _ F2) as X.
  destruct (mapM as_factory (beam_sections b)), (mapM as_factory (beam_sections b')); cbn [bind];
    try contradiction; auto.
  unfold same_check. cbn. auto 10.
Qed.

Lemma alike_results phi au kt b b' s s' a a' :
  Forall2 (fun e e' => same_frame e e' /\ alike (esection e) (esection e')) b b' ->
  make_as4100 phi au kt (Some b) s = Ok a -> make_as4100 phi au kt (Some b') s' = Ok a' ->
  forall qs lc position,
  tension_capacity a' position = tension_capacity a position
  /\ tension_utilisation qs a' lc position = tension_utilisation qs a lc position.
Proof.
  intros F H H' qs lc position. pose proof (alike_make phi au kt b b' s s' F) as X.
  rewrite H, H' in X. split; [now apply sc_capacity|now apply sc_utilisation].
Qed.
Lemma alike_accepted phi au kt b b' s s' :
  Forall2 (fun e e' => same_frame e e' /\ alike (esection e) (esection e')) b b' ->
  (exists a, make_as4100 phi au kt (Some b) s = Ok a)
  <-> (exists a', make_as4100 phi au kt (Some b') s' = Ok a').
Proof.
  intros F. pose proof (alike_make phi au kt b b' s s' F) as X.
  destruct (make_as4100 phi au kt (Some b) s), (make_as4100 phi au kt (Some b') s');
    try contradiction; split; intros (x & E); eauto; discriminate E.
Qed.

(** * The shipped materials *)

Lemma shipped_listed n m : load_material (T := pynum) material_toml n = Ok m ->
  In n (load_list (T := pynum) material_toml).
Proof.
  intros E. destruct (in_dec string_dec n (load_list (T := pynum) material_toml)) as [i|i]; auto.
  destruct (load_all (T := pynum) material_toml) as [d|] eqn:Ed.
  - destruct (load_material_spec material_toml d Ed) as (_ & _ & U & _). rewrite (U n i) in E. discriminate E.
  - unfold load_material in E. rewrite Ed in E. discriminate E.
Qed.

Lemma shipped_distinct n n' m m' :
  load_material (T := pynum) material_toml n = Ok m ->
  load_material material_toml n' = Ok m' -> mat_eqb m m' = true <-> n = n'.
Proof.
  assert (K : forallb (fun x => forallb (fun y =>
     match load_material (T := pynum) material_toml x, load_material (T := pynum) material_toml y with
     | Ok m, Ok m' => Bool.eqb (mat_eqb m m') (String.eqb x y) | _, _ => false end)
     (load_list (T := pynum) material_toml)) (load_list (T := pynum) material_toml) = true)
    by (vm_compute; reflexivity).
  intros H H'.
  rewrite forallb_forall in K. specialize (K n (shipped_listed n m H)). rewrite forallb_forall in K.
  specialize (K n' (shipped_listed n' m' H')). rewrite H, H' in K. apply Bool.eqb_prop in K.
  rewrite K. apply String.eqb_eq.
Qed.

Definition okb (x : pynum) : bool := nisfloat x && negb (nisnan x).
Definition tval_okb (v : tval pynum) : bool :=
  match v with
  | TStr _ => true | TNum x => okb x | TTable t => forallb (forallb okb) t | TOther => false
  end.
Fixpoint nodupb (l : list string) : bool :=
  match l with [] => true | k :: r => negb (existsb (String.eqb k) r) && nodupb r end.
Lemma nodupb_ok l : nodupb l = true -> NoDup l.
Proof.
  induction l as [|k l IH]; cbn; [constructor|]. rewrite andb_true_iff, negb_true_iff.
  intros (A & B). constructor; auto. intros I.
  assert (existsb (String.eqb k) l = true); [|congruence].
  apply existsb_exists. exists k. split; auto. apply String.eqb_refl.
Qed.
Definition mat_okb (m : material pynum) : bool :=
  match mtype m with Some _ => true | None => false end && tval_okb (mname m)
  && tval_okb (mstandard m) && forallb (fun kv => tval_okb (snd kv)) (mprops m)
  && nodupb (map fst (mprops m)).

Lemma okb_ok x : okb x = true -> Pok x.
Proof. destruct x as [z|[]]; cbn; auto; discriminate. Qed.
Lemma tval_okb_ok v : tval_okb v = true -> tval_ok Pok v.
Proof.
  destruct v as [s|x|t|]; cbn; auto using okb_ok; [|discriminate].
  intros H. rewrite Forall_forall. intros l Hl. rewrite forallb_forall in H. specialize (H l Hl).
  rewrite Forall_forall. intros x Hx. rewrite forallb_forall in H. apply okb_ok. now apply H.
Qed.
Lemma mat_okb_ok m : mat_okb m = true -> mat_ok Pok m.
Proof.
  unfold mat_okb, mat_ok. rewrite !andb_true_iff. intros ((((A & B) & C) & D) & E).
  split; [destruct (mtype m); discriminate|]. split; [now apply tval_okb_ok|].
  split; [now apply tval_okb_ok|]. split; [now apply nodupb_ok|].
  rewrite Forall_forall. intros kv H. rewrite forallb_forall in D. apply tval_okb_ok. now apply D.
Qed.
Lemma shipped_ok n m : load_material (T := pynum) material_toml n = Ok m -> mat_ok Pok m.
Proof.
  assert (K : forallb (fun x => match load_material (T := pynum) material_toml x with
     | Ok m => mat_okb m | _ => false end) (load_list (T := pynum) material_toml) = true)
    by (vm_compute; reflexivity).
  intros E. rewrite forallb_forall in K. specialize (K n (shipped_listed n m E)).
  rewrite E in K. now apply mat_okb_ok.
Qed.

(** AS3678-250 with its properties in another order and another file entry. *)
Definition steel250 (o : bool) : material R :=
  let p := [("E", TNum 200e9); ("strengths", TTable [[8e-3; 12e-3]; [280e6; 260e6]; [410e6; 410e6]])]%string in
  mk_material (Some Steel) (TStr "250") (TStr "AS3678-2016") (if o then p else rev p).
Lemma steel250_nodup o : NoDup (map fst (mprops (steel250 o))).
Proof.
  destruct o; cbn; repeat constructor; cbn; intuition congruence.
Qed.
Lemma steel250_ok o : mat_ok Rok (steel250 o).
Proof.
  repeat split; try apply steel250_nodup; try discriminate.
  destruct o; cbn; repeat constructor.
Qed.
Lemma steel250_equal : mat_eqb (steel250 true) (steel250 false) = true /\ steel250 true <> steel250 false.
Proof.
  split; [|discriminate]. apply mat_eqb_R; try apply steel250_ok. repeat split. intros k. cbn [steel250 mprops rev app sget].
  destruct (String.eqb_spec k "E"); destruct (String.eqb_spec k "strengths"); auto. subst. discriminate.
Qed.

Lemma shipped_compared n m n' m' :
  load_material (T := pynum) material_toml n = Ok m ->
  load_material (T := pynum) material_toml n' = Ok m' ->
  mat_ok Pok m /\ (mat_eqb m m' = true <-> n = n').
Proof.
  intros H H'. split; [exact (shipped_ok n m H)|now apply shipped_distinct].
Qed.
