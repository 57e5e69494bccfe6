(** Lemmas on Objects.v: the constructors refine the stateless ones; code checks follow
    their beam; frame. *)

From Coq Require Import ZArith List Bool PeanoNat.
From Verif Require Import Base Num Numpy LoadCase Beam Material AS4100 Objects.
Import ListNotations.
Open Scope Z_scope.

Section ObjectFacts.
Context {T : Type} {NT : Num T}.

(** The sections of a check's beam, or its section (codecheck.py lines 79-93). *)
Definition secs_now (w : world T) (b s : option nat) : list (option nat) :=
  match b with
  | None => [s]
  | Some l => map (fun e => eo_section (w_elem w e)) (w_list w l)
  end.

(** A Circle of steel. *)
Definition steel_circle (w : world T) (s : nat) : Prop :=
  exists r m, w_sec w s = OCircle r (Some m) /\ mtype (w_mat w m) = Some Steel.
Definition circle_with_material (w : world T) (s : nat) : Prop :=
  exists r m, w_sec w s = OCircle r (Some m).

Lemma factory_now (w : world T) so a : as_factory (option_map (sec_now w) so) = Ok a ->
  exists s, so = Some s /\ steel_circle w s /\ wrapper_now w s = Ok a.
Proof.
  destruct so as [s|]; cbn [option_map as_factory]; [|discriminate].
  unfold sec_now. destruct (w_sec w s) as [r m|] eqn:E; [|discriminate].
  destruct m as [m|]; cbn [option_map]; [|discriminate].
  destruct (mtype (w_mat w m)) as [[|]|] eqn:M; try discriminate. intros H.
  exists s. split; [reflexivity|]. split; [exists r, m; auto|].
  unfold wrapper_now. rewrite E. exact H.
Qed.

Lemma factory_ok (w : world T) s : steel_circle w s ->
  exists a, as_factory (Some (sec_now w s)) = Ok a /\ wrapper_now w s = Ok a.
Proof.
  intros (r & m & E & M). unfold sec_now, wrapper_now. rewrite E. cbn [option_map as_factory].
  rewrite M. eauto.
Qed.

Definition wrap (w : world T) (so : option nat) : res nat :=
  let! _ := as_factory (option_map (sec_now w) so) in
  match so with Some s => Ok s | None => Err NotImplementedError end.

Lemma wraps_factory (w : world T) l : 
  match mapM (wrap w) l with
  | Ok ws => l = map Some ws /\ Forall (steel_circle w) ws
             /\ exists vs, mapM as_factory (map (option_map (sec_now w)) l) = Ok vs
                           /\ mapM (wrapper_now w) ws = Ok vs
  | Err e => mapM as_factory (map (option_map (sec_now w)) l) = Err e
  end.
Proof.
  induction l as [|so r IH]; cbn [mapM map].
  { split; [reflexivity|]. split; [constructor|]. exists []. auto. }
  unfold wrap at 1. destruct (as_factory (option_map (sec_now w) so)) as [a|e] eqn:E;
    cbn [bind]; [|reflexivity].
  apply factory_now in E. destruct E as (s & -> & St & W). cbn [bind].
  destruct (mapM (wrap w) r) as [ws|e]; cbn [bind].
  - destruct IH as (-> & Fs & vs & V1 & V2). split; [reflexivity|]. split; [now constructor|].
    exists (a :: vs). rewrite V1. cbn [bind]. split; [reflexivity|].
    cbn [mapM]. rewrite W. cbn [bind]. rewrite V2. reflexivity.
  - rewrite IH. reflexivity.
Qed.

Lemma secs_sections (w : world T) b s :
  map (option_map (sec_now w)) (secs_now w b s)
  = sections_of (option_map (beam_now w) b) (option_map (sec_now w) s).
Proof.
  destruct b as [l|]; cbn [secs_now option_map sections_of]; [|reflexivity].
  unfold beam_sections, beam_now. rewrite !map_map. reflexivity.
Qed.

(** The constructor refines the stateless one. *)
Lemma new_check_refines (w : world T) phi au kt b s :
  match new_check w phi au kt b s with
  | Ok k => exists v, make_as4100 phi au kt (option_map (beam_now w) b) (option_map (sec_now w) s)
                      = Ok v /\ check_now w k = Ok v
  | Err e => make_as4100 phi au kt (option_map (beam_now w) b) (option_map (sec_now w) s) = Err e
  end.
Proof.
  unfold new_check, make_as4100.
  pose proof (wraps_factory w (secs_now w b s)) as H. rewrite secs_sections in H.
  unfold wrap in H.
  destruct b as [l|]; [|destruct s as [s|]; [|reflexivity]]; cbn [secs_now option_map] in H |- *;
  (destruct (mapM _ _) as [ws|e] in H |- *; cbn [bind];
   [destruct H as (_ & _ & vs & V1 & V2); rewrite V1; cbn [bind];
    eexists; split; [reflexivity|]; unfold check_now; cbn [k_wrappers k_beam k_section option_map];
    rewrite V2; reflexivity
   |rewrite H; reflexivity]).
Qed.

Lemma new_check_ok (w : world T) phi au kt b s k : new_check w phi au kt b s = Ok k ->
  k = mk_check b s 20 (k_wrappers k) phi au kt
  /\ secs_now w b s = map Some (k_wrappers k) /\ Forall (steel_circle w) (k_wrappers k).
Proof.
  unfold new_check. pose proof (wraps_factory w (secs_now w b s)) as H. unfold wrap in H.
  destruct b as [l|]; [|destruct s as [s|]; [|discriminate]]; cbn [secs_now] in H |- *;
  (destruct (mapM _ _) as [ws|e] in H |- *; cbn [bind]; [|discriminate];
   intros [= <-]; cbn [k_wrappers]; tauto).
Qed.

Lemma wraps_steel (w : world T) ws : Forall (steel_circle w) ws -> mapM (wrap w) (map Some ws) = Ok ws.
Proof.
  induction 1 as [|s r S Fr IH]; cbn [map mapM]; [reflexivity|].
  unfold wrap at 1. destruct (factory_ok w s S) as (a & E & _). cbn [option_map]. rewrite E.
  cbn [bind]. rewrite IH. reflexivity.
Qed.

Lemma wraps_not_steel (w : world T) ws : Forall (circle_with_material w) ws ->
  ~ Forall (steel_circle w) ws -> mapM (wrap w) (map Some ws) = Err InvalidMaterialError.
Proof.
  induction 1 as [|s r C Fr IH]; intros N; [destruct N; constructor|].
  cbn [map mapM]. unfold wrap at 1. cbn [option_map].
  destruct C as (rad & m & E). destruct (mtype (w_mat w m)) as [t|] eqn:M.
  - destruct t.
    + assert (S : steel_circle w s) by (exists rad, m; auto).
      destruct (factory_ok w s S) as (a & Ea & _). rewrite Ea. cbn [bind].
      rewrite IH; [reflexivity|]. intros G. apply N. now constructor.
    + unfold sec_now. rewrite E. cbn [option_map as_factory]. rewrite M. reflexivity.
  - unfold sec_now. rewrite E. cbn [option_map as_factory]. rewrite M. reflexivity.
Qed.

Lemma steel_dec (w : world T) s : circle_with_material w s -> steel_circle w s \/ ~ steel_circle w s.
Proof.
  intros (r & m & E). destruct (mtype (w_mat w m)) as [[|]|] eqn:M;
    [left; exists r, m; auto|right|right]; intros (r' & m' & E' & M'); congruence.
Qed.

Lemma all_steel_dec (w : world T) ws : Forall (circle_with_material w) ws ->
  Forall (steel_circle w) ws \/ ~ Forall (steel_circle w) ws.
Proof.
  induction 1 as [|s r C Fr IH]; [left; constructor|].
  destruct (steel_dec w s C) as [S|S]; [|right; now inversion 1].
  destruct IH as [IH|IH]; [left; now constructor|right; now inversion 1].
Qed.

(** * Following the beam *)

(** What keeps the wrappers of a check up to date: no assignment to the section of one of
    the beam's elements, no edit of the beam's list. *)
Definition keeps_sections (es : list nat) (b : option nat) (o : op T) : Prop :=
  match o with
  | SetElementSection e _ => ~ In e es
  | SetList l _ => b <> Some l
  | _ => True
  end.

Definition elements_of (w : world T) (b : option nat) : list nat :=
  match b with Some l => w_list w l | None => [] end.

(** The materials assigned are steel. *)
Definition steel_op (w : world T) (o : op T) : Prop :=
  match o with
  | SetMaterial _ v => mtype v = Some Steel
  | SetSectionMaterial _ m => mtype (w_mat w m) = Some Steel
  | _ => True
  end.

Lemma upd_same {A} (f : nat -> A) i v : upd f i v i = v.
Proof. unfold upd. now rewrite Nat.eqb_refl. Qed.
Lemma upd_other {A} (f : nat -> A) i v j : j <> i -> upd f i v j = f j.
Proof. intros N. unfold upd. now rewrite (proj2 (Nat.eqb_neq j i)). Qed.
Lemma upd_cases {A} (f : nat -> A) i v j : (j = i /\ upd f i v j = v) \/ (j <> i /\ upd f i v j = f j).
Proof.
  destruct (Nat.eq_dec j i) as [->|N]; [left; auto using upd_same|right; auto using upd_other].
Qed.

Ltac case_upd j := match goal with |- context [upd ?f ?i ?v j] =>
  let N := fresh "N" in let E := fresh "E" in
  destruct (upd_cases f i v j) as [[N E]|[N E]]; rewrite E end.

(** One step keeps the beam, the section, the wrappers and what they wrap. *)
Lemma step_fixed (w : world T) k o : k_beam (snd (step (w, k) o)) = k_beam k
  /\ k_section (snd (step (w, k) o)) = k_section k
  /\ k_wrappers (snd (step (w, k) o)) = k_wrappers k.
Proof. destruct o; cbn; auto. Qed.

Lemma step_circle (w : world T) k o s : circle_with_material w s ->
  circle_with_material (fst (step (w, k) o)) s.
Proof.
  intros (r & m & E). unfold circle_with_material. destruct o; cbn; eauto.
  - case_upd s; [subst|eauto]. rewrite E. eauto.
  - case_upd s; [subst|eauto]. rewrite E. eauto.
Qed.

Lemma step_secs (w : world T) k o b s : keeps_sections (elements_of w b) b o ->
  elements_of (fst (step (w, k) o)) b = elements_of w b
  /\ secs_now (fst (step (w, k) o)) b s = secs_now w b s.
Proof.
  intros K. destruct b as [l|]; [|destruct o; cbn; auto]. cbn [elements_of secs_now] in *.
  destruct o; cbn in *; auto.
  - split; [reflexivity|]. apply map_ext_in. intros x _. case_upd x; subst; reflexivity.
  - split; [reflexivity|]. apply map_ext_in. intros x Hx. case_upd x; [subst; contradiction|reflexivity].
  - rewrite !upd_other by (intros ->; now apply K). auto.
Qed.

Lemma run_inv h : forall w k,
  Forall (keeps_sections (elements_of w (k_beam k)) (k_beam k)) h ->
  Forall (circle_with_material w) (k_wrappers k) ->
  secs_now w (k_beam k) (k_section k) = map Some (k_wrappers k) ->
  let w' := fst (run (w, k) h) in let k' := snd (run (w, k) h) in
  k_beam k' = k_beam k /\ k_section k' = k_section k /\ k_wrappers k' = k_wrappers k
  /\ Forall (circle_with_material w') (k_wrappers k')
  /\ secs_now w' (k_beam k') (k_section k') = map Some (k_wrappers k').
Proof.
  induction h as [|o h IH]; intros w k K C S; cbn [run fold_left fst snd]; [auto|].
  inversion K as [|? ? K1 K2]; subst.
  destruct (step_fixed w k o) as (B & Se & W). destruct (step_secs w k o (k_beam k) (k_section k) K1) as (El & Sc).
  assert (C' : Forall (circle_with_material (fst (step (w, k) o))) (k_wrappers k))
    by (eapply Forall_impl; [|exact C]; intros s; apply step_circle).
  destruct (step (w, k) o) as [w1 k1] eqn:Es. cbn [fst snd] in *.
  specialize (IH w1 k1). rewrite B, Se, W, El in IH. specialize (IH K2 C').
  rewrite Sc in IH. exact (IH S).
Qed.

Lemma step_steel (w : world T) k o m : steel_op w o -> mtype (w_mat w m) = Some Steel ->
  mtype (w_mat (fst (step (w, k) o)) m) = Some Steel.
Proof.
  intros S M. destruct o; cbn in *; auto. case_upd m; auto.
Qed.

Lemma step_steel_op (w : world T) k o o' : steel_op w o -> steel_op w o' -> steel_op (fst (step (w, k) o)) o'.
Proof. intros S S'. destruct o'; cbn [steel_op] in *; auto. now apply step_steel. Qed.

Lemma step_steel_circle (w : world T) k o s : steel_op w o -> steel_circle w s ->
  steel_circle (fst (step (w, k) o)) s.
Proof.
  intros S (r & m & E & M). unfold steel_circle.
  pose proof (fun m => step_steel w k o m S) as G.
  destruct o; cbn in G |- *; try (exists r, m; now auto).
  - case_upd s; [subst|exists r, m; now auto]. rewrite E. eexists; eexists; split; [reflexivity|auto].
  - case_upd s; [subst|exists r, m; now auto]. rewrite E. eexists; eexists; split; [reflexivity|exact S].
Qed.

Lemma run_steel h : forall w k,
  Forall (steel_op w) h -> Forall (steel_circle w) (k_wrappers k) ->
  Forall (steel_circle (fst (run (w, k) h))) (k_wrappers k)
  /\ k_wrappers (snd (run (w, k) h)) = k_wrappers k.
Proof.
  induction h as [|o h IH]; intros w k S C; cbn [run fold_left fst snd]; [auto|].
  inversion S as [|? ? S1 S2]; subst.
  destruct (step_fixed w k o) as (_ & _ & W).
  assert (S' : Forall (steel_op (fst (step (w, k) o))) h)
    by (eapply Forall_impl; [|exact S2]; intros o'; now apply step_steel_op).
  assert (C' : Forall (steel_circle (fst (step (w, k) o))) (k_wrappers k))
    by (eapply Forall_impl; [|exact C]; intros s; now apply step_steel_circle).
  destruct (step (w, k) o) as [w1 k1]. cbn [fst snd] in *. rewrite <- W in C'.
  destruct (IH w1 k1 S' C') as (A & B). rewrite W in A, B. auto.
Qed.

(** When the wrappers are those of the beam's sections now, a new check is the same
    object, or refused because a section is not of steel. *)
Lemma fresh_same qs w k q :
  Forall (circle_with_material w) (k_wrappers k) ->
  secs_now w (k_beam k) (k_section k) = map Some (k_wrappers k) ->
  (k_beam k <> None \/ k_section k <> None) ->
  (Forall (steel_circle w) (k_wrappers k) -> ask_fresh qs (w, k) q = ask_check qs (w, k) q)
  /\ (~ Forall (steel_circle w) (k_wrappers k) -> ask_fresh qs (w, k) q = Err InvalidMaterialError).
Proof.
  intros C S NN. unfold ask_fresh.
  assert (E : new_check w (k_phi k) (k_alpha_u k) (k_kt k) (k_beam k) (k_section k)
    = let! ws := mapM (wrap w) (map Some (k_wrappers k)) in
      Ok (mk_check (k_beam k) (k_section k) 20 ws (k_phi k) (k_alpha_u k) (k_kt k))).
  { rewrite <- S. unfold new_check, wrap, secs_now.
    destruct (k_beam k); [reflexivity|]. destruct (k_section k); [reflexivity|]. now destruct NN. }
  rewrite E. split; intros H.
  - rewrite wraps_steel by auto. cbn [bind step]. destruct k; reflexivity.
  - rewrite wraps_not_steel by auto. reflexivity.
Qed.

Lemma check_follows qs w phi au kt b s k h q :
  new_check w phi au kt b s = Ok k ->
  Forall (keeps_sections (elements_of w b) b) h ->
  ask_fresh qs (run (w, k) h) q = ask_check qs (run (w, k) h) q
  \/ ask_fresh qs (run (w, k) h) q = Err InvalidMaterialError.
Proof.
  intros E K. assert (NN : b <> None \/ s <> None).
  { destruct b; [left; discriminate|]. destruct s; [right; discriminate|discriminate E]. }
  destruct (new_check_ok _ _ _ _ _ _ _ E) as (Ek & S & F).
  assert (B : k_beam k = b) by now rewrite Ek. assert (Sk : k_section k = s) by now rewrite Ek.
  assert (C : Forall (circle_with_material w) (k_wrappers k)).
  { eapply Forall_impl; [|exact F]. intros x (r & m & X & _). exists r, m; auto. }
  rewrite <- B in K. rewrite <- B, <- Sk in S, NN.
  destruct (run_inv h w k K C S) as (B' & S' & W' & C' & Sc').
  destruct (run (w, k) h) as [w' k'] eqn:R. cbn [fst snd] in *.
  rewrite <- B', <- S' in NN.
  destruct (fresh_same qs w' k' q C' Sc' NN) as (X & Y).
  destruct (all_steel_dec w' _ C'); auto.
Qed.

Lemma check_follows_steel qs w phi au kt b s k h q :
  new_check w phi au kt b s = Ok k ->
  Forall (keeps_sections (elements_of w b) b) h -> Forall (steel_op w) h ->
  ask_fresh qs (run (w, k) h) q = ask_check qs (run (w, k) h) q.
Proof.
  intros E K St. assert (NN : b <> None \/ s <> None).
  { destruct b; [left; discriminate|]. destruct s; [right; discriminate|discriminate E]. }
  destruct (new_check_ok _ _ _ _ _ _ _ E) as (Ek & S & F).
  assert (B : k_beam k = b) by now rewrite Ek. assert (Sk : k_section k = s) by now rewrite Ek.
  assert (C : Forall (circle_with_material w) (k_wrappers k)).
  { eapply Forall_impl; [|exact F]. intros x (r & m & X & _). exists r, m; auto. }
  destruct (run_steel h w k St F) as (F' & W).
  rewrite <- B in K. rewrite <- B, <- Sk in S, NN.
  destruct (run_inv h w k K C S) as (B' & S' & W' & C' & Sc').
  destruct (run (w, k) h) as [w' k'] eqn:R. cbn [fst snd] in *.
  rewrite <- B', <- S' in NN.
  apply fresh_same; auto. now rewrite W.
Qed.

(** * Only steel is rated *)

(** A check whose materials stay steel rates steel only. *)
Lemma only_steel w phi au kt b s k h :
  new_check w phi au kt b s = Ok k -> Forall (steel_op w) h ->
  Forall (steel_circle (fst (run (w, k) h))) (k_wrappers (snd (run (w, k) h))).
Proof.
  intros E St. destruct (new_check_ok _ _ _ _ _ _ _ E) as (_ & _ & F).
  destruct (run_steel h w k St F) as (A & ->). exact A.
Qed.

(** * The invariant of a beam *)

Definition keeps_cases (w : world T) (l : nat) (o : op T) : Prop :=
  match o with
  | SetLoads d _ => forall e, In e (w_list w l) -> eo_loads (w_elem w e) <> d
  | SetList l' _ => l' <> l
  | _ => True
  end.

Definition cases_now (w : world T) (l : nat) : list (list Z) :=
  map (fun e => map fst (w_dict w (eo_loads (w_elem w e)))) (w_list w l).

Lemma check_elements_cases w w' l : cases_now w l = cases_now w' l ->
  forall b, check_elements (beam_now w l) = Ok b -> exists b', check_elements (beam_now w' l) = Ok b'.
Proof.
  assert (G : forall (f : list Z -> bool) v m, forallb (fun e => f (el_load_cases e)) (beam_now v m)
                               = forallb f (cases_now v m)).
  { intros f v m. unfold beam_now, cases_now. induction (w_list v m) as [|e r IH]; [reflexivity|].
    cbn [map forallb]. rewrite IH. reflexivity. }
  intros E b. unfold check_elements.
  destruct (beam_now w l) as [|e0 r] eqn:B0; [discriminate|].
  destruct (beam_now w' l) as [|e0' r'] eqn:B0'.
  { unfold beam_now, cases_now in *. destruct (w_list w l); [discriminate|].
    destruct (w_list w' l); discriminate. }
  assert (H0 : el_load_cases e0 = el_load_cases e0').
  { unfold beam_now, cases_now in *. destruct (w_list w l); [discriminate|].
    destruct (w_list w' l); [discriminate|]. cbn [map] in *. injection B0 as <- _.
    injection B0' as <- _. injection E as E _. exact E. }
  rewrite <- B0, <- B0'. unfold el_no_load_cases. rewrite H0.
  rewrite (G (fun c => Nat.eqb (List.length c) (List.length (el_load_cases e0'))) w l).
  rewrite (G (fun c => Nat.eqb (List.length c) (List.length (el_load_cases e0'))) w' l).
  rewrite (G (fun c => zlist_eqb c (el_load_cases e0')) w l).
  rewrite (G (fun c => zlist_eqb c (el_load_cases e0')) w' l). rewrite E.
  destruct (negb _); [discriminate|]. destruct (negb _); [discriminate|]. eauto.
Qed.

Lemma step_cases (w : world T) k o l : keeps_cases w l o ->
  cases_now (fst (step (w, k) o)) l = cases_now w l
  /\ w_list (fst (step (w, k) o)) l = w_list w l
  /\ forall e, eo_loads (w_elem (fst (step (w, k) o)) e) = eo_loads (w_elem w e).
Proof.
  intros K. unfold cases_now. destruct o; cbn in *; auto.
  - split; [|split; [reflexivity|]].
    + apply map_ext_in. intros x _. case_upd x; subst; reflexivity.
    + intros x. case_upd x; subst; reflexivity.
  - split; [|split; [reflexivity|]].
    + apply map_ext_in. intros x _. case_upd x; subst; reflexivity.
    + intros x. case_upd x; subst; reflexivity.
  - split; [|auto]. apply map_ext_in. intros x Hx.
    rewrite upd_other by (now apply K). reflexivity.
  - rewrite upd_other by congruence. auto.
Qed.

Lemma beam_consistent l h : forall w k, new_beam w l = Ok l -> Forall (keeps_cases w l) h ->
  new_beam (fst (run (w, k) h)) l = Ok l.
Proof.
  induction h as [|o h IH]; intros w k E K; [exact E|].
  inversion K as [|? ? K1 K2]; subst. cbn [run fold_left].
  destruct (step_cases w k o l K1) as (A & B & C).
  destruct (step (w, k) o) as [w1 k1]. cbn [fst] in *. apply IH.
  - unfold new_beam in *. destruct (check_elements (beam_now w l)) as [b|] eqn:X; [|discriminate].
    destruct (check_elements_cases w w1 l (eq_sym A) b X) as (b' & ->). reflexivity.
  - eapply Forall_impl; [|exact K2]. intros o'. unfold keeps_cases. destruct o'; auto.
    rewrite B. intros G e He. rewrite C. auto.
Qed.

(** * Frame *)

(** The sections an AS4100 object refers to. *)
Definition section_of_check (w : world T) (k : check T) (s : nat) : Prop :=
  In (Some s) (map (fun e => eo_section (w_elem w e)) (elements_of w (k_beam k)))
  \/ k_section k = Some s \/ In s (k_wrappers k).

(** An operation on an object the check does not refer to. *)
Definition foreign (w : world T) (k : check T) (o : op T) : Prop :=
  match o with
  | SetMaterial m _ => forall s r, section_of_check w k s -> w_sec w s <> OCircle r (Some m)
  | SetRadius s _ | SetSectionMaterial s _ => ~ section_of_check w k s
  | SetLength e _ | SetElementSection e _ => ~ In e (elements_of w (k_beam k))
  | SetLoads d _ => forall e, In e (elements_of w (k_beam k)) -> eo_loads (w_elem w e) <> d
  | SetList l _ => k_beam k <> Some l
  | SetPhi _ | SetAlphaU _ | SetKt _ | SetPoints _ => False
  end.

Definition agree (k : check T) (w w' : world T) : Prop :=
  elements_of w' (k_beam k) = elements_of w (k_beam k)
  /\ (forall e, In e (elements_of w (k_beam k)) ->
        w_elem w' e = w_elem w e
        /\ w_dict w' (eo_loads (w_elem w e)) = w_dict w (eo_loads (w_elem w e)))
  /\ (forall s, section_of_check w k s ->
        w_sec w' s = w_sec w s
        /\ forall r m, w_sec w s = OCircle r (Some m) -> w_mat w' m = w_mat w m).

Lemma agree_sections k w w' s : agree k w w' ->
  section_of_check w' k s <-> section_of_check w k s.
Proof.
  intros (A & B & _). unfold section_of_check. rewrite A.
  rewrite (map_ext_in _ (fun e => eo_section (w_elem w e))); [reflexivity|].
  intros e He. now rewrite (proj1 (B e He)).
Qed.

Lemma step_agree k w o : foreign w k o ->
  agree k w (fst (step (w, k) o)) /\ snd (step (w, k) o) = k.
Proof.
  intros Fo. unfold agree. destruct o; cbn in Fo |- *; try contradiction; (split; [|reflexivity]).
  - split; [reflexivity|]. split; [auto|]. intros s Hs. split; [reflexivity|]. intros r m' E.
    rewrite upd_other; [reflexivity|]. intros ->. exact (Fo s r Hs E).
  - split; [reflexivity|]. split; [auto|]. intros s' Hs. split; [|auto].
    apply upd_other. intros ->. contradiction.
  - split; [reflexivity|]. split; [auto|]. intros s' Hs. split; [|auto].
    apply upd_other. intros ->. contradiction.
  - split; [reflexivity|]. split; [|auto]. intros e' He. split; [|auto].
    apply upd_other. intros ->. contradiction.
  - split; [reflexivity|]. split; [|auto]. intros e' He. split; [|auto].
    apply upd_other. intros ->. contradiction.
  - split; [reflexivity|]. split; [|auto]. intros e' He. split; [reflexivity|].
    apply upd_other. now apply Fo.
  - split; [|auto]. unfold elements_of. cbn. destruct (k_beam k) as [l'|]; [|reflexivity].
    apply upd_other. congruence.
Qed.

Lemma agree_trans k w1 w2 w3 : agree k w1 w2 -> agree k w2 w3 -> agree k w1 w3.
Proof.
  intros G12 G23. pose proof (fun s => agree_sections k w1 w2 s G12) as Sec.
  destruct G12 as (A & B & C), G23 as (A' & B' & C'). rewrite A in A', B'.
  split; [exact A'|]. split.
  - intros e He. destruct (B e He) as (X & Y), (B' e He) as (X' & Y'). rewrite X in *.
    split; congruence.
  - intros s Hs. destruct (C s Hs) as (X & Y). destruct (C' s (proj2 (Sec s) Hs)) as (X' & Y').
    split; [congruence|]. intros r m E. rewrite (Y' r m) by congruence. now apply (Y r).
Qed.

Lemma agree_foreign k w w' o : agree k w w' -> foreign w k o -> foreign w' k o.
Proof.
  intros G. pose proof (fun s => agree_sections k w w' s G) as Sec.
  destruct G as (A & B & C). destruct o; cbn; auto; rewrite ?A, ?Sec; auto.
  - intros Fo s r Hs. apply Sec in Hs. rewrite (proj1 (C s Hs)). auto.
  - intros Fo e He. rewrite (proj1 (B e He)). auto.
Qed.

Lemma agree_sec k w w' s : agree k w w' -> section_of_check w k s -> sec_now w' s = sec_now w s.
Proof.
  intros (_ & _ & C) Hs. destruct (C s Hs) as (X & Y). unfold sec_now. rewrite X.
  destruct (w_sec w s) as [r [m|]|] eqn:E; cbn; try reflexivity. now rewrite (Y r m).
Qed.

Lemma mapM_ext_in {A B} (f g : A -> res B) l :
  (forall x, In x l -> f x = g x) -> mapM f l = mapM g l.
Proof.
  induction l as [|x r IH]; intros H; [reflexivity|]. cbn [mapM].
  rewrite (H x) by now left. destruct (g x); cbn [bind]; [|reflexivity].
  rewrite IH; [reflexivity|]. intros y Hy. apply H. now right.
Qed.

Lemma agree_elem k w w' e : agree k w w' -> In e (elements_of w (k_beam k)) ->
  elem_now w' e = elem_now w e.
Proof.
  intros G He. pose proof G as (A & B & C). destruct (B e He) as (X & Y).
  unfold elem_now. rewrite X, Y. f_equal.
  destruct (eo_section (w_elem w e)) as [s|] eqn:E; [|reflexivity]. cbn. f_equal.
  apply (agree_sec k); auto. left. rewrite <- E. now apply (in_map (fun e => eo_section (w_elem w e))).
Qed.

Lemma agree_now k w w' : agree k w w' ->
  (forall l, k_beam k = Some l -> beam_now w' l = beam_now w l) /\ check_now w' k = check_now w k.
Proof.
  intros G. pose proof G as (A & B & C).
  assert (Bm : forall l, k_beam k = Some l -> beam_now w' l = beam_now w l).
  { intros l El. unfold beam_now. pose proof A as A1. rewrite El in A1. cbn in A1. rewrite A1.
    apply map_ext_in. intros e He. apply (agree_elem k); auto. rewrite El. exact He. }
  split; [exact Bm|]. unfold check_now.
  rewrite (mapM_ext_in (wrapper_now w') (wrapper_now w)).
  - destruct (mapM (wrapper_now w) (k_wrappers k)) as [ws|]; cbn [bind]; [|reflexivity].
    f_equal. f_equal.
    + destruct (k_beam k) as [l|] eqn:El; [|reflexivity]. cbn. f_equal. now apply Bm.
    + destruct (k_section k) as [s|] eqn:Es; [|reflexivity]. cbn. f_equal.
      apply (agree_sec k); auto. right; left. exact Es.
  - intros s Hs. destruct (C s) as (X & Y); [right; right; exact Hs|]. unfold wrapper_now.
    rewrite X. destruct (w_sec w s) as [r [m|]|] eqn:E; try reflexivity. now rewrite (Y r m).
Qed.

Lemma run_agree k h : forall w, Forall (foreign w k) h ->
  agree k w (fst (run (w, k) h)) /\ snd (run (w, k) h) = k.
Proof.
  induction h as [|o h IH]; intros w Fo.
  { cbn. split; [|reflexivity]. split; [reflexivity|]. split; auto. }
  inversion Fo as [|? ? F1 F2]; subst. cbn [run fold_left].
  destruct (step_agree k w o F1) as (G & Sk). destruct (step (w, k) o) as [w1 k1]. cbn [fst snd] in *.
  subst k1. assert (F2' : Forall (foreign w1 k) h)
    by (eapply Forall_impl; [|exact F2]; intros o'; now apply agree_foreign).
  destruct (IH w1 F2') as (G' & Sk'). split; [|exact Sk']. eapply agree_trans; eauto.
Qed.

Lemma frame qs w k h q : Forall (foreign w k) h ->
  ask_check qs (run (w, k) h) q = ask_check qs (w, k) q.
Proof.
  intros Fo. destruct (run_agree k h w Fo) as (G & Sk). unfold ask_check.
  rewrite Sk, (proj2 (agree_now k w _ G)). reflexivity.
Qed.

Lemma frame_beam qs w k l h q : k_beam k = Some l -> Forall (foreign w k) h ->
  ask_beam qs (fst (run (w, k) h)) l q = ask_beam qs w l q.
Proof.
  intros El Fo. destruct (run_agree k h w Fo) as (G & Sk). unfold ask_beam.
  now rewrite (proj1 (agree_now k w _ G) l El).
Qed.

Lemma constructor_refines w phi au kt b s :
  match new_check w phi au kt b s with
  | Ok k => exists v,
      make_as4100 phi au kt (option_map (beam_now w) b) (option_map (sec_now w) s) = Ok v
      /\ forall qs p l n c,
        ask_check qs (w, k) (QNty p) = rmap ANumber (Nty v p)
        /\ ask_check qs (w, k) (QNtu p) = rmap ANumber (Ntu v p)
        /\ ask_check qs (w, k) (QNt p) = rmap ANumber (Nt v p)
        /\ ask_check qs (w, k) (QPhiNty p) = rmap ANumber (phiNty v p)
        /\ ask_check qs (w, k) (QPhiNtu p) = rmap ANumber (phiNtu v p)
        /\ ask_check qs (w, k) (QPhiNt p) = rmap ANumber (phiNt v p)
        /\ ask_check qs (w, k) (QTensionCapacity p) = rmap ANumber (tension_capacity v p)
        /\ (forall ls, ask_check qs (w, k) (QTensionUtilisation ls p) = rmap ANumber (tension_utilisation qs v ls p))
        /\ (forall ls, ask_check qs (w, k) (QGetTension ls p n) = rmap (fun r => ARows (Some r)) (get_tension qs v ls p n))
        /\ ask_check qs (w, k) (QCheckLoads l p n c) = rmap ARows (cc_get_loads qs v l p n c)
        /\ (forall m, ask_check qs (w, k) (QCheckSection p n m) = rmap APosSections (cc_get_section v p n m))
  | Err e => make_as4100 phi au kt (option_map (beam_now w) b) (option_map (sec_now w) s) = Err e
  end.
Proof.
  pose proof (new_check_refines w phi au kt b s) as H.
  destruct (new_check w phi au kt b s) as [k|e]; [|exact H].
  destruct H as (v & A & B). exists v. split; [exact A|]. intros qs p l n c.
  unfold ask_check. cbn [fst snd]. rewrite B. cbn [bind check_answer]. repeat (split; [reflexivity|]). reflexivity.
Qed.

End ObjectFacts.
