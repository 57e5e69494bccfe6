(** Sessions: any sequence of S6 calls. *)

From Coq Require Import ZArith Reals List Bool String Lia Lra.
From Verif Require Import Base Num RNum PyReal Symmetry S6 S6Cache S6CacheFacts S6CacheProofs
  S6CacheNc S6Torsion.
Import ListNotations.
Open Scope R_scope.
Open Scope string_scope.

Lemma ran_true {A} h0 (m : M A) s Q : ran h0 m s Q -> ran h0 m s (fun _ _ => True).
Proof. unfold ran. tauto. Qed.

Lemma ran_as_ref h0 m s : ran h0 m s (fun _ _ => True) -> ran h0 (as_ref m) s (fun _ _ => True).
Proof.
  intros H. unfold as_ref. apply ran_bind. eapply ran_mono; [exact H|].
  intros [a|e] h _; [|exact Logic.I]. intros s' I' H' _. now apply ran_ret.
Qed.
Lemma ran_as_num h0 m s : ran h0 m s (fun _ _ => True) -> ran h0 (as_num m) s (fun _ _ => True).
Proof.
  intros H. unfold as_num. apply ran_bind. eapply ran_mono; [exact H|].
  intros [a|e] h _; [|exact Logic.I]. intros s' I' H' _. now apply ran_ret.
Qed.

Lemma run_call_ran roots c s :
  inv s -> ran (st_heap s) (run_call roots c) s (fun _ _ => True).
Proof.
  intros I. destruct c; cbn [run_call];
    first [apply ran_as_num | apply ran_as_ref]; eapply ran_true.
  - now apply m_r_ol_ran.
  - now apply m_f_euler_torsion_ran.
  - now apply m_s6_3_3_alpha_c_ran.
  - now apply m_s6_3_3_N_c_ran.
  - now apply m_f_oxz_ran.
  - now apply m_double_ran.
  - now apply m_single_ran.
  - now apply m_point_ran.
  - now apply m_unsym_ran.
  - now apply m_ncz_ran.
  - now apply m_nc_ran.
Qed.

Lemma session_inv roots cs : forall s,
  inv s -> inv (session roots cs s) /\ hrel (st_heap s) (st_heap (session roots cs s)).
Proof.
  induction cs as [|c cs IH]; intros s I.
  - split; [exact I|apply hrel_refl].
  - cbn [session fold_left]. destruct (run_call_ran roots c s I) as (I1 & H1 & _).
    destruct (IH _ I1) as [I2 H2]. split; [exact I2|]. exact (hrel_trans _ _ _ H1 H2).
Qed.

(** * Memoisation is transparent *)

Lemma as_ref_fst m s : fst (as_ref m s) = rmap VRef (fst (m s)).
Proof. unfold as_ref, mbind. now destruct (m s) as [[a|e] s']. Qed.
Lemma as_ref_snd m s : snd (as_ref m s) = snd (m s).
Proof. unfold as_ref, mbind. now destruct (m s) as [[a|e] s']. Qed.

Lemma nc_call roots g s :
  inv s ->
  match nc_tree roots g with
  | Ok t => exists a, fst (run_call roots (CallNc g) s) = Ok (VRef a)
              /\ shows (st_heap (snd (run_call roots (CallNc g) s))) a t
  | Err e => fst (run_call roots (CallNc g) s) = Err e
  end.
Proof.
  intros I. destruct (m_nc_ran roots g s I) as (_ & _ & P). cbn [run_call].
  rewrite as_ref_fst, as_ref_snd. unfold nc_post in P.
  destruct (nc_tree roots g) as [t|e].
  - destruct P as (a & -> & S). exists a. auto.
  - now rewrite P.
Qed.

Definition same_numbers (x y : res val * state) : Prop :=
  match fst x, fst y with
  | Ok v, Ok w => forall p, numeric (at_path (st_heap (snd x)) v p)
                            = numeric (at_path (st_heap (snd y)) w p)
  | Err e, Err e' => e = e'
  | _, _ => False
  end.

Lemma nc_transparent roots cs g :
  same_numbers (run_call roots (CallNc g) (session roots cs fresh))
               (run_call roots (CallNc g) fresh).
Proof.
  destruct (session_inv roots cs fresh inv_fresh) as [I _].
  pose proof (nc_call roots g _ I) as P. pose proof (nc_call roots g _ inv_fresh) as P'.
  unfold same_numbers. destruct (nc_tree roots g) as [t|e].
  - destruct P as (a & -> & S). destruct P' as (a' & -> & S').
    intros p. now rewrite (shows_num _ _ _ _ S), (shows_num _ _ _ _ S').
  - now rewrite P, P'.
Qed.

(** The entries of the pure model's record. *)
Definition entry_of (o : nc_out) (k : string) : option R :=
  if String.eqb k "N_s" then Some (o_N_s o)
  else if String.eqb k "φN_s" then Some (o_phiN_s o)
  else if String.eqb k "N_cx" then o_N_cx o
  else if String.eqb k "φN_cx" then o_phiN_cx o
  else if String.eqb k "N_cy" then o_N_cy o
  else if String.eqb k "φN_cy" then o_phiN_cy o
  else if String.eqb k "N_cz" then o_N_cz o
  else if String.eqb k "φN_cz" then o_phiN_cz o
  else if String.eqb k "N_c" then Some (o_N_c o)
  else if String.eqb k "φN_c" then Some (o_phiN_c o)
  else None.

Definition nc_pure (roots : roots_oracle) (g : nc_args) : res nc_out :=
  s6_1_1_Nc roots (n_q g) (n_l g) (n_k_ex g) (n_k_ey g) (n_k_ez g) (n_sym g) (n_f_ref g)
    (n_alpha_b g) (n_uncertainty g) (n_phi g) (n_buckling g) (n_torsion g).

Lemma str_case (k a : string) :
  (k = a /\ String.eqb k a = true /\ String.eqb a k = true)
  \/ (k <> a /\ String.eqb k a = false /\ String.eqb a k = false).
Proof.
  destruct (String.eqb_spec k a) as [->|N].
  - left. rewrite String.eqb_refl. auto.
  - right. split; auto. split; auto. now apply String.eqb_neq; auto.
Qed.

Ltac keys k := repeat (cbn [app tnum tget];
  match goal with
  | |- context [String.eqb k ?a] =>
      let E := fresh in let E1 := fresh in let E2 := fresh in
      destruct (str_case k a) as [(E & E1 & E2)|(E & E1 & E2)];
      [subst k; reflexivity|rewrite ?E1, ?E2; clear E1 E2]
  | |- context [String.eqb ?a k] =>
      let E := fresh in let E1 := fresh in let E2 := fresh in
      destruct (str_case k a) as [(E & E1 & E2)|(E & E1 & E2)];
      [subst k; reflexivity|rewrite ?E1, ?E2; clear E1 E2]
  end); try reflexivity.

Lemma nc_tree_pure roots g :
  match nc_pure roots g with
  | Ok o => exists t, nc_tree roots g = Ok t
              /\ forall k, tnum t [k] = option_map VNum (entry_of o k)
  | Err e => nc_tree roots g = Err e
  end.
Proof.
  unfold nc_pure, nc_tree, s6_1_1_Nc. cbv zeta. destruct (n_buckling g).
  2:{ eexists. split; [reflexivity|]. intros k. unfold entry_of; cbn [o_N_s o_phiN_s o_N_cx
      o_phiN_cx o_N_cy o_phiN_cy o_N_cz o_phiN_cz o_N_c o_phiN_c]. keys k. }
  destruct (s6_3_3_N_c _ _ (s6_3_2_l_e _ (n_k_ex g)) _ _ _ _) as [bx|e]; cbn [bind]; [|reflexivity].
  destruct (s6_3_3_N_c _ _ (s6_3_2_l_e _ (n_k_ey g)) _ _ _ _) as [by_|e]; cbn [bind]; [|reflexivity].
  destruct (n_torsion g).
  2:{ eexists. split; [reflexivity|]. intros k. unfold entry_of; cbn [o_N_s o_phiN_s o_N_cx
      o_phiN_cx o_N_cy o_phiN_cy o_N_cz o_phiN_cz o_N_c o_phiN_c]. keys k. }
  rewrite <- ncz_tree_pure.
  destruct (ncz_tree _ _ _ _ _ _ _) as [[z E]|e]; cbn [bind rmap fst snd]; [|reflexivity].
  eexists. split; [reflexivity|]. intros k. unfold entry_of; cbn [o_N_s o_phiN_s o_N_cx
      o_phiN_cx o_N_cy o_phiN_cy o_N_cz o_phiN_cz o_N_c o_phiN_c]. keys k.
Qed.

Lemma nc_values roots cs g :
  let r := run_call roots (CallNc g) (session roots cs fresh) in
  match nc_pure roots g with
  | Ok o => exists v, fst r = Ok v
      /\ forall k, numeric (at_path (st_heap (snd r)) v [k]) = option_map VNum (entry_of o k)
  | Err e => fst r = Err e
  end.
Proof.
  intros r. destruct (session_inv roots cs fresh inv_fresh) as [I _].
  pose proof (nc_call roots g _ I) as P. fold r in P. pose proof (nc_tree_pure roots g) as Q.
  destruct (nc_pure roots g) as [o|e].
  - destruct Q as (t & Et & Q). rewrite Et in P. destruct P as (a & E & S).
    exists (VRef a). split; [exact E|]. intros k. now rewrite (shows_num _ _ _ _ S).
  - now rewrite Q in P.
Qed.

(** * What later calls leave alone *)

Lemma at_path_nonref h w p a :
  nonref w = true -> at_path h w p = Some (VRef a) -> False.
Proof.
  intros N E. destruct p; cbn in E.
  - injection E as ->. discriminate N.
  - destruct w; try discriminate E. discriminate N.
Qed.

Lemma beta_flat h a d :
  heap_ok h -> nth_error h a = Some d -> dget "β" d <> None -> flat d.
Proof.
  intros H E B. destruct (H a d E B) as (rx & ry & xo & yo & r & G). apply G.
Qed.

Lemma at_path_ref h h' p : heap_ok h -> hrel h h' -> forall v a,
  at_path h v p = Some (VRef a) -> at_path h' v p = Some (VRef a).
Proof.
  intros HO HR. induction p as [|k p IH]; intros v a E; [exact E|].
  cbn [at_path] in *. destruct v as [| | | |b]; try discriminate E.
  destruct (nth_error h b) as [d|] eqn:Eb; [|discriminate E].
  destruct (dget k d) as [w|] eqn:Ek; [|discriminate E].
  destruct (dget "β" d) eqn:EB.
  - exfalso. assert (flat d) as F by (eapply beta_flat; eauto; congruence).
    exact (at_path_nonref _ _ _ _ (F _ _ Ek) E).
  - rewrite (hrel_plain _ _ _ _ HR Eb EB), Ek. auto.
Qed.

Lemma at_path_snoc h p : forall v k,
  at_path h v (app p [k]) =
  match at_path h v p with
  | Some (VRef a) => match nth_error h a with Some d => dget k d | None => None end
  | _ => None
  end.
Proof.
  induction p as [|k' p IH]; intros v k; cbn [app at_path].
  - destruct v; try reflexivity. destruct (nth_error h a); [|reflexivity].
    now destruct (dget k d).
  - destruct v; try reflexivity. destruct (nth_error h a); [|reflexivity].
    destruct (dget k' d); [apply IH|reflexivity].
Qed.

(** A dictionary reached by [p] is still the same dictionary, and keeps its entries unless
    it came from [f_oxz], where the entries listed can change. *)
Lemma entries_stable h h' v p a :
  heap_ok h -> hrel h h' -> at_path h v p = Some (VRef a) ->
  (exists d, nth_error h a = Some d) ->
  at_path h' v p = Some (VRef a)
  /\ (at_path h v (app p ["β"]) = None ->
      forall k, at_path h' v (app p [k]) = at_path h v (app p [k]))
  /\ (forall k, ~ In k volatile -> at_path h' v (app p [k]) = at_path h v (app p [k]))
  /\ (forall w, at_path h v (app p ["f_oxz"]) = Some w ->
      at_path h' v (app p ["f_oxz"]) = Some w).
Proof.
  intros HO HR E (d & Ed). pose proof (at_path_ref _ _ _ HO HR _ _ E) as E'.
  split; [exact E'|]. destruct (HR a d Ed) as (d' & Ed' & R1 & R2 & R3 & R4).
  split; [|split].
  - rewrite at_path_snoc, E, Ed. intros NB k. rewrite !at_path_snoc, E, E', Ed, Ed'.
    now rewrite R1.
  - intros k N. rewrite !at_path_snoc, E, E', Ed, Ed'. auto.
  - intros w. rewrite !at_path_snoc, E, E', Ed, Ed'. intros W.
    destruct (dget "β" d) eqn:EB; [|now rewrite R1].
    destruct (HO a d Ed) as (rx & ry & xo & yo & r & G); [congruence|].
    pose proof (R4 _ _ _ _ _ G) as G'.
    destruct G as (_ & _ & F & _). destruct G' as (_ & _ & F' & _).
    destruct F as [F|F]; [congruence|]. destruct F' as [F'|F']; [|congruence].
    exfalso. apply (R3 "f_oxz"); congruence.
Qed.

Lemma results_stable roots cs c cs' v p a :
  let s := session roots cs fresh in
  let s1 := snd (run_call roots c s) in
  let s2 := session roots cs' s1 in
  fst (run_call roots c s) = Ok v ->
  at_path (st_heap s1) v p = Some (VRef a) ->
  (exists d, nth_error (st_heap s1) a = Some d) ->
  at_path (st_heap s2) v p = Some (VRef a)
  /\ (at_path (st_heap s1) v (app p ["β"]) = None ->
      forall k, at_path (st_heap s2) v (app p [k]) = at_path (st_heap s1) v (app p [k]))
  /\ (forall k, ~ In k volatile ->
      at_path (st_heap s2) v (app p [k]) = at_path (st_heap s1) v (app p [k]))
  /\ (forall w, at_path (st_heap s1) v (app p ["f_oxz"]) = Some w ->
      at_path (st_heap s2) v (app p ["f_oxz"]) = Some w).
Proof.
  intros s s1 s2 _ E ED. destruct (session_inv roots cs fresh inv_fresh) as [I _].
  destruct (run_call_ran roots c s I) as (I1 & _ & _).
  destruct (session_inv roots cs' s1 I1) as [_ H2].
  apply (entries_stable _ _ v p a (inv_heap _ I1) H2 E ED).
Qed.

(** The capacities and the other intermediate results of [s6_1_1_Nc]. *)
Lemma nc_tree_beta roots g t k E :
  nc_tree roots g = Ok t -> k <> "N_cz Intermediate" -> tget k t = Some (Sub E) ->
  dget "β" E = None.
Proof.
  intros H N.
  assert (forall t', t = t' -> (tget k t' = Some (Sub E) -> dget "β" E = None) ->
            tget k t = Some (Sub E) -> dget "β" E = None) as K by (intros; subst; auto).
  unfold nc_tree in H. cbv zeta in H. destruct (n_buckling g).
  2:{ injection H as <-. cbn [app tget].
      repeat (match goal with |- context [String.eqb ?a k] => destruct (String.eqb a k) end;
        [let X := fresh in intros X; first [discriminate X|injection X as <-; reflexivity]|]).
      discriminate. }
  destruct (s6_3_3_N_c _ _ (s6_3_2_l_e _ (n_k_ex g)) _ _ _ _) as [bx|e]; cbn [bind] in H; [|discriminate H].
  destruct (s6_3_3_N_c _ _ (s6_3_2_l_e _ (n_k_ey g)) _ _ _ _) as [by_|e]; cbn [bind] in H; [|discriminate H].
  destruct (n_torsion g).
  2:{ injection H as <-. cbn [app tget].
      repeat (match goal with |- context [String.eqb ?a k] => destruct (String.eqb a k) end;
        [let X := fresh in intros X; first [discriminate X|injection X as <-; reflexivity]|]).
      discriminate. }
  destruct (ncz_tree _ _ _ _ _ _ _) as [[z Ez]|e]; cbn [bind fst snd] in H; [|discriminate H].
  injection H as <-. cbn [app tget].
  repeat (match goal with |- context [String.eqb ?a k] => destruct (String.eqb_spec a k) end;
    [let X := fresh in intros X; first [discriminate X|congruence|injection X as <-; reflexivity]|]).
  discriminate.
Qed.

Lemma forall2_tget h d t k v :
  Forall2 (entry_ok h) d t -> dget k d = Some v ->
  exists i, tget k t = Some i /\ item_ok h v i.
Proof.
  intros F. induction F as [|[k1 w] [k2 i] d t [E1 E2] F IH]; cbn [dget tget]; [discriminate|].
  cbn [fst snd] in *. subst k2. destruct (String.eqb k1 k); [|exact IH].
  intros X. injection X as <-. eauto.
Qed.

Lemma forall2_none h d t k :
  Forall2 (entry_ok h) d t -> tget k t = None -> dget k d = None.
Proof.
  intros F. induction F as [|[k1 w] [k2 i] d t [E1 E2] F IH]; cbn [dget tget]; [auto|].
  cbn [fst snd] in *. subst k2. destruct (String.eqb k1 k); [discriminate|exact IH].
Qed.

Lemma nc_tree_no_beta roots g t : nc_tree roots g = Ok t -> tget "β" t = None.
Proof.
  unfold nc_tree. cbv zeta. destruct (n_buckling g).
  2:{ intros H. injection H as <-. reflexivity. }
  destruct (s6_3_3_N_c _ _ (s6_3_2_l_e _ (n_k_ex g)) _ _ _ _); cbn [bind]; [|discriminate].
  destruct (s6_3_3_N_c _ _ (s6_3_2_l_e _ (n_k_ey g)) _ _ _ _); cbn [bind]; [|discriminate].
  destruct (n_torsion g).
  2:{ intros H. injection H as <-. reflexivity. }
  destruct (ncz_tree _ _ _ _ _ _ _); cbn [bind]; [|discriminate].
  intros H. injection H as <-. reflexivity.
Qed.

Lemma nc_stable roots cs g cs' v :
  let s := session roots cs fresh in
  let s1 := snd (run_call roots (CallNc g) s) in
  let s2 := session roots cs' s1 in
  fst (run_call roots (CallNc g) s) = Ok v ->
  (forall k, at_path (st_heap s2) v [k] = at_path (st_heap s1) v [k])
  /\ (forall k k', k <> "N_cz Intermediate" ->
        at_path (st_heap s2) v [k; k'] = at_path (st_heap s1) v [k; k'])
  /\ (forall k', ~ In k' volatile ->
        at_path (st_heap s2) v ["N_cz Intermediate"; k']
        = at_path (st_heap s1) v ["N_cz Intermediate"; k']).
Proof.
  intros s s1 s2 EV. destruct (session_inv roots cs fresh inv_fresh) as [I _].
  destruct (run_call_ran roots (CallNc g) s I) as (I1 & _ & _). fold s1 in I1.
  destruct (session_inv roots cs' s1 I1) as [_ H2]. fold s2 in H2.
  pose proof (nc_call roots g s I) as P. fold s1 in P.
  destruct (nc_tree roots g) as [t|e] eqn:ET; [|rewrite P in EV; discriminate EV].
  destruct P as (a & Ea & d & Ed & F). rewrite Ea in EV. injection EV as <-.
  assert (dget "β" d = None) as NB.
  { eapply forall2_none; [exact F|]. eapply nc_tree_no_beta; eauto. }
  pose proof (hrel_plain _ _ _ _ H2 Ed NB) as Ed2.
  split; [|split].
  - intros k. cbn [at_path]. now rewrite Ed, Ed2.
  - intros k k' N. cbn [at_path]. rewrite Ed, Ed2. destruct (dget k d) as [w|] eqn:Ek; auto.
    destruct (forall2_tget _ _ _ _ _ F Ek) as (i & Ei & OK). destruct i as [x|E].
    + cbn in OK. subst w. reflexivity.
    + cbn in OK. destruct OK as (b & e & -> & Eb & C & _).
      assert (dget "β" e = None) as NE.
      { rewrite C by discriminate. eapply nc_tree_beta; eauto. }
      rewrite Eb, (hrel_plain _ _ _ _ H2 Eb NE). reflexivity.
  - intros k' N. cbn [at_path]. rewrite Ed, Ed2.
    destruct (dget "N_cz Intermediate" d) as [w|] eqn:Ek; auto.
    destruct (forall2_tget _ _ _ _ _ F Ek) as (i & Ei & OK). destruct i as [x|E].
    + cbn in OK. subst w. reflexivity.
    + cbn in OK. destruct OK as (b & e & -> & Eb & C & _). rewrite Eb.
      destruct (H2 b e Eb) as (e' & -> & _ & R2 & _). rewrite R2 by exact N.
      destruct (dget k' e); reflexivity.
Qed.

(** Without the cached [f_oxz] the whole result is stable. *)
Lemma nc_stable_unshared roots cs g cs' v sc :
  let s := session roots cs fresh in
  let s1 := snd (run_call roots (CallNc g) s) in
  let s2 := session roots cs' s1 in
  fst (run_call roots (CallNc g) s) = Ok v ->
  symmetry (n_sym g) = Ok sc -> sc = SymPoint \/ sc = SymNone ->
  forall p, at_path (st_heap s2) v p = at_path (st_heap s1) v p.
Proof.
  intros s s1 s2 EV ES SC. destruct (session_inv roots cs fresh inv_fresh) as [I _].
  destruct (run_call_ran roots (CallNc g) s I) as (I1 & _ & _). fold s1 in I1.
  destruct (session_inv roots cs' s1 I1) as [_ H2]. fold s2 in H2.
  pose proof (nc_call roots g s I) as P. fold s1 in P.
  destruct (nc_tree roots g) as [t|e] eqn:ET; [|rewrite P in EV; discriminate EV].
  destruct P as (a & Ea & d & Ed & F). rewrite Ea in EV. injection EV as <-.
  assert (dget "β" d = None) as NB.
  { eapply forall2_none; [exact F|]. eapply nc_tree_no_beta; eauto. }
  pose proof (hrel_plain _ _ _ _ H2 Ed NB) as Ed2.
  assert (forall k E, tget k t = Some (Sub E) -> dget "β" E = None) as NT.
  { intros k E Ek. destruct (string_dec k "N_cz Intermediate") as [->|N];
      [|eapply nc_tree_beta; eauto].
    unfold nc_tree in ET. cbv zeta in ET. destruct (n_buckling g).
    2:{ injection ET as <-. discriminate Ek. }
    destruct (s6_3_3_N_c _ _ (s6_3_2_l_e _ (n_k_ex g)) _ _ _ _); cbn [bind] in ET; [|discriminate ET].
    destruct (s6_3_3_N_c _ _ (s6_3_2_l_e _ (n_k_ey g)) _ _ _ _); cbn [bind] in ET; [|discriminate ET].
    destruct (n_torsion g).
    2:{ injection ET as <-. discriminate Ek. }
    destruct (ncz_tree _ _ _ _ _ _ _) as [[z Ez]|] eqn:EZ; cbn [bind fst snd] in ET;
      [|discriminate ET].
    injection ET as <-. cbn in Ek. injection Ek as <-. rewrite dget_app.
    unfold ncz_tree in EZ.
    destruct (oc_tree _ _ _ _ _ _) as [[f E0]|] eqn:EO; cbn [bind fst snd] in EZ;
      [|discriminate EZ].
    destruct (n_cz_of _ _ _ _) as [z'|]; cbn [bind] in EZ; [|discriminate EZ].
    assert (dget "β" E0 = None) as N0.
    { unfold oc_tree in EO. rewrite ES in EO. cbn [bind] in EO.
      destruct SC as [->| ->].
      - unfold point_tree in EO.
        destruct (f_euler_torsion _ _ _ _ _ _ _ _ _ _); cbn [bind] in EO; [|discriminate EO].
        injection EO as _ <-. reflexivity.
      - unfold unsym_tree, unsym_coeffs in EO.
        destruct (f_euler _ _ (q_r_x _)); cbn [bind] in EO; [|discriminate EO].
        destruct (f_euler _ _ (q_r_y _)); cbn [bind] in EO; [|discriminate EO].
        destruct (f_euler_torsion _ _ _ _ _ _ _ _ _ _); cbn [bind] in EO; [|discriminate EO].
        destruct (fold_left _ _ _) as [[re im]|];
          [destruct (Reqb im 0)|]; cbn [bind] in EO; try discriminate EO.
        injection EO as _ <-. reflexivity. }
    assert (Ez = app E0 [("f_oc", VNum f); ("λ_c", VNum (cz_lambda_c z'));
     ("f_n", VNum (cz_f_n z'))]) as -> by congruence.
    rewrite dget_app, N0. reflexivity. }
  intros p. destruct p as [|k p]; [reflexivity|]. cbn [at_path]. rewrite Ed, Ed2.
  destruct (dget k d) as [w|] eqn:Ek; auto.
  destruct (forall2_tget _ _ _ _ _ F Ek) as (i & Ei & OK). destruct i as [x|E].
  - cbn in OK. subst w. now destruct p.
  - cbn in OK. destruct OK as (b & e & -> & Eb & C & S1 & FL & _).
    assert (dget "β" e = None) as NE by (rewrite C by discriminate; eauto).
    destruct p as [|k' p]; [reflexivity|]. cbn [at_path].
    rewrite Eb, (hrel_plain _ _ _ _ H2 Eb NE). destruct (dget k' e) as [w|] eqn:Ew; auto.
    assert (nonref w = true) as NW.
    { destruct (string_dec k' "Axis of Symmetry") as [->|N].
      - destruct S1 as [S1|(x & S1)]; [congruence|]. rewrite S1 in Ew. injection Ew as <-.
        reflexivity.
      - rewrite C in Ew by exact N. eauto. }
    destruct p; [reflexivity|]. destruct w; try reflexivity. discriminate NW.
Qed.

(** * Sharing: what goes wrong *)

Lemma reals_eqb_refl l : reals_eqb l l = true.
Proof.
  induction l as [|x l IH]; cbn; [reflexivity|]. rewrite IH. unfold Reqb.
  now destruct (Req_EM_T x x).
Qed.
Lemma key_eqb_refl k : key_eqb k k = true.
Proof. unfold key_eqb. now rewrite Nat.eqb_refl, reals_eqb_refl. Qed.
Lemma find_hd {V} k (v : V) c : find k ((k, v) :: c) = Some v.
Proof. cbn. now rewrite key_eqb_refl. Qed.
Lemma without_hd {V} k (v : V) : without k [(k, v)] = [].
Proof. unfold without. cbn [filter fst]. now rewrite key_eqb_refl. Qed.

Definition kr (rx ry xo yo : R) : key := (0%nat, [rx; ry; xo; yo]).
Definition kt (A lz rx ry xo yo J Iw E G : R) : key :=
  (0%nat, [A; lz; rx; ry; xo; yo; J; Iw; E; G]).
Definition kx (A lx lz rx ry xo yo J Iw E G : R) : key :=
  (0%nat, [A; lx; lz; rx; ry; xo; yo; J; Iw; E; G]).
Definition warm h A lx lz rx ry xo yo J Iw E G (r : f_oxz_res) : state :=
  mk_state h [(kr rx ry xo yo, fx_r_ol r)] [(kt A lz rx ry xo yo J Iw E G, fx_f_oz r)]
    [(kx A lx lz rx ry xo yo J Iw E G, 1%nat)].
Definition outer (r : f_oxz_res) : dict :=
  [("Intermediate", VRef 0); ("f_oxz", VNum (fx_f_oxz r))].

Lemma foxz_cold A lx lz rx ry xo yo J Iw E G r :
  f_oxz A lx lz rx ry xo yo J Iw E G = Ok r ->
  m_f_oxz 0 A lx lz rx ry xo yo J Iw E G fresh
  = (Ok 1%nat, warm [fx_base rx ry xo yo r; outer r] A lx lz rx ry xo yo J Iw E G r).
Proof.
  intros H. unfold f_oxz in H.
  destruct (rdiv xo _) as [q|] eqn:E1; cbn [bind] in H; [|discriminate H].
  destruct (f_euler _ _ _) as [fox|] eqn:E2; cbn [bind] in H; [|discriminate H].
  destruct (f_euler_torsion _ _ _ _ _ _ _ _ _ _) as [foz|] eqn:E3; cbn [bind] in H; [|discriminate H].
  destruct (rdiv 1 _) as [hh|] eqn:E4; cbn [bind] in H; [|discriminate H].
  destruct (rroot _) as [rt|] eqn:E5; cbn [bind] in H; [|discriminate H].
  injection H as <-. unfold f_euler_torsion in E3.
  destruct (rdiv (G * J) _) as [ta|] eqn:E6; cbn [bind] in E3; [|discriminate E3].
  destruct (rdiv (PI * PI * E * Iw) _) as [tb|] eqn:E7; cbn [bind] in E3; [|discriminate E3].
  injection E3 as E3.
  unfold m_f_oxz, lru. cbn [fresh st_foxz find]. unfold mbind at 1.
  unfold m_r_ol at 1, lru at 1. cbn [fresh st_rol find ret].
  change (firstn maxsize (A:=key * R)) with (fun l : list (key * R) => firstn maxsize l).
  cbv beta. change (firstn maxsize [((0%nat, [rx; ry; xo; yo]), r_ol rx ry xo yo)])
    with [(kr rx ry xo yo, r_ol rx ry xo yo)].
  unfold set_rol. cbn [st_heap st_fet st_foxz].
  unfold mbind at 1, lift at 1. rewrite E1. unfold mbind at 1, lift at 1. rewrite E2.
  unfold mbind at 1. unfold m_f_euler_torsion, lru at 1. cbn [st_fet find].
  unfold mbind at 1, m_r_ol at 1, lru at 1. cbn [st_rol].
  fold (kr rx ry xo yo). rewrite find_hd, without_hd. unfold set_rol. cbn [st_heap st_fet st_foxz].
  unfold mbind at 1, lift at 1. rewrite E6. unfold mbind at 1, lift at 1. rewrite E7.
  unfold ret. rewrite E3. cbn [st_fet fresh find]. cbv iota beta. unfold mbind at 1, lift at 1. rewrite E4.
  cbn [st_fet fresh find]. unfold mbind at 1, lift at 1. rewrite ?E5. reflexivity.
Qed.

Lemma foxz_warm h A lx lz rx ry xo yo J Iw E G r :
  m_f_oxz 0 A lx lz rx ry xo yo J Iw E G (warm h A lx lz rx ry xo yo J Iw E G r)
  = (Ok 1%nat, warm h A lx lz rx ry xo yo J Iw E G r).
Proof.
  unfold m_f_oxz, lru. cbn [warm st_foxz]. fold (kx A lx lz rx ry xo yo J Iw E G).
  rewrite find_hd, without_hd. reflexivity.
Qed.
Lemma torsion_warm h A lx lz rx ry xo yo J Iw E G r :
  m_f_euler_torsion 0 A lz rx ry xo yo J Iw E G (warm h A lx lz rx ry xo yo J Iw E G r)
  = (Ok (fx_f_oz r), warm h A lx lz rx ry xo yo J Iw E G r).
Proof.
  unfold m_f_euler_torsion, lru. cbn [warm st_fet]. fold (kt A lz rx ry xo yo J Iw E G).
  rewrite find_hd, without_hd. reflexivity.
Qed.

(** A torsional check of a doubly symmetric section when the cache holds (or is about to
    hold) the dictionary at address 0: that dictionary receives the new entries. *)
Lemma double_run roots q lx ly lz sym u s d h r z :
  let w h := warm h (q_A_n q) lx lz (q_r_x q) (q_r_y q) (q_x_o q) (q_y_o q) (q_J q) (q_I_w q)
               (q_E q) (q_G q) r in
  m_f_oxz 0 (q_A_n q) lx lz (q_r_x q) (q_r_y q) (q_x_o q) (q_y_o q) (q_J q) (q_I_w q)
    (q_E q) (q_G q) s = (Ok 1%nat, w (d :: outer r :: h)) ->
  symmetry sym = Ok SymDouble ->
  n_cz_of (s6_2_A_e (q_A_n q) (q_k_f q)) (q_f_y q) (pymin (fx_f_oxz r) (fx_f_oz r)) u = Ok z ->
  exists d' h',
    m_s6_3_3_N_c_torsion roots q lx ly lz sym u s
    = (Ok (3 + List.length h)%nat, w (d' :: outer r :: h'))
    /\ (dget "λ_c" d' = Some (VNum (cz_lambda_c z))
        /\ dget "Axis of Symmetry" d' = dget "Axis of Symmetry" d)
    /\ nth_error (d' :: outer r :: h') (3 + List.length h)
       = Some [("N_cz", VNum (cz_N_cz z)); ("Intermediate", VRef 0)].
Proof.
  intros w HF HS HZ.
  set (f := pymin (fx_f_oxz r) (fx_f_oz r)) in *.
  set (d1 := dupdate (dupdate (dupdate (dupdate d [("f_oxz", VNum (fx_f_oxz r))])
       [("f_oz", VNum (fx_f_oz r))]) [("AS4600 Clause", VStr "AS4600 S3.4.3")])
       [("Symmetry", VStr "Double")]).
  set (R1 := [("f_oc", VNum f); ("Intermediate", VRef 0)]).
  set (kvs := [("f_oc", VNum f); ("λ_c", VNum (cz_lambda_c z)); ("f_n", VNum (cz_f_n z))]).
  set (R2 := [("N_cz", VNum (cz_N_cz z)); ("Intermediate", VRef 0)]).
  exists (dupdate d1 kvs), (app (app h [R1]) [R2]).
  assert (m_f_oc roots q lx ly lz sym s
          = (Ok (2 + List.length h)%nat, w (d1 :: outer r :: app h [R1]))) as H1.
  { unfold m_f_oc, m_f_oc_double_symmetric. unfold mbind, lift. rewrite HS, HF.
    cbv iota beta. unfold w. rewrite torsion_warm. reflexivity. }
  split; [|split].
  - unfold m_s6_3_3_N_c_torsion. cbv zeta. unfold mbind at 1. rewrite H1. cbv iota beta.
    assert (forall X, read (2 + List.length h) (w (X :: outer r :: app h [R1]))
              = (Ok R1, w (X :: outer r :: app h [R1]))) as RD.
    { intros X. unfold read. cbn [w warm st_heap Nat.add nth_error]. now rewrite nth_alloc. }
    unfold get_num, get_ref, mbind, lift. rewrite RD.
    change (dget "f_oc" R1) with (Some (VNum f)). cbv iota beta. unfold ret.
    rewrite HZ, RD. change (dget "Intermediate" R1) with (Some (VRef 0)). cbv iota beta.
    change (update 0 [("f_oc", VNum f); ("λ_c", VNum (cz_lambda_c z)); ("f_n", VNum (cz_f_n z))]
      (w (d1 :: outer r :: app h [R1])))
      with ((Ok tt : res unit, w (dupdate d1 kvs :: outer r :: app h [R1]))).
    cbv iota beta. unfold alloc. unfold w. cbn [warm st_heap set_heap st_rol st_fet st_foxz app].
    cbn [List.length]. rewrite app_length. cbn [List.length].
    replace (S (S (List.length h + 1))) with (3 + List.length h)%nat by lia. reflexivity.
  - unfold kvs, d1. cbn [dupdate fold_left fst snd]. rewrite !dget_dset. split; reflexivity.
  - change (nth_error (app (app h [R1]) [R2]) (S (List.length h)) = Some R2).
    rewrite nth_error_app2 by (rewrite app_length; cbn; lia).
    rewrite app_length. cbn [List.length].
    replace (S (List.length h) - (List.length h + 1))%nat with 0%nat by lia. reflexivity.
Qed.

Definition with_f_y (q : sect6) (f_y : R) : sect6 :=
  mk_sect6 (q_A_n q) (q_k_f q) (q_r_x q) (q_r_y q) (q_x_o q) (q_y_o q) (q_J q) (q_I_w q) f_y
    (q_E q) (q_G q).

(** Checking the same doubly symmetric member with another yield stress rewrites the slenderness
    in the result already handed out. *)
Lemma handed_out_changes roots q lx ly lz sym u fy' z z' :
  symmetry sym = Ok SymDouble ->
  s6_3_3_N_c_torsion roots q lx ly lz sym u = Ok z ->
  s6_3_3_N_c_torsion roots (with_f_y q fy') lx ly lz sym u = Ok z' ->
  let r1 := run_call roots (CallNcz q lx ly lz sym u) fresh in
  let s2 := session roots [CallNcz (with_f_y q fy') lx ly lz sym u] (snd r1) in
  exists v, fst r1 = Ok v
  /\ at_path (st_heap (snd r1)) v ["Intermediate"; "λ_c"] = Some (VNum (cz_lambda_c z))
  /\ at_path (st_heap s2) v ["Intermediate"; "λ_c"] = Some (VNum (cz_lambda_c z')).
Proof.
  intros HS H1 H2 r1 s2.
  assert (exists r, f_oxz (q_A_n q) lx lz (q_r_x q) (q_r_y q) (q_x_o q) (q_y_o q) (q_J q)
       (q_I_w q) (q_E q) (q_G q) = Ok r
     /\ n_cz_of (s6_2_A_e (q_A_n q) (q_k_f q)) (q_f_y q) (pymin (fx_f_oxz r) (fx_f_oz r)) u = Ok z
     /\ n_cz_of (s6_2_A_e (q_A_n q) (q_k_f q)) fy' (pymin (fx_f_oxz r) (fx_f_oz r)) u = Ok z')
    as (r & HF & Z1 & Z2).
  { unfold s6_3_3_N_c_torsion, f_oc in H1, H2. rewrite HS in H1, H2. cbn [bind] in H1, H2.
    unfold f_oc_double_symmetric in H1, H2. cbn [with_f_y q_A_n q_k_f q_r_x q_r_y q_x_o q_y_o q_J
      q_I_w q_f_y q_E q_G] in H2.
    destruct (f_oxz (q_A_n q) lx lz (q_r_x q) (q_r_y q) (q_x_o q) (q_y_o q) (q_J q)
       (q_I_w q) (q_E q) (q_G q)) as [r|] eqn:EF; cbn [bind] in H1, H2; [|discriminate H1].
    exists r. split; [reflexivity|].
    assert (f_euler_torsion (q_A_n q) lz (q_r_x q) (q_r_y q) (q_x_o q) (q_y_o q) (q_J q)
       (q_I_w q) (q_E q) (q_G q) = Ok (fx_f_oz r)) as ET.
    { unfold f_oxz in EF. destruct (rdiv (q_x_o q) _) as [k|]; cbn [bind] in EF; [|discriminate EF].
      destruct (f_euler _ _ _) as [fox|]; cbn [bind] in EF; [|discriminate EF].
      destruct (f_euler_torsion _ _ _ _ _ _ _ _ _ _) as [foz|]; cbn [bind] in EF; [|discriminate EF].
      destruct (rdiv 1 _) as [q'|]; cbn [bind] in EF; [|discriminate EF].
      destruct (rroot _) as [q''|]; cbn [bind] in EF; [|discriminate EF].
      injection EF as <-. reflexivity. }
    rewrite ET in H1, H2. cbn [bind] in H1, H2. auto. }
  pose proof (foxz_cold _ _ _ _ _ _ _ _ _ _ _ _ HF) as COLD.
  destruct (double_run roots q lx ly lz sym u fresh _ _ r z COLD HS Z1)
    as (d1 & h1 & RUN1 & [L1 _] & N1).
  cbn [List.length Nat.add] in RUN1, N1.
  destruct (double_run roots (with_f_y q fy') lx ly lz sym u _ d1 h1 r z'
    (foxz_warm _ _ _ _ _ _ _ _ _ _ _ _ _) HS Z2) as (d2 & h2 & RUN2 & [L2 _] & N2).
  change (m_s6_3_3_N_c_torsion roots (with_f_y q fy') lx ly lz sym u
     (warm (d1 :: outer r :: h1) (q_A_n q) lx lz (q_r_x q) (q_r_y q) (q_x_o q) (q_y_o q) (q_J q)
        (q_I_w q) (q_E q) (q_G q) r)
     = (Ok (3 + List.length h1)%nat,
        warm (d2 :: outer r :: h2) (q_A_n q) lx lz (q_r_x q) (q_r_y q) (q_x_o q) (q_y_o q) (q_J q)
        (q_I_w q) (q_E q) (q_G q) r)) in RUN2.
  subst r1 s2. cbn [session fold_left run_call]. rewrite as_ref_fst, !as_ref_snd, RUN1.
  cbn [fst snd rmap]. rewrite RUN2. exists (VRef 3). split; [reflexivity|].
  assert (forall dd hh, nth_error (dd :: outer r :: hh) 3
            = Some [("N_cz", VNum (cz_N_cz z)); ("Intermediate", VRef 0)] ->
          at_path (dd :: outer r :: hh) (VRef 3) ["Intermediate"; "λ_c"] = dget "λ_c" dd) as AT.
  { intros dd hh NN. cbn [at_path]. rewrite NN. cbn. now destruct (dget "λ_c" dd). }
  split.
  - cbn [snd warm st_heap]. rewrite AT; auto.
  - cbn [snd warm st_heap]. rewrite AT; auto.
    (* the first result itself is unchanged *)
    assert (inv (snd (m_s6_3_3_N_c_torsion roots q lx ly lz sym u fresh))) as I1
      by (apply m_ncz_ran; apply inv_fresh).
    pose proof (m_ncz_ran roots (with_f_y q fy') lx ly lz sym u _ I1) as (_ & HR & _).
    rewrite RUN1 in HR. cbn [snd] in HR. rewrite RUN2 in HR. cbn [snd warm st_heap] in HR.
    exact (hrel_plain _ _ _ _ HR N1 eq_refl).
Qed.

(** Editing a result of [f_oxz] changes what later calls compute. *)
Lemma edit_corrupts roots A lx ly lz rx ry xo yo J Iw E G r x :
  f_oxz A lx lz rx ry xo yo J Iw E G = Ok r ->
  let r1 := run_call roots (CallFoxz 0 A lx lz rx ry xo yo J Iw E G) fresh in
  exists v, fst r1 = Ok v
  /\ let s2 := edit v [] "f_oxz" (VNum x) (snd r1) in
     let r3 := run_call roots (CallSingle A lx ly lz rx ry xo yo J Iw E G (Some [AxStr "x"])) s2 in
     exists w, fst r3 = Ok w /\ at_path (st_heap (snd r3)) w ["f_oc"] = Some (VNum x).
Proof.
  intros HF r1. subst r1. cbn [run_call]. rewrite as_ref_fst, as_ref_snd.
  rewrite (foxz_cold _ _ _ _ _ _ _ _ _ _ _ _ HF). exists (VRef 1). split; [reflexivity|].
  cbn [snd]. cbv zeta. rewrite as_ref_fst, as_ref_snd.
  change (edit (VRef 1) [] "f_oxz" (VNum x)
    (warm [fx_base rx ry xo yo r; outer r] A lx lz rx ry xo yo J Iw E G r))
    with (warm [fx_base rx ry xo yo r; [("Intermediate", VRef 0); ("f_oxz", VNum x)]]
            A lx lz rx ry xo yo J Iw E G r).
  unfold m_f_oc_single_symmetric, mbind, lift. cbn [symcount].
  change (axis_is "x" (AxStr "x")) with true. cbv zeta iota beta. rewrite foxz_warm.
  exists (VRef 2). split; reflexivity.
Qed.

(** Editing any other dictionary is harmless: histories of calls and such edits. *)
Inductive event : Type :=
| ECall (c : call)
| EEdit (v : val) (p : list string) (k : string) (w : val).
Definition step (roots : roots_oracle) (s : state) (e : event) : state :=
  match e with
  | ECall c => snd (run_call roots c s)
  | EEdit v p k w => edit v p k w s
  end.
(** [v[p]] was not made by [f_oxz] (nor made to look so). *)
Definition harmless (s : state) (e : event) : Prop :=
  match e with
  | ECall _ => True
  | EEdit v p k w => at_path (st_heap s) v (app p ["β"]) = None
      /\ at_path (st_heap s) v (app p ["f_oxz"]) = None /\ k <> "β"
  end.
Fixpoint harmless_all (roots : roots_oracle) (s : state) (es : list event) : Prop :=
  match es with
  | [] => True
  | e :: es => harmless s e /\ harmless_all roots (step roots s e) es
  end.

Lemma inv_edit v p k w s : inv s -> harmless s (EEdit v p k w) -> inv (edit v p k w s).
Proof.
  intros I (NB & NF & NK). unfold edit. rewrite !at_path_snoc in NB, NF.
  destruct (at_path (st_heap s) v p) as [u|]; auto. destruct u as [| | | |a]; auto.
  destruct (nth_error (st_heap s) a) as [d|] eqn:Ed; auto.
  destruct I as [I1 I2 I3 I4]. constructor; cbn; auto.
  - intros k' b Hin. destruct (I3 k' b Hin) as
      (o & A & lx & lz & rx & ry & xo & yo & J & Iw & Em & G & r & E1 & E2 & P).
    exists o, A, lx, lz, rx, ry, xo, yo, J, Iw, Em, G, r. repeat split; auto.
    eapply pair_ok_other; eauto.
  - apply heap_ok_replace; auto. intros C. elim C. rewrite dget_dset.
    destruct (String.eqb_spec k "β"); [contradiction|exact NB].
Qed.

Lemma harmless_inv roots es : forall s,
  inv s -> harmless_all roots s es -> inv (fold_left (step roots) es s).
Proof.
  induction es as [|e es IH]; intros s I H; [exact I|]. destruct H as [H1 H2].
  cbn [fold_left]. apply IH; [|exact H2]. destruct e as [c|v p k w]; cbn [step].
  - apply run_call_ran, I.
  - now apply inv_edit.
Qed.

Lemma nc_transparent_edits roots es g :
  harmless_all roots fresh es ->
  same_numbers (run_call roots (CallNc g) (fold_left (step roots) es fresh))
               (run_call roots (CallNc g) fresh).
Proof.
  intros H. pose proof (harmless_inv roots es fresh inv_fresh H) as I.
  pose proof (nc_call roots g _ I) as P. pose proof (nc_call roots g _ inv_fresh) as P'.
  unfold same_numbers. destruct (nc_tree roots g) as [t|e].
  - destruct P as (a & -> & S). destruct P' as (a' & -> & S').
    intros p. now rewrite (shows_num _ _ _ _ S), (shows_num _ _ _ _ S').
  - now rewrite P, P'.
Qed.

(** [s6_3_3_N_c_torsion] after any session. *)
Lemma ncz_call roots q lx ly lz sym u s :
  inv s ->
  let r := run_call roots (CallNcz q lx ly lz sym u) s in
  match ncz_tree roots q lx ly lz sym u with
  | Ok (z, E) => exists a b d, fst r = Ok (VRef a)
      /\ nth_error (st_heap (snd r)) a
         = Some [("N_cz", VNum (cz_N_cz z)); ("Intermediate", VRef b)]
      /\ nth_error (st_heap (snd r)) b = Some d /\ ncz_content E d
  | Err e => fst r = Err e
  end.
Proof.
  intros I r. subst r. destruct (m_ncz_ran roots q lx ly lz sym u s I) as (_ & _ & P).
  cbn [run_call]. rewrite as_ref_fst, as_ref_snd. unfold ncz_post in P.
  destruct (ncz_tree roots q lx ly lz sym u) as [[z E]|e].
  - destruct P as (a & b & d & -> & P1 & P2 & P3 & _). exists a, b, d. auto.
  - now rewrite P.
Qed.

Lemma ncz_transparent roots cs q lx ly lz sym u :
  let x := run_call roots (CallNcz q lx ly lz sym u) (session roots cs fresh) in
  let y := run_call roots (CallNcz q lx ly lz sym u) fresh in
  match fst x, fst y with
  | Ok v, Ok w =>
      (forall k, k <> "Intermediate" ->
         at_path (st_heap (snd x)) v [k] = at_path (st_heap (snd y)) w [k])
      /\ (forall k, k <> "N_cz_buckling" -> k <> "Axis of Symmetry" ->
         at_path (st_heap (snd x)) v ["Intermediate"; k]
         = at_path (st_heap (snd y)) w ["Intermediate"; k])
  | Err e, Err e' => e = e'
  | _, _ => False
  end.
Proof.
  intros x y. destruct (session_inv roots cs fresh inv_fresh) as [I _].
  pose proof (ncz_call roots q lx ly lz sym u _ I) as P.
  pose proof (ncz_call roots q lx ly lz sym u _ inv_fresh) as P'.
  cbv zeta in P, P'. fold x in P. fold y in P'. clearbody x y.
  destruct (ncz_tree roots q lx ly lz sym u) as [[z E]|e].
  - destruct P as (a & b & d & E1 & E2 & E3 & C & _).
    destruct P' as (a' & b' & d' & E1' & E2' & E3' & C' & _).
    rewrite E1, E1'. split.
    + intros k N. cbn [at_path]. rewrite E2, E2'. cbn [dget].
      destruct (String.eqb "N_cz" k); [reflexivity|].
      destruct (String.eqb_spec "Intermediate" k); [congruence|reflexivity].
    + intros k N1 N2. cbn [at_path]. rewrite E2, E2'. cbn. rewrite E3, E3'.
      rewrite C, C' by auto. reflexivity.
  - now rewrite P, P'.
Qed.

(** A singly symmetric check leaves its axis in the result of a later doubly symmetric one. *)
Lemma stale_axis roots q lx ly lz u z :
  s6_3_3_N_c_torsion roots q lx ly lz (Some [AxStr "x"; AxStr "y"]) u = Ok z ->
  let c := CallNcz q lx ly lz (Some [AxStr "x"; AxStr "y"]) u in
  let c0 := CallSingle (q_A_n q) lx ly lz (q_r_x q) (q_r_y q) (q_x_o q) (q_y_o q) (q_J q)
              (q_I_w q) (q_E q) (q_G q) (Some [AxStr "x"]) in
  exists v w, fst (run_call roots c fresh) = Ok v
  /\ at_path (st_heap (snd (run_call roots c fresh))) v ["Intermediate"; "Axis of Symmetry"] = None
  /\ fst (run_call roots c (session roots [c0] fresh)) = Ok w
  /\ at_path (st_heap (snd (run_call roots c (session roots [c0] fresh)))) w
       ["Intermediate"; "Axis of Symmetry"] = Some (VStr "x").
Proof.
  intros H c c0.
  assert (symmetry (Some [AxStr "x"; AxStr "y"]) = Ok SymDouble) as HS by reflexivity.
  assert (exists r, f_oxz (q_A_n q) lx lz (q_r_x q) (q_r_y q) (q_x_o q) (q_y_o q) (q_J q)
       (q_I_w q) (q_E q) (q_G q) = Ok r
     /\ n_cz_of (s6_2_A_e (q_A_n q) (q_k_f q)) (q_f_y q) (pymin (fx_f_oxz r) (fx_f_oz r)) u = Ok z)
    as (r & HF & Z).
  { unfold s6_3_3_N_c_torsion, f_oc in H. rewrite HS in H. cbn [bind] in H.
    unfold f_oc_double_symmetric in H.
    destruct (f_oxz (q_A_n q) lx lz (q_r_x q) (q_r_y q) (q_x_o q) (q_y_o q) (q_J q)
       (q_I_w q) (q_E q) (q_G q)) as [r|] eqn:EF; cbn [bind] in H; [|discriminate H].
    exists r. split; [reflexivity|].
    assert (f_euler_torsion (q_A_n q) lz (q_r_x q) (q_r_y q) (q_x_o q) (q_y_o q) (q_J q)
       (q_I_w q) (q_E q) (q_G q) = Ok (fx_f_oz r)) as ET.
    { unfold f_oxz in EF. destruct (rdiv (q_x_o q) _) as [k|]; cbn [bind] in EF; [|discriminate EF].
      destruct (f_euler _ _ _) as [fox|]; cbn [bind] in EF; [|discriminate EF].
      destruct (f_euler_torsion _ _ _ _ _ _ _ _ _ _) as [foz|]; cbn [bind] in EF; [|discriminate EF].
      destruct (rdiv 1 _) as [q'|]; cbn [bind] in EF; [|discriminate EF].
      destruct (rroot _) as [q''|]; cbn [bind] in EF; [|discriminate EF].
      injection EF as <-. reflexivity. }
    rewrite ET in H. cbn [bind] in H. exact H. }
  pose proof (foxz_cold _ _ _ _ _ _ _ _ _ _ _ _ HF) as COLD.
  destruct (double_run roots q lx ly lz _ u fresh _ _ r z COLD HS Z)
    as (d1 & h1 & RUN1 & [_ A1] & N1).
  set (w := fun h => warm h (q_A_n q) lx lz (q_r_x q) (q_r_y q) (q_x_o q) (q_y_o q) (q_J q) (q_I_w q)
               (q_E q) (q_G q) r).
  set (d0 := dupdate (dupdate (dupdate (dupdate (fx_base (q_r_x q) (q_r_y q) (q_x_o q) (q_y_o q) r)
        [("Axis of Symmetry", VStr "x")]) [("f_oxz", VNum (fx_f_oxz r))])
        [("Symmetry", VStr "Single")]) [("AS4600 Clause", VStr "AS4600 S3.4.3")]).
  assert (session roots [c0] fresh
          = w [d0; outer r; [("f_oc", VNum (fx_f_oxz r)); ("Intermediate", VRef 0)]]) as S0.
  { cbn [session fold_left run_call c0]. rewrite as_ref_snd.
    unfold m_f_oc_single_symmetric, mbind, lift. cbn [symcount].
    change (axis_is "x" (AxStr "x")) with true. cbv zeta iota beta. rewrite COLD. reflexivity. }
  destruct (double_run roots q lx ly lz _ u _ d0 [[("f_oc", VNum (fx_f_oxz r)); ("Intermediate", VRef 0)]]
     r z (foxz_warm _ _ _ _ _ _ _ _ _ _ _ _ _) HS Z) as (d2 & h2 & RUN2 & [_ A2] & N2).
  rewrite S0. cbn [run_call c]. rewrite !as_ref_fst, !as_ref_snd, RUN1. fold w in RUN2.
  unfold w. rewrite RUN2. cbn [List.length Nat.add] in *.
  exists (VRef 3), (VRef 4). cbn [fst snd rmap].
  assert (forall n dd hh, nth_error (dd :: outer r :: hh) n
            = Some [("N_cz", VNum (cz_N_cz z)); ("Intermediate", VRef 0)] ->
          at_path (dd :: outer r :: hh) (VRef n) ["Intermediate"; "Axis of Symmetry"]
          = dget "Axis of Symmetry" dd) as AT.
  { intros n dd hh NN. cbn [at_path]. rewrite NN. cbn. now destruct (dget "Axis of Symmetry" dd). }
  split; [reflexivity|]. split; [|split; [reflexivity|]].
  - cbn [warm st_heap]. rewrite AT; auto.
  - cbn [warm st_heap]. rewrite AT; auto.
Qed.
