(** Rely-guarantee reasoning about the threaded S6 model: what one thread can count on while
    others run, and what it owes them. *)

From Coq Require Import ZArith Reals List Bool String Lia Lra.
From Verif Require Import Base Num RNum PyReal Symmetry S6 S6Cache S6CacheFacts S6Threads.
Import ListNotations.
Open Scope R_scope.
Open Scope string_scope.

(** * Alone, the steps make up the call *)

Lemma solo_bind {A B} (p : prog A) (f : A -> prog B) : forall s,
  solo (pbind p f) s = mbind (solo p) (fun a => solo (f a)) s.
Proof.
  induction p as [[a|e]|g k IH]; intros s; try reflexivity.
  cbn [pbind solo]. rewrite IH. reflexivity.
Qed.

Definition same {A} (p : prog A) (m : M A) : Prop := forall s, solo p s = m s.

Lemma same_bind {A B} (p : prog A) (f : A -> prog B) m m' :
  same p m -> (forall a, same (f a) (m' a)) -> same (pbind p f) (mbind m m').
Proof.
  intros H K s. rewrite solo_bind. unfold mbind. rewrite H.
  destruct (m s) as [[a|e] s']; auto. apply K.
Qed.
Lemma same_atom {A} (m : M A) : same (atom m) m.
Proof. intros s. cbn. now destruct (m s). Qed.
Lemma same_lift {A} (r : res A) : same (plift r) (lift r).
Proof. intros s. reflexivity. Qed.
Lemma same_ret {A} (a : A) : same (plift (Ok a)) (ret a).
Proof. intros s. reflexivity. Qed.

Lemma same_lru {V} (sel : state -> list (key * V)) put k body m :
  same body m ->
  (forall s, find k (sel s) = None -> find k (sel (snd (m s))) = None) ->
  same (p_lru sel put k body) (lru sel put k m).
Proof.
  intros H N s. unfold p_lru, lru. cbn [solo].
  destruct (find k (sel s)) as [v|] eqn:F; [reflexivity|].
  rewrite solo_bind. unfold mbind. rewrite H. specialize (N s F).
  destruct (m s) as [[v|e] s']; [|reflexivity]. cbn [snd] in N.
  cbn [solo atom]. unfold store. rewrite N. reflexivity.
Qed.

Lemma rol_sel o a b c d s : st_fet (snd (m_r_ol o a b c d s)) = st_fet s
  /\ st_foxz (snd (m_r_ol o a b c d s)) = st_foxz s.
Proof. unfold m_r_ol, lru. destruct (find _ (st_rol s)); cbn; auto. Qed.

Lemma same_r_ol o a b c d : same (p_r_ol o a b c d) (m_r_ol o a b c d).
Proof. apply same_lru; [apply same_ret|]. intros s F. exact F. Qed.

Lemma same_fet o A lz rx ry xo yo J Iw E G :
  same (p_f_euler_torsion o A lz rx ry xo yo J Iw E G)
       (m_f_euler_torsion o A lz rx ry xo yo J Iw E G).
Proof.
  apply same_lru.
  - apply same_bind; [apply same_r_ol|]. intros r. apply same_bind; [apply same_lift|].
    intros x. apply same_bind; [apply same_lift|]. intros y. apply same_ret.
  - intros s F. unfold mbind at 1. pose proof (rol_sel 0 rx ry xo yo s) as [E1 _].
    destruct (m_r_ol 0 rx ry xo yo s) as [[r|e] s']; cbn [snd] in *; [|now rewrite E1].
    unfold mbind, lift, ret. destruct (rdiv (G * J) _); cbn [snd]; [|now rewrite E1].
    destruct (rdiv (PI * PI * E * Iw) _); cbn [snd]; now rewrite E1.
Qed.

Lemma fet_sel o A lz rx ry xo yo J Iw E G s :
  st_foxz (snd (m_f_euler_torsion o A lz rx ry xo yo J Iw E G s)) = st_foxz s.
Proof.
  unfold m_f_euler_torsion, lru. destruct (find _ (st_fet s)); [reflexivity|].
  unfold mbind at 1. pose proof (rol_sel 0 rx ry xo yo s) as [_ E1].
  destruct (m_r_ol 0 rx ry xo yo s) as [[r|e] s']; cbn [snd] in *; [|exact E1].
  unfold mbind, lift, ret. destruct (rdiv (G * J) _); cbn [snd]; [|exact E1].
  destruct (rdiv (PI * PI * E * Iw) _); cbn [snd]; exact E1.
Qed.

Ltac same1 := first [apply same_atom | apply same_lift | apply same_ret | apply same_r_ol
  | apply same_fet].
Ltac sames := repeat (cbv zeta; first [same1 | apply same_bind; [try same1|intros ?]]).

Lemma same_foxz o A lx lz rx ry xo yo J Iw E G :
  same (p_f_oxz o A lx lz rx ry xo yo J Iw E G) (m_f_oxz o A lx lz rx ry xo yo J Iw E G).
Proof.
  apply same_lru; [sames|].
  intros s F. unfold mbind at 1. pose proof (rol_sel 0 rx ry xo yo s) as [_ E1].
  destruct (m_r_ol 0 rx ry xo yo s) as [[r|e] s']; cbn [snd] in *; [|now rewrite E1].
  unfold mbind at 1, lift at 1. destruct (rdiv xo _); cbn [snd]; [|now rewrite E1].
  unfold mbind at 1, lift at 1. destruct (f_euler _ _ _); cbn [snd]; [|now rewrite E1].
  unfold mbind at 1. pose proof (fet_sel 0 A lz rx ry xo yo J Iw E G s') as E2.
  destruct (m_f_euler_torsion 0 A lz rx ry xo yo J Iw E G s') as [[z|e] s2];
    cbn [snd] in *; [|now rewrite E2, E1].
  unfold mbind at 1, lift at 1. destruct (rdiv 1 _); cbn [snd]; [|now rewrite E2, E1].
  unfold mbind at 1, lift at 1. destruct (rroot _); cbn [snd]; [|now rewrite E2, E1].
  cbn. now rewrite E2, E1.
Qed.

Lemma same_alpha a b : same (p_s6_3_3_alpha_c a b) (m_s6_3_3_alpha_c a b).
Proof. unfold p_s6_3_3_alpha_c, m_s6_3_3_alpha_c. sames. Qed.
Lemma same_flex A k l r fy fr ab :
  same (p_s6_3_3_N_c A k l r fy fr ab) (m_s6_3_3_N_c A k l r fy fr ab).
Proof.
  unfold p_s6_3_3_N_c, m_s6_3_3_N_c. cbv zeta. apply same_bind; [same1|]. intros ln.
  apply same_bind; [apply same_alpha|]. intros ac. sames.
Qed.
Lemma same_double A lx lz rx ry xo yo J Iw E G sym :
  same (p_f_oc_double_symmetric A lx lz rx ry xo yo J Iw E G sym)
       (m_f_oc_double_symmetric A lx lz rx ry xo yo J Iw E G sym).
Proof.
  unfold p_f_oc_double_symmetric, m_f_oc_double_symmetric.
  apply same_bind; [apply same_foxz|]. intros ?. sames.
Qed.
Lemma same_single A lx ly lz rx ry xo yo J Iw E G sym :
  same (p_f_oc_single_symmetric A lx ly lz rx ry xo yo J Iw E G sym)
       (m_f_oc_single_symmetric A lx ly lz rx ry xo yo J Iw E G sym).
Proof.
  unfold p_f_oc_single_symmetric, m_f_oc_single_symmetric.
  apply same_bind; [same1|]. intros _. destruct sym as [[|ax [|]]|]; try same1. cbv zeta.
  apply same_bind; [destruct (axis_is "x" ax); apply same_foxz|]. intros ?. sames.
Qed.
Lemma same_point A lz rx ry xo yo J Iw E G :
  same (p_f_oc_point_symmetric A lz rx ry xo yo J Iw E G)
       (m_f_oc_point_symmetric A lz rx ry xo yo J Iw E G).
Proof. unfold p_f_oc_point_symmetric, m_f_oc_point_symmetric. sames. Qed.
Lemma same_unsym roots A lx ly lz rx ry xo yo J Iw E G :
  same (p_f_oc_unsymmetric roots A lx ly lz rx ry xo yo J Iw E G)
       (m_f_oc_unsymmetric roots A lx ly lz rx ry xo yo J Iw E G).
Proof.
  unfold p_f_oc_unsymmetric, m_f_oc_unsymmetric.
  do 4 (apply same_bind; [same1|]; intros ?).
  destruct (unsym_coeffs _ _ _ _ _ _) as [[[ka kb] kc] kd]. sames.
Qed.
Lemma same_foc roots q lx ly lz sym :
  same (p_f_oc roots q lx ly lz sym) (m_f_oc roots q lx ly lz sym).
Proof.
  unfold p_f_oc, m_f_oc. apply same_bind; [same1|]. intros [].
  - apply same_unsym.
  - apply same_double.
  - apply same_point.
  - apply same_single.
Qed.
Lemma same_ncz roots q lx ly lz sym u :
  same (p_s6_3_3_N_c_torsion roots q lx ly lz sym u)
       (m_s6_3_3_N_c_torsion roots q lx ly lz sym u).
Proof.
  unfold p_s6_3_3_N_c_torsion, m_s6_3_3_N_c_torsion. cbv zeta.
  apply same_bind; [apply same_foc|]. intros ?. sames.
Qed.
Lemma same_nc roots g : same (p_s6_1_1_Nc roots g) (m_s6_1_1_Nc roots g).
Proof.
  unfold p_s6_1_1_Nc, m_s6_1_1_Nc. cbv zeta. apply same_bind; [same1|]. intros ib.
  destruct (n_buckling g); [|same1]. do 2 (apply same_bind; [apply same_flex|]; intros ?).
  do 5 (apply same_bind; [same1|]; intros ?). destruct (n_torsion g); [|same1].
  apply same_bind; [apply same_ncz|]. intros ?. sames.
Qed.

Theorem same_call roots c : same (p_call roots c) (run_call roots c).
Proof.
  destruct c; unfold p_call, run_call, p_num, p_ref, as_num, as_ref;
    (apply same_bind; [|intros ?; same1]).
  - apply same_r_ol.
  - apply same_fet.
  - apply same_alpha.
  - apply same_flex.
  - apply same_foxz.
  - apply same_double.
  - apply same_single.
  - apply same_point.
  - apply same_unsym.
  - apply same_ncz.
  - apply same_nc.
Qed.

(** * Ownership *)

(** The thread that may write to a dictionary no other thread can reach; [None]: shared. *)
Definition own : Type := nat -> option nat.
Definition rely (t : nat) (w : own) (h : heap) (w' : own) (h' : heap) : Prop :=
  forall a d, nth_error h a = Some d ->
  exists d', nth_error h' a = Some d'
   /\ (w a = Some t -> w' a = Some t /\ d' = d)
   /\ (w a = None -> w' a = None /\ rel d d').
Definition guar (t : nat) (w : own) (h : heap) (w' : own) (h' : heap) : Prop :=
  forall a d, nth_error h a = Some d ->
  exists d', nth_error h' a = Some d'
   /\ (forall u, u <> t -> w a = Some u -> w' a = Some u /\ d' = d)
   /\ (w a = None -> w' a = None /\ rel d d').
Definition grow (w : own) (h : heap) (w' : own) (h' : heap) : Prop :=
  forall a d, nth_error h a = Some d -> w a = None ->
  exists d', nth_error h' a = Some d' /\ w' a = None /\ rel d d'.

Record ginv (w : own) (s : state) : Prop := mk_ginv {
  g_inv : inv s;
  g_own : forall a d, nth_error (st_heap s) a = Some d -> w a <> None ->
    dget "β" d = None /\ dget "f_oxz" d = None }.

Lemma rely_refl t w h : rely t w h w h.
Proof. intros a d E. exists d. auto using rel_refl. Qed.
Lemma rely_trans t w1 h1 w2 h2 w3 h3 :
  rely t w1 h1 w2 h2 -> rely t w2 h2 w3 h3 -> rely t w1 h1 w3 h3.
Proof.
  intros A B a d E. destruct (A a d E) as (d2 & E2 & M2 & N2).
  destruct (B a d2 E2) as (d3 & E3 & M3 & N3). exists d3. split; [exact E3|]. split.
  - intros O. destruct (M2 O) as [O2 ->]. auto.
  - intros O. destruct (N2 O) as [O2 R2]. destruct (N3 O2) as [O3 R3]. eauto using rel_trans.
Qed.
Lemma guar_rely t u w h w' h' : guar t w h w' h' -> u <> t -> rely u w h w' h'.
Proof.
  intros A N a d E. destruct (A a d E) as (d2 & E2 & M2 & N2). exists d2. auto.
Qed.
Lemma rely_grow t w h w' h' : rely t w h w' h' -> grow w h w' h'.
Proof.
  intros A a d E O. destruct (A a d E) as (d2 & E2 & _ & N2). destruct (N2 O). eauto.
Qed.
Lemma guar_grow t w h w' h' : guar t w h w' h' -> grow w h w' h'.
Proof.
  intros A a d E O. destruct (A a d E) as (d2 & E2 & _ & N2). destruct (N2 O). eauto.
Qed.
Lemma grow_refl w h : grow w h w h.
Proof. intros a d E O. eauto using rel_refl. Qed.
Lemma grow_trans w1 h1 w2 h2 w3 h3 :
  grow w1 h1 w2 h2 -> grow w2 h2 w3 h3 -> grow w1 h1 w3 h3.
Proof.
  intros A B a d E O. destruct (A a d E O) as (d2 & E2 & O2 & R2).
  destruct (B a d2 E2 O2) as (d3 & E3 & O3 & R3). eauto using rel_trans.
Qed.

(** * What a thread knows *)

Definition pub (w : own) (h : heap) (a : nat) (d : dict) : Prop :=
  nth_error h a = Some d /\ w a = None /\ dget "β" d = None.
Definition mine (t : nat) (w : own) (h : heap) (a : nat) (d : dict) : Prop :=
  nth_error h a = Some d /\ w a = Some t /\ dget "β" d = None /\ dget "f_oxz" d = None.
(** A dictionary made by [f_oxz]; [f]: its entry "f_oxz" has been written. *)
Definition goodat (f : bool) (w : own) (h : heap) (b : nat) rx ry xo yo r : Prop :=
  exists d, nth_error h b = Some d /\ w b = None /\ good rx ry xo yo r d
   /\ (f = true -> dget "f_oxz" d <> None).

Lemma pub_grow w h w' h' a d : grow w h w' h' -> pub w h a d -> pub w' h' a d.
Proof.
  intros G (E & O & B). destruct (G a d E O) as (d' & E' & O' & R1 & _).
  rewrite (R1 B) in E'. repeat split; auto.
Qed.
Lemma good_grow f w h w' h' b rx ry xo yo r :
  grow w h w' h' -> goodat f w h b rx ry xo yo r -> goodat f w' h' b rx ry xo yo r.
Proof.
  intros G (d & E & O & GD & F). destruct (G b d E O) as (d' & E' & O' & _ & _ & R3 & R4).
  exists d'. repeat split; auto; try apply (R4 rx ry xo yo r GD).
Qed.
Lemma mine_rely t w h w' h' a d : rely t w h w' h' -> mine t w h a d -> mine t w' h' a d.
Proof.
  intros G (E & O & B & F). destruct (G a d E) as (d' & E' & M & _).
  destruct (M O) as [O' ->]. repeat split; auto.
Qed.
Lemma pub_rely t w h w' h' a d : rely t w h w' h' -> pub w h a d -> pub w' h' a d.
Proof. intros G. apply pub_grow. eapply rely_grow, G. Qed.
Lemma good_rely t f w h w' h' b rx ry xo yo r :
  rely t w h w' h' -> goodat f w h b rx ry xo yo r -> goodat f w' h' b rx ry xo yo r.
Proof. intros G. apply good_grow. eapply rely_grow, G. Qed.

(** * Safety of a program among others *)

Fixpoint safe {A} (t : nat) (Q : res A -> own -> heap -> Prop) (p : prog A) (w : own)
  (h : heap) {struct p} : Prop :=
  match p with
  | Done r => forall w' h', rely t w h w' h' -> Q r w' h'
  | Step g k => forall w' s, ginv w' s -> rely t w h w' (st_heap s) ->
      exists w2, ginv w2 (g s) /\ guar t w' (st_heap s) w2 (st_heap (g s))
        /\ safe t Q (k s) w2 (st_heap (g s))
  end.

Lemma safe_rely {A} t Q (p : prog A) w h w' h' :
  safe t Q p w h -> rely t w h w' h' -> safe t Q p w' h'.
Proof.
  destruct p as [r|g k]; cbn; intros S R'.
  - intros w2 h2 R2. eauto using rely_trans.
  - intros w2 s G R2. apply S; eauto using rely_trans.
Qed.

Lemma safe_mono {A} t (P Q : res A -> own -> heap -> Prop) (p : prog A) :
  (forall r w h, P r w h -> Q r w h) -> forall w h, safe t P p w h -> safe t Q p w h.
Proof.
  intros L. induction p as [r|g k IH]; cbn; intros w h S.
  - eauto.
  - intros w' s G R'. destruct (S w' s G R') as (w2 & G2 & U & S2). eauto.
Qed.

Lemma safe_bind {A B} t (Q : res B -> own -> heap -> Prop) (p : prog A) (f : A -> prog B) :
  forall w h,
  safe t (fun r w h => match r with
                       | Ok a => safe t Q (f a) w h
                       | Err e => forall w' h', rely t w h w' h' -> Q (Err e) w' h'
                       end) p w h ->
  safe t Q (pbind p f) w h.
Proof.
  induction p as [[a|e]|g k IH]; cbn; intros w h S.
  - apply S, rely_refl.
  - intros w' h' R'. apply (S w' h' R'), rely_refl.
  - intros w' s G R'. destruct (S w' s G R') as (w2 & G2 & U & S2). eauto.
Qed.

Lemma safe_solo {A} t Q (p : prog A) : forall w s,
  ginv w s -> safe t Q p w (st_heap s) ->
  exists w', ginv w' (snd (solo p s)) /\ Q (fst (solo p s)) w' (st_heap (snd (solo p s))).
Proof.
  induction p as [r|g k IH]; intros w s G S.
  - exists w. split; [exact G|]. apply S, rely_refl.
  - cbn [solo]. destruct (S w s G (rely_refl _ _ _)) as (w2 & G2 & _ & S2). eauto.
Qed.

(** * Steps *)

Definition oset (a : nat) (o : option nat) (w : own) : own :=
  fun b => if Nat.eqb b a then o else w b.
Lemma oset_same a o w : oset a o w a = o.
Proof. unfold oset. now rewrite Nat.eqb_refl. Qed.
Lemma oset_other a o w b : b <> a -> oset a o w b = w b.
Proof. unfold oset. intros N. destruct (Nat.eqb_spec b a); congruence. Qed.

Lemma nth_lt {A} (h : list A) a d : nth_error h a = Some d -> (a < List.length h)%nat.
Proof. intros E. apply nth_error_Some. congruence. Qed.

Lemma alloc_rely t w h o d : rely t w h (oset (List.length h) o w) (app h [d]).
Proof.
  intros a x E. pose proof (nth_lt _ _ _ E). exists x. split; [now apply nth_old|].
  rewrite oset_other by lia. auto using rel_refl.
Qed.
Lemma alloc_guar t w h o d : guar t w h (oset (List.length h) o w) (app h [d]).
Proof.
  intros a x E. pose proof (nth_lt _ _ _ E). exists x. split; [now apply nth_old|].
  rewrite oset_other by lia. auto using rel_refl.
Qed.

Lemma alloc_ginv w s o d :
  ginv w s ->
  (dget "β" d <> None -> exists rx ry xo yo r, good rx ry xo yo r d) ->
  (o <> None -> dget "β" d = None /\ dget "f_oxz" d = None) ->
  ginv (oset (List.length (st_heap s)) o w) (set_heap (app (st_heap s) [d]) s).
Proof.
  intros [I W] HD HO. split.
  - apply inv_set_heap; auto using hrel_alloc, hrel_refl.
    apply heap_ok_alloc; auto. apply I.
  - cbn. intros a x E NW. destruct (Nat.lt_ge_cases a (List.length (st_heap s))) as [L|L].
    + rewrite nth_error_app1 in E by auto. rewrite oset_other in NW by lia. eauto.
    + rewrite nth_error_app2 in E by auto.
      destruct (a - List.length (st_heap s))%nat as [|n] eqn:EA.
      * cbn in E. injection E as <-. replace a with (List.length (st_heap s)) in NW by lia.
        rewrite oset_same in NW. auto.
      * cbn in E. destruct n; discriminate E.
Qed.

Lemma safe_alloc t w h d (Q : res nat -> own -> heap -> Prop) :
  dget "β" d = None ->
  (forall w' h' a, rely t w h w' h' -> pub w' h' a d -> Q (Ok a) w' h') ->
  safe t Q (atom (alloc d)) w h.
Proof.
  intros B K w' s G R'. exists (oset (List.length (st_heap s)) None w'). cbn.
  split; [|split].
  - apply alloc_ginv; auto; congruence.
  - apply alloc_guar.
  - intros w2 h2 R2. apply K.
    + eapply rely_trans; [exact R'|]. eapply rely_trans; [|exact R2]. apply alloc_rely.
    + eapply pub_rely; [exact R2|]. split; [apply nth_alloc|]. split; [apply oset_same|exact B].
Qed.

Lemma safe_alloc_mine t w h d (Q : res nat -> own -> heap -> Prop) :
  dget "β" d = None -> dget "f_oxz" d = None ->
  (forall w' h' a, rely t w h w' h' -> mine t w' h' a d -> Q (Ok a) w' h') ->
  safe t Q (atom (alloc d)) w h.
Proof.
  intros B F K w' s G R'. exists (oset (List.length (st_heap s)) (Some t) w'). cbn.
  split; [|split].
  - apply alloc_ginv; auto; congruence.
  - apply alloc_guar.
  - intros w2 h2 R2. apply K.
    + eapply rely_trans; [exact R'|]. eapply rely_trans; [|exact R2]. apply alloc_rely.
    + eapply mine_rely; [exact R2|]. split; [apply nth_alloc|].
      split; [apply oset_same|auto].
Qed.

Lemma safe_alloc_good t w h rx ry xo yo r (Q : res nat -> own -> heap -> Prop) :
  fx_wf r ->
  (forall w' h' a, rely t w h w' h' -> goodat false w' h' a rx ry xo yo r -> Q (Ok a) w' h') ->
  safe t Q (atom (alloc (fx_base rx ry xo yo r))) w h.
Proof.
  intros W K w' s G R'. exists (oset (List.length (st_heap s)) None w'). cbn.
  pose proof (fx_base_good rx ry xo yo r W) as GB.
  split; [|split].
  - apply alloc_ginv; auto; [|congruence]. intros _. exists rx, ry, xo, yo, r. exact GB.
  - apply alloc_guar.
  - intros w2 h2 R2. apply K.
    + eapply rely_trans; [exact R'|]. eapply rely_trans; [|exact R2]. apply alloc_rely.
    + eapply good_rely; [exact R2|]. exists (fx_base rx ry xo yo r).
      split; [apply nth_alloc|]. split; [apply oset_same|]. split; [exact GB|discriminate].
Qed.

Lemma ginv_guar_refl t w s : guar t w (st_heap s) w (st_heap s).
Proof. intros a d E. exists d. auto using rel_refl. Qed.

(** Reading a shared plain dictionary. *)
Lemma safe_read t w h a d (Q : res dict -> own -> heap -> Prop) :
  pub w h a d -> (forall w' h', rely t w h w' h' -> Q (Ok d) w' h') ->
  safe t Q (atom (read a)) w h.
Proof.
  intros P K w' s G R'. exists w'. pose proof (pub_rely _ _ _ _ _ _ _ R' P) as (E & _).
  cbn. unfold read. rewrite E. cbn. split; [exact G|]. split; [apply ginv_guar_refl|].
  intros w2 h2 R2. eauto using rely_trans.
Qed.
Lemma safe_get_num t w h a d k x (Q : res R -> own -> heap -> Prop) :
  pub w h a d -> dget k d = Some (VNum x) ->
  (forall w' h', rely t w h w' h' -> Q (Ok x) w' h') ->
  safe t Q (atom (get_num a k)) w h.
Proof.
  intros P D K w' s G R'. exists w'. pose proof (pub_rely _ _ _ _ _ _ _ R' P) as (E & _).
  cbn. unfold get_num, mbind, read. rewrite E, D. cbn. split; [exact G|].
  split; [apply ginv_guar_refl|]. intros w2 h2 R2. eauto using rely_trans.
Qed.
Lemma safe_get_ref t w h a d k b (Q : res nat -> own -> heap -> Prop) :
  pub w h a d -> dget k d = Some (VRef b) ->
  (forall w' h', rely t w h w' h' -> Q (Ok b) w' h') ->
  safe t Q (atom (get_ref a k)) w h.
Proof.
  intros P D K w' s G R'. exists w'. pose proof (pub_rely _ _ _ _ _ _ _ R' P) as (E & _).
  cbn. unfold get_ref, mbind, read. rewrite E, D. cbn. split; [exact G|].
  split; [apply ginv_guar_refl|]. intros w2 h2 R2. eauto using rely_trans.
Qed.

(** Writing to a dictionary made by [f_oxz]. *)
Lemma dupdate_keeps k kvs : forall d, dget k d <> None -> dget k (dupdate d kvs) <> None.
Proof.
  induction kvs as [|[k' v] kvs IH]; intros d N; [exact N|].
  rewrite dupdate_cons. apply IH. rewrite dget_dset. destruct (String.eqb k' k); congruence.
Qed.
Lemma dupdate_adds k kvs : forall d, In k (map fst kvs) -> dget k (dupdate d kvs) <> None.
Proof.
  induction kvs as [|[k' v] kvs IH]; intros d N; [destruct N|].
  rewrite dupdate_cons. destruct N as [N|N]; [|auto].
  apply dupdate_keeps. rewrite dget_dset. cbn in N. subst k'. rewrite String.eqb_refl.
  discriminate.
Qed.

Lemma safe_update_good t f f' w h b kvs rx ry xo yo r (Q : res unit -> own -> heap -> Prop) :
  goodat f w h b rx ry xo yo r -> Forall (kv_ok r) kvs ->
  (f' = true -> f = true \/ In "f_oxz" (map fst kvs)) ->
  (forall w' h', rely t w h w' h' -> goodat f' w' h' b rx ry xo yo r -> Q (Ok tt) w' h') ->
  safe t Q (atom (update b kvs)) w h.
Proof.
  intros P F FF K w' s G R'. exists w'.
  pose proof (good_rely _ _ _ _ _ _ _ _ _ _ _ _ R' P) as (d & E & O & GD & HF).
  destruct (dupdate_rel rx ry xo yo r kvs d GD F) as [R2 G2].
  assert (rely t w' (st_heap s) w' (replace b (dupdate d kvs) (st_heap s))) as RS.
  { intros a x Ea. rewrite nth_replace. destruct (Nat.eqb_spec b a) as [<-|N].
    - rewrite Ea. rewrite E in Ea. injection Ea as ->. exists (dupdate x kvs).
      split; [reflexivity|]. split; [congruence|auto].
    - exists x. auto using rel_refl. }
  cbn. unfold update, mbind, read. rewrite E. cbn. split; [|split].
  - destruct G as [I W]. split.
    + apply inv_set_heap; [exact I|eapply hrel_replace_rel; eauto|].
      apply heap_ok_replace; [apply I|]. intros _. exists rx, ry, xo, yo, r. exact G2.
    + cbn. intros a x Ea NW. rewrite nth_replace in Ea.
      destruct (Nat.eqb_spec b a) as [<-|N]; [congruence|eauto].
  - intros a x Ea. rewrite nth_replace. destruct (Nat.eqb_spec b a) as [<-|N].
    + rewrite Ea. rewrite E in Ea. injection Ea as ->. exists (dupdate x kvs).
      split; [reflexivity|]. split; [congruence|auto].
    + exists x. auto using rel_refl.
  - intros w2 h2 R3. apply K.
    + eapply rely_trans; [exact R'|]. eapply rely_trans; [exact RS|exact R3].
    + eapply good_rely; [exact R3|]. exists (dupdate d kvs).
      split; [rewrite nth_replace, Nat.eqb_refl, E; reflexivity|]. split; [exact O|].
      split; [exact G2|]. intros H. destruct (FF H) as [H1|H1].
      * apply dupdate_keeps; auto.
      * now apply dupdate_adds.
Qed.

(** Writing to a dictionary of one's own. *)
Lemma safe_update_mine t w h b d kvs (Q : res unit -> own -> heap -> Prop) :
  mine t w h b d -> ~ In "β" (map fst kvs) -> ~ In "f_oxz" (map fst kvs) ->
  (forall w' h', grow w h w' h' -> mine t w' h' b (dupdate d kvs) -> Q (Ok tt) w' h') ->
  safe t Q (atom (update b kvs)) w h.
Proof.
  intros P NB NF K w' s G R'. exists w'.
  pose proof (mine_rely _ _ _ _ _ _ _ R' P) as (E & O & B & F).
  assert (grow w' (st_heap s) w' (replace b (dupdate d kvs) (st_heap s))) as RS.
  { intros a x Ea Oa. rewrite nth_replace. destruct (Nat.eqb_spec b a) as [<-|N].
    - congruence.
    - exists x. auto using rel_refl. }
  cbn. unfold update, mbind, read. rewrite E. cbn. split; [|split].
  - destruct G as [[I1 I2 I3 I4] W]. split; [constructor; cbn; auto|cbn].
    + intros k c Hin. destruct (I3 k c Hin) as
        (o & A & lx & lz & rx & ry & xo & yo & J & Iw & Em & G & r & E1 & E2 & PO).
      exists o, A, lx, lz, rx, ry, xo, yo, J, Iw, Em, G, r. repeat split; auto.
      eapply pair_ok_other; eauto.
    + apply heap_ok_replace; auto. intros C. elim C.
      rewrite dget_dupdate_other by exact NB. exact B.
    + intros a x Ea NW. rewrite nth_replace in Ea.
      destruct (Nat.eqb_spec b a) as [<-|N]; [|eauto]. rewrite E in Ea. injection Ea as <-.
      rewrite !dget_dupdate_other; auto.
  - intros a x Ea. rewrite nth_replace. destruct (Nat.eqb_spec b a) as [<-|N].
    + rewrite Ea. exists (dupdate d kvs). split; [reflexivity|]. split; congruence.
    + exists x. auto using rel_refl.
  - intros w2 h2 R3. apply K.
    + eapply grow_trans; [eapply rely_grow, R'|].
      eapply grow_trans; [exact RS|eapply rely_grow, R3].
    + eapply mine_rely; [exact R3|].
      split; [rewrite nth_replace, Nat.eqb_refl, E; reflexivity|]. split; [exact O|].
      rewrite !dget_dupdate_other; auto.
Qed.

(** * The caches *)

Lemma safe_lru {V} t (sel : state -> list (key * V)) put k body w h
  (Q : res V -> own -> heap -> Prop) :
  (forall c s, st_heap (put c s) = st_heap s) ->
  (forall w' s v, ginv w' s -> rely t w h w' (st_heap s) -> find k (sel s) = Some v ->
     inv (put ((k, v) :: without k (sel s)) s)
     /\ forall w2 h2, rely t w' (st_heap s) w2 h2 -> Q (Ok v) w2 h2) ->
  (forall w' h', rely t w h w' h' ->
     safe t (fun r w h => match r with
       | Ok v => (forall w2 s, ginv w2 s -> rely t w h w2 (st_heap s) ->
                    inv (put (firstn maxsize ((k, v) :: sel s)) s))
                 /\ forall w2 h2, rely t w h w2 h2 -> Q (Ok v) w2 h2
       | Err e => forall w2 h2, rely t w h w2 h2 -> Q (Err e) w2 h2
       end) body w' h') ->
  safe t Q (p_lru sel put k body) w h.
Proof.
  intros HP HH HB w' s G R'. exists w'.
  destruct (find k (sel s)) as [v|] eqn:F.
  - destruct (HH w' s v G R' F) as [I2 K]. split; [|split].
    + split; [exact I2|]. rewrite HP. apply G.
    + rewrite HP. apply ginv_guar_refl.
    + rewrite HP. exact K.
  - split; [exact G|]. split; [apply ginv_guar_refl|]. apply safe_bind.
    eapply safe_mono; [|exact (HB w' (st_heap s) R')]. cbv beta. intros [v|e] w1 h1 K.
    2:{ exact K. }
    destruct K as [K1 K2]. intros w2 s2 G2 R2. exists w2. unfold store.
    destruct (find k (sel s2)) as [v'|]; cbn [fst snd].
    + split; [exact G2|]. split; [apply ginv_guar_refl|].
      intros w3 h3 R3. apply K2. eauto using rely_trans.
    + rewrite HP. split; [|split].
      * split; [eapply K1; eauto|rewrite HP; apply G2].
      * apply ginv_guar_refl.
      * intros w3 h3 R3. apply K2. eauto using rely_trans.
Qed.

Lemma safe_r_ol t o rx ry xo yo w h (Q : res R -> own -> heap -> Prop) :
  (forall w' h', rely t w h w' h' -> Q (Ok (r_ol rx ry xo yo)) w' h') ->
  safe t Q (p_r_ol o rx ry xo yo) w h.
Proof.
  intros K. apply safe_lru; [reflexivity| |].
  - intros w' s v [I _] R' F. apply find_in in F.
    destruct (inv_rol s I _ _ F) as (o' & a & b & c & d & E1 & E2).
    injection E1 as -> -> -> -> ->. subst v. split; [|eauto using rely_trans].
    destruct I as [I1 I2 I3 I4]. constructor; cbn; auto.
    intros k w2 [E|E]; [|apply in_without in E; auto].
    injection E as <- <-. exists o', a, b, c, d. auto.
  - intros w' h' R' w2 h2 R2. split; [|eauto using rely_trans].
    intros w3 s [[I1 I2 I3 I4] _] _. constructor; cbn -[firstn]; auto.
    intros k v Ek. apply in_firstn in Ek. destruct Ek as [Ek|Ek]; [|auto].
    injection Ek as <- <-. exists o, rx, ry, xo, yo. auto.
Qed.

Lemma safe_fet t o A lz rx ry xo yo J Iw E G w h (Q : res R -> own -> heap -> Prop) :
  (forall w' h', rely t w h w' h' -> Q (f_euler_torsion A lz rx ry xo yo J Iw E G) w' h') ->
  safe t Q (p_f_euler_torsion o A lz rx ry xo yo J Iw E G) w h.
Proof.
  intros K. apply safe_lru; [reflexivity| |].
  - intros w' s v [I _] R' F. apply find_in in F. destruct (inv_fet s I _ _ F) as
      (o' & A' & lz' & rx' & ry' & xo' & yo' & J' & Iw' & E' & G' & E1 & E2).
    injection E1 as -> -> -> -> -> -> -> -> -> -> ->.
    split; [|intros w2 h2 R2; rewrite <- E2; eauto using rely_trans].
    destruct I as [I1 I2 I3 I4]. constructor; cbn; auto.
    intros k w2 [Ek|Ek]; [|apply in_without in Ek; auto].
    injection Ek as <- <-. exists o', A', lz', rx', ry', xo', yo', J', Iw', E', G'. auto.
  - intros w' h' R'. apply safe_bind, safe_r_ol. intros w1 h1 R1.
    unfold f_euler_torsion in K.
    unfold plift. destruct (rdiv (G * J) _) as [x|e] eqn:EX; cbn [pbind bind] in *.
    2:{ cbn. intros w2 h2 R2 w3 h3 R3. eauto 6 using rely_trans. }
    destruct (rdiv (PI * PI * E * Iw) _) as [y|e] eqn:EY; cbn [pbind bind safe] in *.
    2:{ intros w2 h2 R2 w3 h3 R3. eauto 6 using rely_trans. }
    intros w2 h2 R2. split; [|eauto 6 using rely_trans].
    intros w3 s [[I1 I2 I3 I4] _] _. constructor; cbn -[firstn]; auto.
    intros k v Ek. apply in_firstn in Ek. destruct Ek as [Ek|Ek]; [|auto].
    injection Ek as <- <-. exists o, A, lz, rx, ry, xo, yo, J, Iw, E, G. split; [reflexivity|].
    unfold f_euler_torsion. rewrite EX; cbn [bind]. rewrite EY. reflexivity.
Qed.

Definition foxz_post (f : res f_oxz_res) rx ry xo yo (out : res nat) (w : own) (h : heap)
  : Prop :=
  match f with
  | Ok r => exists a b, out = Ok a
      /\ pub w h a [("Intermediate", VRef b); ("f_oxz", VNum (fx_f_oxz r))]
      /\ goodat false w h b rx ry xo yo r
  | Err e => out = Err e
  end.
Lemma foxz_post_rely t f rx ry xo yo out w h w' h' :
  rely t w h w' h' -> foxz_post f rx ry xo yo out w h -> foxz_post f rx ry xo yo out w' h'.
Proof.
  unfold foxz_post. destruct f as [r|e]; auto. intros R' (a & b & E & P & G).
  exists a, b. eauto using pub_rely, good_rely.
Qed.

Lemma safe_foxz t o A lx lz rx ry xo yo J Iw E G w h :
  safe t (foxz_post (f_oxz A lx lz rx ry xo yo J Iw E G) rx ry xo yo)
    (p_f_oxz o A lx lz rx ry xo yo J Iw E G) w h.
Proof.
  apply safe_lru; [reflexivity| |].
  - intros w' s v [I W] R' F. apply find_in in F.
    destruct (inv_foxz s I _ _ F) as
      (o' & A' & lx' & lz' & rx' & ry' & xo' & yo' & J' & Iw' & E' & G' & r & E1 & E2 & P).
    injection E1 as -> -> -> -> -> -> -> -> -> -> -> ->. split.
    + destruct I as [I1 I2 I3 I4]. constructor; cbn; auto.
      intros k v' [Ek|Ek]; [|apply in_without in Ek; auto].
      injection Ek as <- <-.
      exists o', A', lx', lz', rx', ry', xo', yo', J', Iw', E', G', r. auto.
    + intros w2 h2 R2. eapply foxz_post_rely; [exact R2|]. unfold foxz_post. rewrite E2.
      destruct P as (b & d & P1 & P2 & GD). exists v, b. split; [reflexivity|].
      split; [split; [exact P1|]; split; [|reflexivity]|].
      * destruct (w' v) eqn:O; [|reflexivity]. destruct (W _ _ P1) as [_ X]; [congruence|].
        discriminate X.
      * exists d. split; [exact P2|]. split; [|split; [exact GD|discriminate]].
        destruct (w' b) eqn:O; [|reflexivity]. destruct (W _ _ P2) as [X _]; [congruence|].
        destruct GD as (_ & B & _). rewrite B in X by apply beta_stable. discriminate X.
  - intros w' h' R'. pose proof (f_oxz_wf A lx lz rx ry xo yo J Iw E G) as WF.
    remember (f_oxz A lx lz rx ry xo yo J Iw E G) as fr eqn:EF. unfold f_oxz in EF.
    apply safe_bind, safe_r_ol. intros w1 h1 R1. unfold plift.
    destruct (rdiv xo _) as [q|e] eqn:EQ; cbn [pbind bind] in *.
    2:{ subst fr. cbn. reflexivity. }
    destruct (f_euler E lx rx) as [fox|e] eqn:EX; cbn [pbind bind] in *.
    2:{ subst fr. cbn. reflexivity. }
    apply safe_bind, safe_fet. intros w2 h2 R2.
    destruct (f_euler_torsion A lz rx ry xo yo J Iw E G) as [foz|e] eqn:EZ;
      cbn [pbind bind] in *.
    2:{ subst fr. cbn. reflexivity. }
    destruct (rdiv 1 _) as [hh|e] eqn:EH; cbn [pbind bind] in *.
    2:{ subst fr. cbn. reflexivity. }
    destruct (rroot _) as [rt|e] eqn:ER; cbn [pbind bind] in *.
    2:{ subst fr. cbn. reflexivity. }
    subst fr. set (r := mk_foxz _ _ _ _ _) in *. specialize (WF r eq_refl).
    apply safe_bind. apply (safe_alloc_good t _ _ rx ry xo yo r); [exact WF|].
    intros w3 h3 b R3 GB. apply safe_alloc; [reflexivity|].
    intros w4 h4 a R4 PA. pose proof (good_rely _ _ _ _ _ _ _ _ _ _ _ _ R4 GB) as GB4.
    split.
    + intros w5 s [[I1 I2 I3 I4] _] R5. constructor; cbn -[firstn]; auto.
      intros k v Ek. apply in_firstn in Ek. destruct Ek as [Ek|Ek]; [|auto].
      injection Ek as <- <-. exists o, A, lx, lz, rx, ry, xo, yo, J, Iw, E, G, r.
      split; [reflexivity|]. split.
      { unfold f_oxz. rewrite EQ; cbn [bind]. rewrite EX; cbn [bind]. rewrite EZ; cbn [bind].
        rewrite EH; cbn [bind]. rewrite ER. reflexivity. }
      pose proof (pub_rely _ _ _ _ _ _ _ R5 PA) as (P1 & _).
      pose proof (good_rely _ _ _ _ _ _ _ _ _ _ _ _ R5 GB4) as (d & P2 & _ & GD & _).
      exists b, d. auto.
    + intros w5 h5 R5. exists a, b. eauto using pub_rely, good_rely.
Qed.
