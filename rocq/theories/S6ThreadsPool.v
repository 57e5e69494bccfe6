(** Threads under any schedule: the outcomes delivered so far, and how long a call takes. *)

From Coq Require Import ZArith Reals List Bool String Lia Lra.
From Verif Require Import Base Num RNum PyReal Symmetry S6 S6Cache S6CacheFacts S6CacheProofs
  S6CacheNc S6CacheSession S6Threads S6ThreadsFacts S6ThreadsProofs.
Import ListNotations.
Open Scope R_scope.
Open Scope string_scope.

(** * Outcomes once delivered *)

Definition ppart (w : own) (h : heap) (v : val) (p : part) : Prop :=
  match p with
  | PLeaf x => v = VNum x
  | PExact E => exists b, v = VRef b /\ pub w h b E /\ flat E
  | PShared f rx ry xo yo r => exists b, v = VRef b /\ goodat f w h b rx ry xo yo r
  end.
Definition pair_of (w : own) (h : heap) (kv : string * val) (kp : string * part) : Prop :=
  fst kv = fst kp /\ ppart w h (snd kv) (snd kp).
Definition delivered (p : res (R + ptree)) (out : res val) (w : own) (h : heap) : Prop :=
  match p with
  | Ok (inl x) => out = Ok (VNum x)
  | Ok (inr l) => exists a d, out = Ok (VRef a) /\ pub w h a d /\ Forall2 (pair_of w h) d l
  | Err e => out = Err e
  end.

Lemma ppart_grow w h w' h' v p : grow w h w' h' -> ppart w h v p -> ppart w' h' v p.
Proof.
  intros G. destruct p; cbn; auto.
  - intros (b & E1 & P & F). exists b. eauto using pub_grow.
  - intros (b & E1 & P). exists b. eauto using good_grow.
Qed.
Lemma delivered_grow p out w h w' h' :
  grow w h w' h' -> delivered p out w h -> delivered p out w' h'.
Proof.
  intros G. unfold delivered. destruct p as [[x|l]|e]; auto.
  intros (a & d & E & P & F). exists a, d. split; [exact E|].
  split; [eapply pub_grow; eauto|]. eapply Forall2_mono; [|exact F].
  intros kv kp [E1 P1]. split; [exact E1|]. eapply ppart_grow; eauto.
Qed.

(** A call that has ended gives up its dictionaries. *)
Definition release (t : nat) (w : own) : own :=
  fun a => match w a with
           | Some u => if Nat.eqb u t then None else Some u
           | None => None
           end.
Lemma release_none t w a : w a = None -> release t w a = None.
Proof. unfold release. now intros ->. Qed.
Lemma release_own t w a : w a = Some t -> release t w a = None.
Proof. unfold release. intros ->. now rewrite Nat.eqb_refl. Qed.
Lemma release_guar t w h : guar t w h (release t w) h.
Proof.
  intros a d E. exists d. split; [exact E|]. split.
  - intros u N O. unfold release. rewrite O. destruct (Nat.eqb_spec u t); [congruence|auto].
  - intros O. rewrite release_none by exact O. auto using rel_refl.
Qed.
Lemma release_ginv t w s : ginv w s -> ginv (release t w) s.
Proof.
  intros [I W]. split; [exact I|]. intros a d E N. apply (W a d E). intros O. apply N.
  now apply release_none.
Qed.
Lemma pub_release t w h a d : pub w h a d -> pub (release t w) h a d.
Proof. intros (E & O & B). split; [exact E|]. split; [now apply release_none|exact B]. Qed.
Lemma val_res_release t p out w h :
  val_res t p out w h -> delivered p out (release t w) h.
Proof.
  unfold val_res, delivered. destruct p as [[x|l]|e]; auto.
  intros (a & d & E & P & F). exists a, d. split; [exact E|].
  split; [now apply pub_release|]. eapply Forall2_mono; [|exact F].
  intros [k v] [k' p] [E1 P1]. split; [exact E1|]. cbn [snd] in *.
  destruct p as [x|Em|f rx ry xo yo r]; cbn in *; auto.
  - destruct P1 as (b & -> & [Pb|(Eb & Ob & Bb & _)] & FL); exists b; (split; [reflexivity|]);
      (split; [|exact FL]).
    + now apply pub_release.
    + split; [exact Eb|]. split; [now apply release_own|exact Bb].
  - destruct P1 as (b & -> & e & Eb & Ob & G). exists b. split; [reflexivity|].
    exists e. split; [exact Eb|]. split; [now apply release_none|exact G].
Qed.

(** * The pool *)

Definition out_ok roots (w : own) (h : heap) (c : call) (o : option (res val)) : Prop :=
  match o with
  | Some r => delivered (call_spec roots c) r w h
  | None => True
  end.
Definition thread_ok roots (w : own) (h : heap) (i : nat) (cs : list call) (th : thread)
  : Prop :=
  exists past todo, cs = app past todo /\ Forall2 (out_ok roots w h) past (t_out th)
  /\ match todo with
     | [] => t_rest th = []
     | c :: l => exists p, t_rest th = p :: map (p_call roots) l
                  /\ safe i (val_res i (call_spec roots c)) p w h
     end.
Definition pool_ok roots (css : list (list call)) (ts : list thread * state) : Prop :=
  exists w, ginv w (snd ts) /\ List.length (fst ts) = List.length css
  /\ forall i cs th, nth_error css i = Some cs -> nth_error (fst ts) i = Some th ->
       thread_ok roots w (st_heap (snd ts)) i cs th.

Lemma outs_grow roots w h w' h' cs os :
  grow w h w' h' -> Forall2 (out_ok roots w h) cs os -> Forall2 (out_ok roots w' h') cs os.
Proof.
  intros G. apply Forall2_mono. intros c [r|]; cbn; auto. now apply delivered_grow.
Qed.
(** Another thread's step. *)
Lemma thread_ok_other roots w h w' h' i j cs th :
  guar j w h w' h' -> i <> j -> thread_ok roots w h i cs th -> thread_ok roots w' h' i cs th.
Proof.
  intros G N (past & todo & E & F & K). exists past, todo. split; [exact E|].
  split; [eapply outs_grow; [eapply guar_grow, G|exact F]|].
  destruct todo as [|c l]; [exact K|]. destruct K as (p & E1 & S). exists p.
  split; [exact E1|]. eapply safe_rely; [exact S|]. eapply guar_rely; eauto.
Qed.
Lemma length_replace {A} i (x : A) l : List.length (replace i x l) = List.length l.
Proof. revert i; induction l as [|y l IH]; intros [|i]; cbn; auto. Qed.

Lemma Forall2_snoc {A B} (P : A -> B -> Prop) l l' a b :
  Forall2 P l l' -> P a b -> Forall2 P (app l [a]) (app l' [b]).
Proof. induction 1; cbn; auto. Qed.

(** What remains after the current call is over. *)
Lemma todo_start roots w h i past l out :
  Forall2 (out_ok roots w h) past out ->
  thread_ok roots w h i (app past l) (mk_thread out (map (p_call roots) l)).
Proof.
  intros F. exists past, l. split; [reflexivity|]. split; [exact F|].
  destruct l as [|c l]; [reflexivity|]. exists (p_call roots c). split; [reflexivity|].
  apply safe_call.
Qed.

Lemma happen_ok roots css ts ev : pool_ok roots css ts -> pool_ok roots css (happen ts ev).
Proof.
  destruct ts as [l s]. intros (w & G & L & K). cbn [fst snd] in *.
  assert (forall i th' w' s', ginv w' s' -> guar i w (st_heap s) w' (st_heap s') ->
    (forall cs th, nth_error css i = Some cs -> nth_error l i = Some th ->
       thread_ok roots w (st_heap s) i cs th -> thread_ok roots w' (st_heap s') i cs th') ->
    pool_ok roots css (replace i th' l, s')) as UPD.
  { intros i th' w' s' G' U KI. exists w'. cbn [fst snd]. split; [exact G'|].
    split; [now rewrite length_replace|]. intros j cs th Ecs Eth.
    rewrite nth_replace in Eth. destruct (Nat.eqb_spec i j) as [<-|N].
    - destruct (nth_error l i) as [th0|] eqn:E0; [|discriminate Eth].
      injection Eth as <-. eauto.
    - eapply thread_ok_other; eauto. }
  assert (pool_ok roots css (l, s)) as SAME by (exists w; auto).
  destruct ev as [i|i]; cbn [happen].
  - destruct (nth_error l i) as [[out [|[r|g k] ps]]|] eqn:E; try exact SAME.
    + apply (UPD i _ (release i w) s).
      * now apply release_ginv.
      * apply release_guar.
      * intros cs th Ecs Eth (past & todo & -> & F & P). rewrite E in Eth. injection Eth as <-.
        cbn [t_out t_rest] in *. destruct todo as [|c todo]; [discriminate P|].
        destruct P as (p & EP & S). injection EP as <- ->.
        replace (app past (c :: todo)) with (app (app past [c]) todo)
          by (rewrite <- app_assoc; reflexivity).
        apply todo_start. apply Forall2_snoc.
        -- eapply outs_grow; [eapply guar_grow, release_guar|exact F].
        -- cbn. apply val_res_release. apply S, rely_refl.
    + destruct (nth_error css i) as [cs|] eqn:Ecs.
      2:{ exfalso. apply nth_error_None in Ecs. apply nth_lt in E. lia. }
      destruct (K i cs _ Ecs E) as (past & todo & -> & F & P).
      cbn [t_out t_rest] in *. destruct todo as [|c todo]; [discriminate P|].
      destruct P as (p & EP & S). injection EP as <- ->.
      destruct (S w s G (rely_refl _ _ _)) as (w2 & G2 & U & S2).
      apply (UPD i _ w2 (g s) G2 U). intros cs' th Ecs' _ _.
      rewrite Ecs in Ecs'. injection Ecs' as <-.
      exists past, (c :: todo). split; [reflexivity|]. cbn [t_out t_rest].
      split; [eapply outs_grow; [eapply guar_grow, U|exact F]|]. eauto.
  - destruct (nth_error l i) as [[out [|p0 ps]]|] eqn:E; try exact SAME.
    apply (UPD i _ w s G (ginv_guar_refl _ _ _)).
    intros cs th Ecs Eth (past & todo & -> & F & P). rewrite E in Eth. injection Eth as <-.
    cbn [t_out t_rest] in *. destruct todo as [|c todo]; [discriminate P|].
    destruct P as (p & EP & S). injection EP as <- ->.
    replace (app past (c :: todo)) with (app (app past [c]) todo)
      by (rewrite <- app_assoc; reflexivity).
    apply todo_start. apply Forall2_snoc; [exact F|exact I].
Qed.

Definition nobody : own := fun _ => None.
Lemma ginv_fresh : ginv nobody fresh.
Proof. split; [apply inv_fresh|]. intros a d E. destruct a; discriminate E. Qed.

Lemma start_ok roots css : pool_ok roots css (map (spawn roots) css, fresh).
Proof.
  exists nobody. cbn [fst snd]. split; [apply ginv_fresh|].
  split; [apply map_length|]. intros i cs th E1 E2.
  rewrite nth_error_map, E1 in E2. injection E2 as <-.
  apply (todo_start roots nobody (st_heap fresh) i [] cs []). constructor.
Qed.
Lemma fold_ok roots css evs : forall ts,
  pool_ok roots css ts -> pool_ok roots css (fold_left happen evs ts).
Proof. induction evs as [|ev evs IH]; intros ts P; [exact P|]. cbn. auto using happen_ok. Qed.
Lemma play_ok roots css evs : pool_ok roots css (play roots css evs).
Proof. apply fold_ok, start_ok. Qed.

Lemma play_inv roots css evs : inv (snd (play roots css evs)).
Proof. destruct (play_ok roots css evs) as (w & G & _). apply G. Qed.

Lemma received_ok roots css evs i j cs c r :
  nth_error css i = Some cs -> nth_error cs j = Some c ->
  received (fst (play roots css evs)) i j = Some r ->
  exists w, delivered (call_spec roots c) r w (st_heap (snd (play roots css evs))).
Proof.
  intros Ecs Ec Er. destruct (play_ok roots css evs) as (w & _ & _ & K). exists w.
  unfold received in Er. destruct (nth_error (fst _) i) as [th|] eqn:Eth; [|discriminate Er].
  destruct (K i cs th Ecs Eth) as (past & todo & -> & F & _).
  destruct (nth_error (t_out th) j) as [[o|]|] eqn:Eo; try discriminate Er.
  injection Er as ->. clear - F Ec Eo. revert j Ec Eo.
  induction F as [|c' o' past os P F IH]; intros [|j] Ec Eo; cbn in *; try discriminate.
  - injection Ec as ->. injection Eo as ->. exact P.
  - eauto.
Qed.

(** A call on its own in a fresh interpreter. *)
Lemma alone_ok roots c : exists w,
  delivered (call_spec roots c) (fst (run_call roots c fresh)) w
    (st_heap (snd (run_call roots c fresh))).
Proof.
  destruct (safe_solo 0 _ _ _ _ ginv_fresh (safe_call roots 0 c nobody (st_heap fresh)))
    as (w & _ & P).
  exists (release 0 w). rewrite same_call in P. now apply val_res_release.
Qed.

(** * What a client reads *)

Fixpoint pget (k : string) (l : ptree) : option part :=
  match l with
  | [] => None
  | (k', p) :: r => if String.eqb k' k then Some p else pget k r
  end.
(** The entries that cannot have been changed by others. *)
Definition steady (sp : res (R + ptree)) (p : list string) : Prop :=
  forall l k k' f rx ry xo yo r,
  sp = Ok (inr l) -> p = [k; k'] -> pget k l = Some (PShared f rx ry xo yo r) ->
  In k' volatile -> k' = "f_oxz" /\ f = true.

Lemma flat_path h d k p v : flat d -> dget k d = Some v ->
  at_path h v p = match p with [] => Some v | _ => None end.
Proof.
  intros F E. destruct p as [|k' p]; [reflexivity|]. specialize (F _ _ E).
  now destruct v.
Qed.

Lemma ppart_num w h w' h' v v' p path :
  ppart w h v p -> ppart w' h' v' p ->
  (forall k' f rx ry xo yo r, path = [k'] -> p = PShared f rx ry xo yo r ->
     In k' volatile -> k' = "f_oxz" /\ f = true) ->
  numeric (at_path h v path) = numeric (at_path h' v' path).
Proof.
  intros P P' ST. destruct p as [x|E|f rx ry xo yo r]; cbn in P, P'.
  - subst. destruct path as [|k path]; reflexivity.
  - destruct P as (b & -> & (Eb & _) & F). destruct P' as (b' & -> & (Eb' & _) & _).
    destruct path as [|k path]; [reflexivity|]. cbn [at_path]. rewrite Eb, Eb'.
    destruct (dget k E) as [u|] eqn:Eu; [|reflexivity].
    now rewrite !(flat_path _ _ _ _ _ F Eu).
  - destruct P as (b & -> & d & Eb & _ & (W & B & FX & _ & FL) & HF).
    destruct P' as (b' & -> & d' & Eb' & _ & (_ & B' & FX' & _ & FL') & HF').
    destruct path as [|k path]; [reflexivity|]. cbn [at_path]. rewrite Eb, Eb'.
    destruct path as [|k2 path].
    + assert (dget k d = dget k d') as ->; [|reflexivity].
      destruct (vol_dec k) as [V|V].
      * destruct (ST k f rx ry xo yo r eq_refl eq_refl V) as [-> ->].
        destruct FX as [FX|FX]; [elim (HF eq_refl FX)|].
        destruct FX' as [FX'|FX']; [elim (HF' eq_refl FX')|]. congruence.
      * rewrite B, B'; auto.
    + destruct (dget k d) as [u|] eqn:Eu.
      * rewrite (flat_path _ _ _ _ _ FL Eu).
        destruct (dget k d') as [u'|] eqn:Eu'; [|reflexivity].
        rewrite (flat_path _ _ _ _ _ FL' Eu'). reflexivity.
      * destruct (dget k d') as [u'|] eqn:Eu'; [|reflexivity].
        rewrite (flat_path _ _ _ _ _ FL' Eu'). reflexivity.
Qed.

Definition agree (ok : list string -> Prop) (x : res val) (h : heap) (y : res val) (h' : heap)
  : Prop :=
  match x, y with
  | Ok v, Ok v' => forall p, ok p -> numeric (at_path h v p) = numeric (at_path h' v' p)
  | Err e, Err e' => e = e'
  | _, _ => False
  end.

Lemma delivered_agree sp x w h y w' h' :
  delivered sp x w h -> delivered sp y w' h' -> agree (steady sp) x h y h'.
Proof.
  unfold delivered, agree. destruct sp as [[x0|l]|e]; [intros -> ->| |intros -> ->; reflexivity].
  - intros [|k p] _; reflexivity.
  - intros (a & d & -> & (E & _) & F) (a' & d' & -> & (E' & _) & F') p ST.
    destruct p as [|k path]; [reflexivity|]. cbn [at_path]. rewrite E, E'. clear E E'.
    assert (forall k' f rx ry xo yo r, path = [k'] -> pget k l = Some (PShared f rx ry xo yo r) ->
       In k' volatile -> k' = "f_oxz" /\ f = true) as ST'.
    { intros k' f rx ry xo yo r -> Ep V. eapply (ST l k k'); eauto. }
    clear ST. revert d' F'. induction F as [|[k1 v1] [k2 p2] d l [E1 P1] F IH];
      intros d' F'; inversion F' as [|[k1' v1'] ? d2 l2 [E1' P1'] F2]; subst; [reflexivity|].
    cbn [fst snd] in *. subst k1 k1'. cbn [dget pget] in *.
    destruct (String.eqb k2 k) eqn:EK.
    + eapply ppart_num; eauto. intros k' f rx ry xo yo r Ep -> V. eapply ST'; eauto.
    + apply IH; auto.
Qed.

Theorem schedule_independent roots css evs i j cs c r :
  nth_error css i = Some cs -> nth_error cs j = Some c ->
  received (fst (play roots css evs)) i j = Some r ->
  agree (steady (call_spec roots c)) r (st_heap (snd (play roots css evs)))
    (fst (run_call roots c fresh)) (st_heap (snd (run_call roots c fresh))).
Proof.
  intros Ecs Ec Er. destruct (received_ok _ _ _ _ _ _ _ _ Ecs Ec Er) as (w & D).
  destruct (alone_ok roots c) as (w' & D'). eapply delivered_agree; eauto.
Qed.

(** * A thread that has the interpreter to itself for a while *)

Lemma replace_same {A} i (x : A) l : nth_error l i = Some x -> replace i x l = l.
Proof.
  revert i; induction l as [|y l IH]; intros [|i]; cbn; intros E; try discriminate.
  - congruence.
  - f_equal. auto.
Qed.
Lemma replace_twice {A} i (x y : A) l : replace i x (replace i y l) = replace i x l.
Proof. revert i; induction l as [|z l IH]; intros [|i]; cbn; f_equal; auto. Qed.
Lemma nth_replace_hit {A} i (x y : A) l :
  nth_error l i = Some y -> nth_error (replace i x l) i = Some x.
Proof. intros E. rewrite nth_replace, Nat.eqb_refl, E. reflexivity. Qed.

Lemma run_alone out ps i (p : prog val) : forall ts s,
  nth_error ts i = Some (mk_thread out (p :: ps)) ->
  exists n, fold_left happen (repeat (Run i) n) (ts, s)
    = (replace i (mk_thread out (Done (fst (solo p s)) :: ps)) ts, snd (solo p s)).
Proof.
  induction p as [r|g k IH]; intros ts s E.
  - exists 0%nat. cbn. now rewrite (replace_same _ _ _ E).
  - destruct (IH s (replace i (mk_thread out (k s :: ps)) ts) (g s)) as (n & En).
    { eapply nth_replace_hit, E. }
    exists (S n). cbn [repeat fold_left happen]. rewrite E, En, replace_twice. reflexivity.
Qed.

(** * How long a call takes *)

Fixpoint within {A} (n : nat) (p : prog A) {struct p} : Prop :=
  match p with
  | Done _ => True
  | Step g k => match n with
                | O => False
                | S n => forall s, within n (k s)
                end
  end.
Lemma within_le {A} (p : prog A) : forall n m, within n p -> (n <= m)%nat -> within m p.
Proof.
  induction p as [r|g k IH]; intros n m W L; [exact I|].
  destruct n; [destruct W|]. destruct m; [lia|]. cbn in *. intros s. apply (IH s n); [auto|lia].
Qed.
Lemma within_bind {A B} (p : prog A) (f : A -> prog B) m : forall n,
  within n p -> (forall a, within m (f a)) -> within (n + m) (pbind p f).
Proof.
  induction p as [[a|e]|g k IH]; intros n W K; cbn.
  - eapply within_le; [apply K|lia].
  - exact I.
  - destruct n; [destruct W|]. cbn in *. auto.
Qed.
Lemma within_atom {A} (m : M A) : within 1 (atom m).
Proof. cbn. auto. Qed.
Lemma within_lift {A} (r : res A) : within 0 (plift r).
Proof. exact I. Qed.
Lemma within_lru {V} (sel : state -> list (key * V)) put k body n :
  within n body -> within (S (n + 1)) (p_lru sel put k body).
Proof.
  intros W. cbn. intros s. destruct (find k (sel s)); [exact I|].
  apply within_bind; [exact W|]. intros v. apply within_atom.
Qed.

Ltac wbind n := eapply (within_bind _ _ _ n).
Lemma within_r_ol o a b c d : within 2 (p_r_ol o a b c d).
Proof. apply (within_lru _ _ _ _ 0), within_lift. Qed.
Lemma within_fet o A lz rx ry xo yo J Iw E G :
  within 4 (p_f_euler_torsion o A lz rx ry xo yo J Iw E G).
Proof.
  apply (within_lru _ _ _ _ 2). apply (within_bind _ _ 0 2); [apply within_r_ol|]. intros r.
  apply (within_bind _ _ 0 0); [apply within_lift|]. intros x.
  apply (within_bind _ _ 0 0); [apply within_lift|]. intros y. apply within_lift.
Qed.
Lemma within_foxz o A lx lz rx ry xo yo J Iw E G :
  within 10 (p_f_oxz o A lx lz rx ry xo yo J Iw E G).
Proof.
  apply (within_lru _ _ _ _ 8). apply (within_bind _ _ 6 2); [apply within_r_ol|]. intros r.
  apply (within_bind _ _ 6 0); [apply within_lift|]. intros x. cbv zeta.
  apply (within_bind _ _ 6 0); [apply within_lift|]. intros y.
  apply (within_bind _ _ 2 4); [apply within_fet|]. intros z.
  apply (within_bind _ _ 2 0); [apply within_lift|]. intros u.
  apply (within_bind _ _ 2 0); [apply within_lift|]. intros v.
  apply (within_bind _ _ 1 1); [apply within_atom|]. intros b. apply within_atom.
Qed.
Lemma within_flex A k l r fy fr ab : within 7 (p_s6_3_3_N_c A k l r fy fr ab).
Proof.
  unfold p_s6_3_3_N_c, p_s6_3_3_alpha_c. cbv zeta.
  apply (within_bind _ _ 7 0); [apply within_lift|]. intros ln.
  apply (within_bind _ _ 5 2).
  { apply (within_bind _ _ 2 0); [apply within_lift|]. intros x.
    apply (within_bind _ _ 1 1); [apply within_atom|]. intros b. apply within_atom. }
  intros ac.
  apply (within_bind _ _ 4 1); [apply within_atom|]. intros x.
  apply (within_bind _ _ 3 1); [apply within_atom|]. intros y.
  apply (within_bind _ _ 2 1); [apply within_atom|]. intros z.
  apply (within_bind _ _ 1 1); [apply within_atom|]. intros b. apply within_atom.
Qed.
Lemma within_double A lx lz rx ry xo yo J Iw E G sym :
  within 21 (p_f_oc_double_symmetric A lx lz rx ry xo yo J Iw E G sym).
Proof.
  unfold p_f_oc_double_symmetric.
  apply (within_bind _ _ 11 10); [apply within_foxz|]. intros x.
  apply (within_bind _ _ 7 4); [apply within_fet|]. intros y.
  apply (within_bind _ _ 6 1); [apply within_atom|]. intros z.
  apply (within_bind _ _ 5 1); [apply within_atom|]. intros u.
  apply (within_bind _ _ 4 1); [apply within_atom|]. intros v.
  apply (within_bind _ _ 3 1); [apply within_atom|]. intros w.
  apply (within_bind _ _ 2 1); [apply within_atom|]. intros s.
  apply (within_bind _ _ 2 0); [apply within_lift|]. intros t.
  apply (within_bind _ _ 1 1); [apply within_atom|]. intros b. apply within_atom.
Qed.
Lemma within_single A lx ly lz rx ry xo yo J Iw E G sym :
  within 17 (p_f_oc_single_symmetric A lx ly lz rx ry xo yo J Iw E G sym).
Proof.
  unfold p_f_oc_single_symmetric.
  apply (within_bind _ _ 17 0); [apply within_lift|]. intros _.
  destruct sym as [[|ax [|]]|]; try exact I. cbv zeta.
  apply (within_bind _ _ 7 10); [destruct (axis_is "x" ax); apply within_foxz|]. intros x.
  apply (within_bind _ _ 6 1); [apply within_atom|]. intros z.
  apply (within_bind _ _ 5 1); [apply within_atom|]. intros u.
  apply (within_bind _ _ 4 1); [apply within_atom|]. intros v.
  apply (within_bind _ _ 3 1); [apply within_atom|]. intros w.
  apply (within_bind _ _ 3 0); [apply within_lift|]. intros t.
  apply (within_bind _ _ 2 1); [apply within_atom|]. intros s.
  apply (within_bind _ _ 1 1); [apply within_atom|]. intros b. apply within_atom.
Qed.
Lemma within_point A lz rx ry xo yo J Iw E G :
  within 6 (p_f_oc_point_symmetric A lz rx ry xo yo J Iw E G).
Proof.
  unfold p_f_oc_point_symmetric.
  apply (within_bind _ _ 2 4); [apply within_fet|]. intros x.
  apply (within_bind _ _ 1 1); [apply within_atom|]. intros b. apply within_atom.
Qed.
Lemma within_unsym roots A lx ly lz rx ry xo yo J Iw E G :
  within 8 (p_f_oc_unsymmetric roots A lx ly lz rx ry xo yo J Iw E G).
Proof.
  unfold p_f_oc_unsymmetric.
  apply (within_bind _ _ 8 0); [apply within_lift|]. intros x.
  apply (within_bind _ _ 8 0); [apply within_lift|]. intros y.
  apply (within_bind _ _ 6 2); [apply within_r_ol|]. intros z.
  apply (within_bind _ _ 2 4); [apply within_fet|]. intros u.
  destruct (unsym_coeffs _ _ _ _ _ _) as [[[ka kb] kc] kd]. cbv zeta.
  apply (within_bind _ _ 2 0); [apply within_lift|]. intros v.
  apply (within_bind _ _ 1 1); [apply within_atom|]. intros b. apply within_atom.
Qed.
Lemma within_ncz roots q lx ly lz sym u :
  within 25 (p_s6_3_3_N_c_torsion roots q lx ly lz sym u).
Proof.
  unfold p_s6_3_3_N_c_torsion. cbv zeta. apply (within_bind _ _ 4 21).
  { unfold p_f_oc. apply (within_bind _ _ 21 0); [apply within_lift|]. intros [].
    - eapply within_le; [apply within_unsym|lia].
    - apply within_double.
    - eapply within_le; [apply within_point|lia].
    - eapply within_le; [apply within_single|lia]. }
  intros x.
  apply (within_bind _ _ 3 1); [apply within_atom|]. intros z.
  apply (within_bind _ _ 3 0); [apply within_lift|]. intros y.
  apply (within_bind _ _ 2 1); [apply within_atom|]. intros v.
  apply (within_bind _ _ 1 1); [apply within_atom|]. intros b. apply within_atom.
Qed.
Lemma within_nc roots g : within 49 (p_s6_1_1_Nc roots g).
Proof.
  unfold p_s6_1_1_Nc. cbv zeta.
  apply (within_bind _ _ 48 1); [apply within_atom|]. intros ib.
  destruct (n_buckling g); [|eapply within_le; [apply within_atom|lia]].
  apply (within_bind _ _ 41 7); [apply within_flex|]. intros x.
  apply (within_bind _ _ 34 7); [apply within_flex|]. intros y.
  apply (within_bind _ _ 33 1); [apply within_atom|]. intros z.
  apply (within_bind _ _ 32 1); [apply within_atom|]. intros u.
  apply (within_bind _ _ 31 1); [apply within_atom|]. intros v.
  apply (within_bind _ _ 30 1); [apply within_atom|]. intros w.
  apply (within_bind _ _ 29 1); [apply within_atom|]. intros s.
  destruct (n_torsion g); [|eapply within_le; [apply within_atom|lia]].
  apply (within_bind _ _ 4 25); [apply within_ncz|]. intros t.
  apply (within_bind _ _ 3 1); [apply within_atom|]. intros a.
  apply (within_bind _ _ 2 1); [apply within_atom|]. intros c.
  apply (within_bind _ _ 1 1); [apply within_atom|]. intros b. apply within_atom.
Qed.

Lemma within_call roots c : within 49 (p_call roots c).
Proof.
  assert (forall p : prog R, within 49 p -> within 49 (p_num p)) as N.
  { intros p W. apply (within_bind _ _ 0 49); [exact W|]. intros a. apply within_lift. }
  assert (forall p : prog nat, within 49 p -> within 49 (p_ref p)) as N'.
  { intros p W. apply (within_bind _ _ 0 49); [exact W|]. intros a. apply within_lift. }
  destruct c; cbn [p_call]; (apply N || apply N').
  - eapply within_le; [apply within_r_ol|lia].
  - eapply within_le; [apply within_fet|lia].
  - unfold p_s6_3_3_alpha_c. apply (within_bind _ _ 49 0); [apply within_lift|]. intros x.
    apply (within_bind _ _ 48 1); [apply within_atom|]. intros b.
    eapply within_le; [apply within_atom|lia].
  - eapply within_le; [apply within_flex|lia].
  - eapply within_le; [apply within_foxz|lia].
  - eapply within_le; [apply within_double|lia].
  - eapply within_le; [apply within_single|lia].
  - eapply within_le; [apply within_point|lia].
  - eapply within_le; [apply within_unsym|lia].
  - eapply within_le; [apply within_ncz|lia].
  - apply within_nc.
Qed.

(** Turns of thread [i]. *)
Fixpoint turns (i : nat) (evs : list tick) : nat :=
  match evs with
  | [] => 0
  | Run j :: r => if Nat.eqb j i then S (turns i r) else turns i r
  | Interrupt _ :: r => turns i r
  end.

Definition budget (b : nat) (th : thread) (n : nat) : Prop :=
  (List.length (t_out th) + List.length (t_rest th) = n)%nat
  /\ Forall (within 49) (t_rest th)
  /\ match t_rest th with
     | [] => True
     | p :: ps => exists m, within m p /\ (m + 1 + 50 * List.length ps <= b)%nat
     end.
Lemma budget_next b out p ps n o :
  budget b (mk_thread out (p :: ps)) n -> budget (b - 1) (mk_thread (app out [o]) ps) n.
Proof.
  unfold budget. cbn [t_out t_rest List.length]. intros (L & F & m & _ & B).
  split; [rewrite app_length; cbn; lia|].
  split; [now apply Forall_inv_tail in F|].
  destruct ps as [|p2 ps]; [exact I|]. exists 49%nat.
  split; [exact (Forall_inv (Forall_inv_tail F))|cbn in B; lia].
Qed.
Lemma budget_le b b' th n : budget b th n -> (b <= b')%nat -> budget b' th n.
Proof.
  intros (L & F & B) LE. split; [exact L|]. split; [exact F|].
  destruct (t_rest th); [exact I|]. destruct B as (m & W & B). exists m. split; [exact W|lia].
Qed.

Lemma happen_budget i ev l s th b n :
  nth_error l i = Some th -> budget b th n ->
  exists th', nth_error (fst (happen (l, s) ev)) i = Some th'
   /\ budget (b - turns i [ev]) th' n.
Proof.
  intros E B. destruct ev as [j|j]; cbn [happen turns].
  - destruct (Nat.eqb_spec j i) as [->|N].
    + rewrite E. destruct th as [out [|[r|g k] ps]].
      * exists (mk_thread out []). split; [exact E|]. destruct B as (L & F & _). split; [exact L|].
        split; [exact F|exact I].
      * cbn [fst]. eexists. split; [eapply nth_replace_hit, E|]. eapply budget_next, B.
      * cbn [fst]. eexists. split; [eapply nth_replace_hit, E|].
        destruct B as (L & F & m & W & B). cbn [t_out t_rest] in *.
        destruct m; [destruct W|]. cbn in W. split; [cbn in L |- *; lia|]. cbn [t_rest].
        split.
        -- constructor; [|now apply Forall_inv_tail in F].
           pose proof (Forall_inv F) as F1. cbn in F1. specialize (F1 s).
           eapply within_le; [exact F1|lia].
        -- exists m. split; [apply W|lia].
    + exists th. split; [|now rewrite Nat.sub_0_r].
      destruct (nth_error l j) as [[out [|[r|g k] ps]]|]; cbn [fst]; auto;
        rewrite nth_replace; destruct (Nat.eqb_spec j i); congruence.
  - rewrite Nat.sub_0_r. destruct (Nat.eqb_spec j i) as [->|N].
    + rewrite E. destruct th as [out [|p ps]]; cbn [fst]; [eauto|].
      eexists. split; [eapply nth_replace_hit, E|].
      eapply budget_le; [eapply budget_next, B|lia].
    + exists th. split; [|exact B].
      destruct (nth_error l j) as [[out [|p ps]]|]; cbn [fst]; auto;
        rewrite nth_replace; destruct (Nat.eqb_spec j i); congruence.
Qed.

Lemma fold_budget i n evs : forall ts th b,
  nth_error (fst ts) i = Some th -> budget b th n ->
  exists th', nth_error (fst (fold_left happen evs ts)) i = Some th'
   /\ budget (b - turns i evs) th' n.
Proof.
  induction evs as [|ev evs IH]; intros [l s] th b E B.
  - exists th. split; [exact E|]. cbn. now rewrite Nat.sub_0_r.
  - cbn [fold_left]. destruct (happen_budget i ev l s th b n E B) as (th' & E' & B').
    destruct (IH (happen (l, s) ev) th' _ E' B') as (th2 & E2 & B2).
    exists th2. split; [exact E2|]. eapply budget_le; [exact B2|].
    destruct ev as [j|j]; cbn [turns]; [destruct (Nat.eqb j i)|]; lia.
Qed.

Lemma fold_length evs : forall ts,
  List.length (fst (fold_left happen evs ts)) = List.length (fst ts).
Proof.
  induction evs as [|ev evs IH]; intros [l s]; [reflexivity|]. cbn [fold_left]. rewrite IH.
  destruct ev as [j|j]; cbn [happen];
    destruct (nth_error l j) as [[out [|[r|g k] ps]]|]; cbn [fst]; auto using length_replace.
Qed.

Theorem all_delivered roots css evs i cs :
  nth_error css i = Some cs -> (50 * List.length cs <= turns i evs)%nat ->
  exists th, nth_error (fst (play roots css evs)) i = Some th
   /\ t_rest th = [] /\ List.length (t_out th) = List.length cs.
Proof.
  intros E L. unfold play.
  assert (nth_error (fst (map (spawn roots) css, fresh)) i = Some (spawn roots cs)) as E0
    by (cbn [fst]; rewrite nth_error_map, E; reflexivity).
  destruct (fold_budget i (List.length cs) evs _ _ (50 * List.length cs) E0) as
    (th & E' & L' & F & B).
  { split; [cbn; rewrite map_length; lia|]. cbn [spawn t_rest]. split.
    - apply Forall_forall. intros p H. apply in_map_iff in H. destruct H as (c & <- & _).
      apply within_call.
    - destruct cs as [|c cs]; [exact I|]. exists 49%nat. cbn [map].
      split; [apply within_call|]. rewrite map_length. cbn [List.length]. lia. }
  exists th. split; [exact E'|]. destruct (t_rest th) as [|p ps].
  - split; [reflexivity|]. cbn in L'. lia.
  - destruct B as (m & _ & B). lia.
Qed.

(** A thread that nobody interrupts has an outcome for every call it is done with. *)
Lemma no_gaps i evs : ~ In (Interrupt i) evs -> forall ts,
  (forall th, nth_error (fst ts) i = Some th -> Forall (fun o => o <> None) (t_out th)) ->
  forall th, nth_error (fst (fold_left happen evs ts)) i = Some th ->
  Forall (fun o => o <> None) (t_out th).
Proof.
  induction evs as [|ev evs IH]; intros N ts K th E; [exact (K th E)|].
  cbn [fold_left] in E. apply (IH (fun H => N (or_intror H)) (happen ts ev)); [|exact E].
  clear th E. destruct ts as [l s]. cbn [fst] in K. intros th.
  destruct ev as [j|j]; cbn [happen].
  - destruct (nth_error l j) as [[out [|[r|g k] ps]]|] eqn:Ej; cbn [fst]; try exact (K th).
    + rewrite nth_replace. destruct (Nat.eqb_spec j i) as [->|_]; [|exact (K th)].
      rewrite Ej. intros E. injection E as <-. cbn. apply Forall_app. split; [exact (K _ Ej)|].
      constructor; [discriminate|constructor].
    + rewrite nth_replace. destruct (Nat.eqb_spec j i) as [->|_]; [|exact (K th)].
      rewrite Ej. intros E. injection E as <-. exact (K _ Ej).
  - destruct (Nat.eqb_spec j i) as [->|NE]; [elim N; now left|].
    destruct (nth_error l j) as [[out [|p ps]]|]; cbn [fst]; try exact (K th).
    rewrite nth_replace. destruct (Nat.eqb_spec j i); [contradiction|]. exact (K th).
Qed.

Theorem delivered_in_time roots css evs i j cs :
  nth_error css i = Some cs -> (j < List.length cs)%nat ->
  (50 * List.length cs <= turns i evs)%nat -> ~ In (Interrupt i) evs ->
  exists r, received (fst (play roots css evs)) i j = Some r.
Proof.
  intros E L T N. destruct (all_delivered roots css evs i cs E T) as (th & E1 & _ & L1).
  unfold received. rewrite E1.
  assert (Forall (fun o => o <> None) (t_out th)) as F.
  { apply (no_gaps i evs N (map (spawn roots) css, fresh)); [|exact E1].
    intros th0 E0. cbn [fst] in E0. rewrite nth_error_map, E in E0. injection E0 as <-.
    constructor. }
  destruct (nth_error (t_out th) j) as [o|] eqn:Eo.
  - rewrite Forall_forall in F. destruct o as [r|]; [eauto|].
    elim (F None); [|reflexivity]. eapply nth_error_In, Eo.
  - apply nth_error_None in Eo. lia.
Qed.
