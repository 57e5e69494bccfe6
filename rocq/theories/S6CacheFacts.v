(** Facts about the stateful S6 model: which dictionaries a call can change, and what the
    caches contain after any session. *)

From Coq Require Import ZArith Reals List Bool String Lia Lra.
From Verif Require Import Base Num RNum PyReal Symmetry S6 S6Cache.
Import ListNotations.
Open Scope R_scope.
Open Scope string_scope.

(** * Dictionaries and lists *)

Lemma dget_dset k k' v d :
  dget k (dset k' v d) = if String.eqb k' k then Some v else dget k d.
Proof.
  induction d as [|[k2 v2] d IH]; cbn [dset dget]; [reflexivity|].
  destruct (String.eqb_spec k2 k') as [->|N]; cbn [dget].
  - now destruct (String.eqb k' k).
  - rewrite IH. destruct (String.eqb_spec k2 k) as [->|N2]; [|reflexivity].
    destruct (String.eqb_spec k' k) as [->|]; [now elim N|reflexivity].
Qed.

Lemma dget_app k d d' :
  dget k (app d d') = match dget k d with Some v => Some v | None => dget k d' end.
Proof.
  induction d as [|[k2 v2] d IH]; cbn; [reflexivity|]. now destruct (String.eqb k2 k).
Qed.

Lemma dupdate_cons d k v kvs : dupdate d ((k, v) :: kvs) = dupdate (dset k v d) kvs.
Proof. reflexivity. Qed.
Lemma dupdate_nil d : dupdate d [] = d.
Proof. reflexivity. Qed.

Lemma nth_replace {A} (h : list A) a d b :
  nth_error (replace a d h) b =
  if Nat.eqb a b then (match nth_error h b with Some _ => Some d | None => None end)
  else nth_error h b.
Proof.
  revert a b; induction h as [|x h IH]; intros a b.
  - destruct a, b; cbn; auto. now destruct (Nat.eqb a b).
  - destruct a, b; cbn; auto.
Qed.

Lemma nth_alloc {A} (h : list A) d : nth_error (app h [d]) (List.length h) = Some d.
Proof. rewrite nth_error_app2 by lia. now rewrite Nat.sub_diag. Qed.
Lemma nth_old {A} (h : list A) d a x :
  nth_error h a = Some x -> nth_error (app h [d]) a = Some x.
Proof.
  intros E. rewrite nth_error_app1; auto. apply nth_error_Some. congruence.
Qed.

(** * What may change *)

(** The entries that later calls write into a dictionary made by [f_oxz]. *)
Definition volatile : list string :=
  ["f_oxz"; "f_oc"; "λ_c"; "f_n"; "N_cz_buckling"; "AS4600 Clause"; "Symmetry";
   "Axis of Symmetry"].

Definition fx_base (r_x r_y x_o y_o : R) (r : f_oxz_res) : dict :=
  [("β", VNum (fx_beta r)); ("f_ox", VNum (fx_f_ox r)); ("f_oz", VNum (fx_f_oz r));
   ("r_x", VNum r_x); ("r_y", VNum r_y); ("x_o", VNum x_o); ("y_o", VNum y_o);
   ("r_ol", VNum (fx_r_ol r))].

Definition fx_wf (r : f_oxz_res) : Prop :=
  fx_f_oxz r = 1 / (2 * fx_beta r) * ((fx_f_ox r + fx_f_oz r)
     - sqrt ((fx_f_ox r + fx_f_oz r) * (fx_f_ox r + fx_f_oz r)
             - 4 * fx_beta r * fx_f_ox r * fx_f_oz r)).

Definition str_or_none (v : option val) : Prop :=
  v = None \/ exists s, v = Some (VStr s).

Definition nonref (v : val) : bool := match v with VRef _ => false | _ => true end.
Definition flat (d : dict) : Prop := forall k v, dget k d = Some v -> nonref v = true.

(** A dictionary made by [f_oxz], as later calls leave it. *)
Definition good (r_x r_y x_o y_o : R) (r : f_oxz_res) (d : dict) : Prop :=
  fx_wf r
  /\ (forall k, ~ In k volatile -> dget k d = dget k (fx_base r_x r_y x_o y_o r))
  /\ (dget "f_oxz" d = None \/ dget "f_oxz" d = Some (VNum (fx_f_oxz r)))
  /\ str_or_none (dget "Axis of Symmetry" d)
  /\ flat d.

Definition rel (d d' : dict) : Prop :=
  (dget "β" d = None -> d' = d)
  /\ (forall k, ~ In k volatile -> dget k d' = dget k d)
  /\ (forall k, dget k d <> None -> dget k d' <> None)
  /\ (forall r_x r_y x_o y_o r, good r_x r_y x_o y_o r d -> good r_x r_y x_o y_o r d').

Definition hrel (h h' : heap) : Prop :=
  forall a d, nth_error h a = Some d -> exists d', nth_error h' a = Some d' /\ rel d d'.

Definition heap_ok (h : heap) : Prop :=
  forall a d, nth_error h a = Some d -> dget "β" d <> None ->
  exists r_x r_y x_o y_o r, good r_x r_y x_o y_o r d.

Lemma vol_dec k : {In k volatile} + {~ In k volatile}.
Proof. apply in_dec, string_dec. Qed.

Lemma beta_stable : ~ In "β" volatile.
Proof. cbn. intuition discriminate. Qed.

Lemma rel_refl d : rel d d.
Proof. repeat split; auto; apply H. Qed.

Lemma rel_trans d1 d2 d3 : rel d1 d2 -> rel d2 d3 -> rel d1 d3.
Proof.
  intros (A1 & A2 & A3 & A4) (B1 & B2 & B3 & B4). repeat split.
  - intros E. rewrite B1; [now apply A1|]. rewrite A2; auto using beta_stable.
  - intros k N. rewrite B2; auto.
  - intros k N. auto.
  - apply (B4 r_x r_y x_o y_o), A4, H.
  - apply (B4 r_x r_y x_o y_o), A4, H.
  - apply (B4 r_x r_y x_o y_o), A4, H.
  - apply (B4 r_x r_y x_o y_o r), A4, H.
  - apply (B4 r_x r_y x_o y_o r), A4, H.
Qed.

Lemma hrel_refl h : hrel h h.
Proof. intros a d E. eauto using rel_refl. Qed.
Lemma hrel_trans h1 h2 h3 : hrel h1 h2 -> hrel h2 h3 -> hrel h1 h3.
Proof.
  intros A B a d E. destruct (A a d E) as (d2 & E2 & R2). destruct (B a d2 E2) as (d3 & E3 & R3).
  eauto using rel_trans.
Qed.
Lemma hrel_length h h' : hrel h h' -> (List.length h <= List.length h')%nat.
Proof.
  intros H. destruct (Nat.le_gt_cases (List.length h) (List.length h')) as [L|L]; auto.
  destruct (nth_error h (List.length h')) as [d|] eqn:E.
  - destruct (H _ _ E) as (d' & E' & _).
    assert (nth_error h' (List.length h') <> None) as N by congruence.
    apply nth_error_Some in N. lia.
  - apply nth_error_None in E. lia.
Qed.
Lemma hrel_plain h h' a d :
  hrel h h' -> nth_error h a = Some d -> dget "β" d = None -> nth_error h' a = Some d.
Proof.
  intros H E N. destruct (H a d E) as (d' & E' & R1 & _). rewrite E'. f_equal. auto.
Qed.
Lemma hrel_good h h' a d rx ry xo yo r :
  hrel h h' -> nth_error h a = Some d -> good rx ry xo yo r d ->
  exists d', nth_error h' a = Some d' /\ good rx ry xo yo r d'.
Proof.
  intros H E G. destruct (H a d E) as (d' & E' & _ & _ & _ & R4). eauto.
Qed.
Lemma hrel_alloc h0 h d : hrel h0 h -> hrel h0 (app h [d]).
Proof.
  intros H a x E. destruct (H a x E) as (d' & E' & R'). eauto using nth_old.
Qed.
Lemma heap_ok_alloc h d :
  heap_ok h -> (dget "β" d <> None -> exists rx ry xo yo r, good rx ry xo yo r d) ->
  heap_ok (app h [d]).
Proof.
  intros H HD a x E B. destruct (Nat.lt_ge_cases a (List.length h)) as [L|L].
  - rewrite nth_error_app1 in E by auto. eauto.
  - rewrite nth_error_app2 in E by auto. destruct (a - List.length h)%nat as [|n].
    + cbn in E. injection E as <-. auto.
    + cbn in E. destruct n; discriminate E.
Qed.

(** Writing to a dictionary that was not there before. *)
Lemma hrel_replace_new h0 h a d :
  hrel h0 h -> (List.length h0 <= a)%nat -> hrel h0 (replace a d h).
Proof.
  intros H L b x E. destruct (H b x E) as (d' & E' & R').
  assert (b < List.length h0)%nat by (apply nth_error_Some; congruence).
  exists d'. split; auto. rewrite nth_replace.
  destruct (Nat.eqb_spec a b); [lia|exact E'].
Qed.
Lemma hrel_replace_rel h a d d' :
  nth_error h a = Some d -> rel d d' -> hrel h (replace a d' h).
Proof.
  intros E R' b x Eb. rewrite nth_replace. destruct (Nat.eqb_spec a b) as [<-|N].
  - rewrite E. exists d'. split; auto. congruence.
  - eauto using rel_refl.
Qed.
Lemma heap_ok_replace h a d :
  heap_ok h -> (dget "β" d <> None -> exists rx ry xo yo r, good rx ry xo yo r d) ->
  heap_ok (replace a d h).
Proof.
  intros H HD b x E B. rewrite nth_replace in E. destruct (Nat.eqb_spec a b) as [<-|N].
  - destruct (nth_error h a); [|discriminate E]. injection E as <-. auto.
  - eauto.
Qed.

(** * The invariant of the state *)

Definition pair_ok (h : heap) (a : nat) rx ry xo yo r : Prop :=
  exists b d, nth_error h a = Some [("Intermediate", VRef b); ("f_oxz", VNum (fx_f_oxz r))]
   /\ nth_error h b = Some d /\ good rx ry xo yo r d.

Record inv (s : state) : Prop := mk_inv {
  inv_rol : forall k v, In (k, v) (st_rol s) ->
    exists o rx ry xo yo, k = (o, [rx; ry; xo; yo]) /\ v = r_ol rx ry xo yo;
  inv_fet : forall k v, In (k, v) (st_fet s) ->
    exists o A lz rx ry xo yo J Iw E G, k = (o, [A; lz; rx; ry; xo; yo; J; Iw; E; G])
     /\ f_euler_torsion A lz rx ry xo yo J Iw E G = Ok v;
  inv_foxz : forall k a, In (k, a) (st_foxz s) ->
    exists o A lx lz rx ry xo yo J Iw E G r,
      k = (o, [A; lx; lz; rx; ry; xo; yo; J; Iw; E; G])
     /\ f_oxz A lx lz rx ry xo yo J Iw E G = Ok r /\ pair_ok (st_heap s) a rx ry xo yo r;
  inv_heap : heap_ok (st_heap s) }.

Lemma inv_fresh : inv fresh.
Proof.
  constructor; cbn; try tauto. intros a d E. destruct a; discriminate E.
Qed.

Lemma pair_ok_hrel h h' a rx ry xo yo r :
  hrel h h' -> pair_ok h a rx ry xo yo r -> pair_ok h' a rx ry xo yo r.
Proof.
  intros H (b & d & E1 & E2 & G).
  destruct (hrel_good _ _ _ _ _ _ _ _ _ H E2 G) as (d' & E' & G').
  exists b, d'. repeat split; auto; try apply G'. now apply (hrel_plain h).
Qed.

Lemma inv_set_heap s h :
  inv s -> hrel (st_heap s) h -> heap_ok h -> inv (set_heap h s).
Proof.
  intros [I1 I2 I3 I4] H HH. constructor; cbn; auto.
  intros k a Hin. destruct (I3 k a Hin) as
    (o & A & lx & lz & rx & ry & xo & yo & J & Iw & E & G & r & E1 & E2 & P).
  exists o, A, lx, lz, rx, ry, xo, yo, J, Iw, E, G, r. eauto using pair_ok_hrel.
Qed.

(** * Running a call *)

(** From a state whose heap extends [h0]: the invariant holds afterwards, [h0]'s
    dictionaries changed only as [rel] allows, and [Q] holds of outcome and heap. *)
Definition ran {A} (h0 : heap) (m : M A) (s : state) (Q : res A -> heap -> Prop) : Prop :=
  inv (snd (m s)) /\ hrel h0 (st_heap (snd (m s))) /\ Q (fst (m s)) (st_heap (snd (m s))).

Lemma ran_bind {A B} h0 (m : M A) (f : A -> M B) s Q :
  ran h0 m s (fun o h => match o with
     | Ok a => forall s', inv s' -> hrel h0 (st_heap s') -> st_heap s' = h -> ran h0 (f a) s' Q
     | Err e => Q (Err e) h
     end) -> ran h0 (mbind m f) s Q.
Proof.
  unfold ran, mbind. intros (I & H & K). destruct (m s) as [[a|e] s']; cbn in *; auto.
Qed.

Lemma ran_base {A} h0 (m : M A) s (Q : res A -> heap -> Prop) :
  hrel h0 (st_heap s) -> ran (st_heap s) m s Q ->
  ran h0 m s (fun o h => hrel (st_heap s) h /\ Q o h).
Proof. unfold ran. intros H (I & H2 & K). eauto using hrel_trans. Qed.

Lemma ran_mono {A} h0 (m : M A) s (P Q : res A -> heap -> Prop) :
  ran h0 m s P -> (forall o h, P o h -> Q o h) -> ran h0 m s Q.
Proof. unfold ran. intros (I & H2 & K) L. auto. Qed.

Lemma ran_ret {A} h0 (a : A) s (Q : res A -> heap -> Prop) :
  inv s -> hrel h0 (st_heap s) -> Q (Ok a) (st_heap s) -> ran h0 (ret a) s Q.
Proof. unfold ran; cbn; auto. Qed.
Lemma ran_lift {A} h0 (r : res A) s (Q : res A -> heap -> Prop) :
  inv s -> hrel h0 (st_heap s) -> Q r (st_heap s) -> ran h0 (lift r) s Q.
Proof. unfold ran; cbn; auto. Qed.

Lemma ran_alloc h0 d s (Q : res nat -> heap -> Prop) :
  inv s -> hrel h0 (st_heap s) ->
  (dget "β" d <> None -> exists rx ry xo yo r, good rx ry xo yo r d) ->
  Q (Ok (List.length (st_heap s))) (app (st_heap s) [d]) ->
  ran h0 (alloc d) s Q.
Proof.
  intros I H HD K. unfold ran; cbn. split; [|split; [now apply hrel_alloc|exact K]].
  apply inv_set_heap; auto using hrel_alloc, hrel_refl.
  apply heap_ok_alloc; auto. apply I.
Qed.

Lemma ran_read h0 a d s (Q : res dict -> heap -> Prop) :
  inv s -> hrel h0 (st_heap s) -> nth_error (st_heap s) a = Some d ->
  Q (Ok d) (st_heap s) -> ran h0 (read a) s Q.
Proof. intros I H E K. unfold ran, read. rewrite E. cbn. auto. Qed.

Lemma ran_get_num h0 a k d x s (Q : res R -> heap -> Prop) :
  inv s -> hrel h0 (st_heap s) -> nth_error (st_heap s) a = Some d ->
  dget k d = Some (VNum x) -> Q (Ok x) (st_heap s) -> ran h0 (get_num a k) s Q.
Proof.
  intros I H E G K. unfold get_num. apply ran_bind. apply (ran_read _ _ d); auto.
  intros s' I' H' E'. rewrite G. apply ran_ret; auto. now rewrite E'.
Qed.
Lemma ran_get_ref h0 a k d b s (Q : res nat -> heap -> Prop) :
  inv s -> hrel h0 (st_heap s) -> nth_error (st_heap s) a = Some d ->
  dget k d = Some (VRef b) -> Q (Ok b) (st_heap s) -> ran h0 (get_ref a k) s Q.
Proof.
  intros I H E G K. unfold get_ref. apply ran_bind. apply (ran_read _ _ d); auto.
  intros s' I' H' E'. rewrite G. apply ran_ret; auto. now rewrite E'.
Qed.

(** * Updates *)

Definition kv_ok (r : f_oxz_res) (kv : string * val) : Prop :=
  (In (fst kv) volatile
   /\ (fst kv = "f_oxz" -> snd kv = VNum (fx_f_oxz r))
   /\ (fst kv = "Axis of Symmetry" -> exists s, snd kv = VStr s)
   /\ nonref (snd kv) = true)
  \/ (fst kv = "f_oz" /\ snd kv = VNum (fx_f_oz r)).

Lemma good_unique rx ry xo yo r rx' ry' xo' yo' r' d :
  good rx ry xo yo r d -> good rx' ry' xo' yo' r' d ->
  fx_f_oxz r = fx_f_oxz r' /\ fx_f_oz r = fx_f_oz r'.
Proof.
  intros (W & B & _) (W' & B' & _).
  assert (forall k, ~ In k volatile -> dget k (fx_base rx ry xo yo r)
            = dget k (fx_base rx' ry' xo' yo' r')) as EQ.
  { intros k N. rewrite <- B, <- B'; auto. }
  assert (fx_beta r = fx_beta r') as E1.
  { assert (Some (VNum (fx_beta r)) = Some (VNum (fx_beta r'))) as E; [|now injection E].
    apply (EQ "β"). cbn; intuition discriminate. }
  assert (fx_f_ox r = fx_f_ox r') as E2.
  { assert (Some (VNum (fx_f_ox r)) = Some (VNum (fx_f_ox r'))) as E; [|now injection E].
    apply (EQ "f_ox"). cbn; intuition discriminate. }
  assert (fx_f_oz r = fx_f_oz r') as E3.
  { assert (Some (VNum (fx_f_oz r)) = Some (VNum (fx_f_oz r'))) as E; [|now injection E].
    apply (EQ "f_oz"). cbn; intuition discriminate. }
  split; auto. unfold fx_wf in *. rewrite W, W', E1, E2, E3. reflexivity.
Qed.

Lemma dset_good rx ry xo yo r d k v :
  good rx ry xo yo r d -> kv_ok r (k, v) -> good rx ry xo yo r (dset k v d).
Proof.
  intros (W & B & F & A & FL) [(V & HF & HA & HN)|[E1 E2]]; cbn [fst snd] in *.
  - split; [exact W|]. split; [|split; [|split]].
    + intros k' N. rewrite dget_dset. destruct (String.eqb_spec k k') as [->|]; auto.
      contradiction.
    + rewrite dget_dset. destruct (String.eqb_spec k "f_oxz") as [E|]; auto.
      right. now rewrite HF.
    + rewrite dget_dset. destruct (String.eqb_spec k "Axis of Symmetry") as [E|]; auto.
      right. destruct (HA E) as (s & ->). eauto.
    + intros k' v'. rewrite dget_dset. destruct (String.eqb k k'); [congruence|apply FL].
  - subst k v. split; [exact W|]. split; [|split; [|split]].
    + intros k' N. rewrite dget_dset. destruct (String.eqb_spec "f_oz" k') as [<-|]; auto.
    + rewrite dget_dset. cbn. auto.
    + rewrite dget_dset. cbn. auto.
    + intros k' v'. rewrite dget_dset. destruct (String.eqb "f_oz" k'); [|apply FL].
      intros X. injection X as <-. reflexivity.
Qed.

Lemma dset_rel rx ry xo yo r d k v :
  good rx ry xo yo r d -> kv_ok r (k, v) -> rel d (dset k v d).
Proof.
  intros G K.
  assert (dget "β" d = Some (VNum (fx_beta r))) as EB.
  { destruct G as (_ & B & _). rewrite B by apply beta_stable. reflexivity. }
  split; [|split; [|split]].
  - congruence.
  - intros k' N. rewrite dget_dset. destruct (String.eqb_spec k k') as [->|]; auto.
    destruct K as [(V & _)|[E1 E2]]; cbn [fst snd] in *; [contradiction|]. subst.
    destruct G as (_ & B & _). rewrite B by exact N. reflexivity.
  - intros k' N. rewrite dget_dset. destruct (String.eqb k k'); [discriminate|exact N].
  - intros rx' ry' xo' yo' r' G'. apply dset_good; auto.
    destruct (good_unique _ _ _ _ _ _ _ _ _ _ _ G G') as [E1 E2].
    unfold kv_ok in *. now rewrite <- E1, <- E2.
Qed.

Lemma dupdate_rel rx ry xo yo r kvs : forall d,
  good rx ry xo yo r d -> Forall (kv_ok r) kvs ->
  rel d (dupdate d kvs) /\ good rx ry xo yo r (dupdate d kvs).
Proof.
  induction kvs as [|[k v] kvs IH]; intros d G F.
  - split; [apply rel_refl|exact G].
  - apply Forall_inv in F as F1. apply Forall_inv_tail in F.
    pose proof (dset_good _ _ _ _ _ _ _ _ G F1) as G'.
    destruct (IH _ G' F) as [R' G2]. split; [|exact G2].
    eapply rel_trans; [|exact R']. eapply dset_rel; eauto.
Qed.

(** Updating a dictionary made by [f_oxz]. *)
Lemma ran_update h0 a d kvs rx ry xo yo r s (Q : res unit -> heap -> Prop) :
  inv s -> hrel h0 (st_heap s) -> nth_error (st_heap s) a = Some d ->
  good rx ry xo yo r d -> Forall (kv_ok r) kvs ->
  Q (Ok tt) (replace a (dupdate d kvs) (st_heap s)) -> ran h0 (update a kvs) s Q.
Proof.
  intros I H E G F K. destruct (dupdate_rel rx ry xo yo r kvs d G F) as [R' G'].
  pose proof (hrel_replace_rel _ _ _ _ E R') as HR.
  unfold update. apply ran_bind. apply (ran_read _ _ d); auto.
  intros s' I' H' E'. unfold ran; cbn. rewrite E'. split; [|split].
  - apply inv_set_heap; [exact I'|rewrite E'; exact HR|].
    apply heap_ok_replace; [apply (inv_heap _ I)|]. intros _. exists rx, ry, xo, yo, r. exact G'.
  - exact (hrel_trans _ _ _ H HR).
  - exact K.
Qed.

(** Updating a dictionary that appeared during the current call. *)
Lemma pair_ok_other h a d rx ry xo yo r b x :
  nth_error h a = Some x -> dget "β" x = None -> dget "f_oxz" x = None ->
  pair_ok h b rx ry xo yo r -> pair_ok (replace a d h) b rx ry xo yo r.
Proof.
  intros E NB NF (c & e & E1 & E2 & G). exists c, e. rewrite !nth_replace.
  destruct (Nat.eqb_spec a b) as [->|N1].
  - rewrite E in E1. injection E1 as E1. subst x. discriminate NF.
  - destruct (Nat.eqb_spec a c) as [->|N2]; auto.
    exfalso. rewrite E in E2. injection E2 as E2. subst x.
    destruct G as (_ & B & _). rewrite B in NB by apply beta_stable. discriminate NB.
Qed.

Lemma dget_dupdate_other k kvs : forall d,
  ~ In k (map fst kvs) -> dget k (dupdate d kvs) = dget k d.
Proof.
  induction kvs as [|[k' v] kvs IH]; intros d N; [reflexivity|].
  rewrite dupdate_cons, IH by (intros C; apply N; now right).
  rewrite dget_dset. destruct (String.eqb_spec k' k) as [->|]; auto.
  elim N. now left.
Qed.

Lemma ran_update_new h0 a d kvs s (Q : res unit -> heap -> Prop) :
  inv s -> hrel h0 (st_heap s) -> nth_error (st_heap s) a = Some d ->
  (List.length h0 <= a)%nat -> dget "β" d = None -> dget "f_oxz" d = None ->
  ~ In "β" (map fst kvs) ->
  Q (Ok tt) (replace a (dupdate d kvs) (st_heap s)) -> ran h0 (update a kvs) s Q.
Proof.
  intros I H E L NB NF NK K.
  unfold update. apply ran_bind. apply (ran_read _ _ d); auto.
  intros s' I' H' E'. unfold ran; cbn. rewrite E'. split; [|split].
  - destruct I' as [I1 I2 I3 I4]. constructor; cbn; auto.
    + intros k b Hin. destruct (I3 k b Hin) as
        (o & A & lx & lz & rx & ry & xo & yo & J & Iw & Em & G & r & E1 & E2 & P).
      exists o, A, lx, lz, rx, ry, xo, yo, J, Iw, Em, G, r. repeat split; auto.
      rewrite E' in P. eapply pair_ok_other; eauto.
    + rewrite E' in I4. apply heap_ok_replace; auto. intros C. elim C.
      rewrite dget_dupdate_other by exact NK. exact NB.
  - now apply hrel_replace_new.
  - exact K.
Qed.

(** * The caches *)

Lemma reals_eqb_true a b : reals_eqb a b = true -> a = b.
Proof.
  revert b; induction a as [|x a IH]; destruct b as [|y b]; cbn; intros H;
    try reflexivity; try discriminate H.
  apply andb_prop in H. destruct H as [H1 H2]. f_equal; auto.
  unfold Reqb in H1. destruct (Req_EM_T x y); [assumption|discriminate H1].
Qed.
Lemma key_eqb_true a b : key_eqb a b = true -> a = b.
Proof.
  destruct a as [n a], b as [m b]. unfold key_eqb; cbn. intros H.
  apply andb_prop in H. destruct H as [H1 H2]. apply Nat.eqb_eq in H1.
  apply reals_eqb_true in H2. congruence.
Qed.
Lemma find_in {V} k (c : list (key * V)) v : find k c = Some v -> In (k, v) c.
Proof.
  induction c as [|[k' v'] c IH]; cbn; [discriminate|].
  destruct (key_eqb k' k) eqn:E; intros H.
  - apply key_eqb_true in E. left. congruence.
  - right. auto.
Qed.
Lemma in_without {V} k (c : list (key * V)) x : In x (without k c) -> In x c.
Proof. unfold without. intros H. apply filter_In in H. tauto. Qed.
Lemma in_firstn {A} n (l : list A) x : In x (firstn n l) -> In x l.
Proof.
  revert l; induction n as [|n IH]; intros [|y l]; cbn; try tauto. firstorder.
Qed.

Lemma m_r_ol_ran o rx ry xo yo s :
  inv s -> ran (st_heap s) (m_r_ol o rx ry xo yo) s
    (fun r h => r = Ok (r_ol rx ry xo yo) /\ h = st_heap s).
Proof.
  intros I. unfold m_r_ol, lru, ran.
  destruct (find (o, [rx; ry; xo; yo]) (st_rol s)) as [v|] eqn:F; cbn.
  - apply find_in in F. destruct (inv_rol s I _ _ F) as (o' & a & b & c & d & E1 & E2).
    injection E1 as -> -> -> -> ->. split; [|split; [apply hrel_refl|now rewrite E2]].
    destruct I as [I1 I2 I3 I4]. constructor; cbn; auto.
    intros k w [E|E]; [|apply in_without in E; auto].
    injection E as <- <-. exists o', a, b, c, d. auto.
  - split; [|split; [apply hrel_refl|auto]].
    destruct I as [I1 I2 I3 I4]. constructor; cbn; auto.
    intros k w [E|E].
    + injection E as <- <-. exists o, rx, ry, xo, yo. auto.
    + apply I1. exact (in_firstn 127 _ _ E).
Qed.

Lemma m_f_euler_torsion_ran o A lz rx ry xo yo J Iw E G s :
  inv s -> ran (st_heap s) (m_f_euler_torsion o A lz rx ry xo yo J Iw E G) s
    (fun r h => r = f_euler_torsion A lz rx ry xo yo J Iw E G /\ h = st_heap s).
Proof.
  intros I.
  pose (body := do r_o <- m_r_ol 0 rx ry xo yo;
     do a <- lift (rdiv (G * J) (A * r_o * r_o));
     do b <- lift (rdiv (PI * PI * E * Iw) (G * J * (lz * lz)));
     ret (a * (1 + b))%R).
  assert (ran (st_heap s) body s (fun r h => r = f_euler_torsion A lz rx ry xo yo J Iw E G
            /\ h = st_heap s)) as HB.
  { unfold body, f_euler_torsion. apply ran_bind.
    eapply ran_mono; [now apply m_r_ol_ran|]. cbn. intros o' h [-> ->] s1 I1 H1 E1.
    apply ran_bind, ran_lift; auto.
    destruct (rdiv (G * J) _) as [a|e]; cbn [bind]; [|auto].
    intros s2 I2 H2 E2. apply ran_bind, ran_lift; auto.
    destruct (rdiv (PI * PI * E * Iw) _) as [b|e]; cbn [bind]; [|split; congruence].
    intros s3 I3 H3 E3. apply ran_ret; auto. split; congruence. }
  unfold m_f_euler_torsion, lru, ran. fold body.
  destruct (find _ (st_fet s)) as [v|] eqn:F; cbn [fst snd].
  - apply find_in in F. destruct (inv_fet s I _ _ F) as
      (o' & A' & lz' & rx' & ry' & xo' & yo' & J' & Iw' & E' & G' & E1 & E2).
    injection E1 as -> -> -> -> -> -> -> -> -> -> ->.
    split; [|split; [apply hrel_refl|now rewrite E2]].
    destruct I as [I1 I2 I3 I4]. constructor; cbn; auto.
    intros k w [Ek|Ek]; [|apply in_without in Ek; auto].
    injection Ek as <- <-. exists o', A', lz', rx', ry', xo', yo', J', Iw', E', G'. auto.
  - unfold ran in HB. destruct (body s) as [[v|e] s'] eqn:EB; cbn [fst snd] in *; [|exact HB].
    destruct HB as (I' & H' & EV & EH). split; [|split; [exact H'|auto]].
    destruct I' as [I1 I2 I3 I4]. constructor; cbn; auto.
    intros k w [Ek|Ek].
    + injection Ek as <- <-. exists o, A, lz, rx, ry, xo, yo, J, Iw, E, G. auto.
    + apply I2. exact (in_firstn 127 _ _ Ek).
Qed.

Lemma f_oxz_wf A lx lz rx ry xo yo J Iw E G r :
  f_oxz A lx lz rx ry xo yo J Iw E G = Ok r -> fx_wf r.
Proof.
  unfold f_oxz. destruct (rdiv xo _) as [q|]; cbn [bind]; [|discriminate].
  destruct (f_euler _ _ _) as [fox|]; cbn [bind]; [|discriminate].
  destruct (f_euler_torsion _ _ _ _ _ _ _ _ _ _) as [foz|]; cbn [bind]; [|discriminate].
  unfold rdiv. destruct (Req_EM_T _ 0); cbn [bind]; [discriminate|].
  unfold rroot. destruct (Rlt_dec _ 0); cbn [bind]; [discriminate|].
  intros X. injection X as <-. unfold fx_wf; cbn. reflexivity.
Qed.

Lemma fx_base_good rx ry xo yo r : fx_wf r -> good rx ry xo yo r (fx_base rx ry xo yo r).
Proof.
  intros W. split; [exact W|]. split; [auto|]. split; [now left|]. split; [now left|].
  intros k v. cbn [fx_base dget].
  repeat (match goal with |- context [String.eqb ?a k] => destruct (String.eqb a k) end;
          [intros X; injection X as <-; reflexivity|]). discriminate.
Qed.

Lemma m_f_oxz_ran o A lx lz rx ry xo yo J Iw E G s :
  inv s -> ran (st_heap s) (m_f_oxz o A lx lz rx ry xo yo J Iw E G) s
    (fun out h => match f_oxz A lx lz rx ry xo yo J Iw E G with
                  | Ok r => exists a, out = Ok a /\ pair_ok h a rx ry xo yo r
                  | Err e => out = Err e
                  end).
Proof.
  intros I. unfold m_f_oxz.
  match goal with |- ran _ (lru _ _ _ ?b) _ _ => set (body := b) end.
  assert (ran (st_heap s) body s
    (fun out h => match f_oxz A lx lz rx ry xo yo J Iw E G with
                  | Ok r => exists a, out = Ok a /\ pair_ok h a rx ry xo yo r
                  | Err e => out = Err e
                  end)) as HB.
  { pose proof (f_oxz_wf A lx lz rx ry xo yo J Iw E G) as W.
    unfold body. unfold f_oxz in *. apply ran_bind.
    eapply ran_mono; [now apply m_r_ol_ran|]. cbn beta. intros o' h [-> ->] s1 I1 H1 E1.
    apply ran_bind, ran_lift; auto.
    destruct (rdiv xo _) as [q|]; cbn [bind] in *; [|reflexivity].
    intros s2 I2 H2 E2. apply ran_bind, ran_lift; auto.
    destruct (f_euler _ _ _) as [fox|]; cbn [bind] in *; [|reflexivity].
    intros s3 I3 H3 E3. apply ran_bind.
    eapply ran_mono; [apply ran_base; [exact H3|now apply m_f_euler_torsion_ran]|].
    cbn beta. intros o' h (_ & -> & ->).
    destruct (f_euler_torsion _ _ _ _ _ _ _ _ _ _) as [foz|]; cbn [bind] in *; [|reflexivity].
    intros s4 I4 H4 E4. apply ran_bind, ran_lift; auto.
    destruct (rdiv 1 _) as [hh|]; cbn [bind] in *; [|reflexivity].
    intros s5 I5 H5 E5. apply ran_bind, ran_lift; auto.
    destruct (rroot _) as [rt|]; cbn [bind] in *; [|reflexivity].
    intros s6 I6 H6 E6. specialize (W _ eq_refl).
    set (r := mk_foxz _ _ _ _ _) in *.
    pose proof (fx_base_good rx ry xo yo r W) as GB.
    apply ran_bind. apply ran_alloc; auto.
    { intros _. exists rx, ry, xo, yo, r. exact GB. }
    intros s7 I7 H7 E7. apply ran_alloc; auto.
    { cbn. congruence. }
    eexists. split; [reflexivity|]. unfold pair_ok. rewrite E7.
    exists (List.length (st_heap s6)), (fx_base rx ry xo yo r). split; [|split].
    - apply nth_alloc.
    - apply nth_old, nth_alloc.
    - exact GB. }
  unfold lru, ran.
  destruct (find _ (st_foxz s)) as [v|] eqn:F; cbn [fst snd].
  - apply find_in in F. destruct (inv_foxz s I _ _ F) as
      (o' & A' & lx' & lz' & rx' & ry' & xo' & yo' & J' & Iw' & E' & G' & r & E1 & E2 & P).
    injection E1 as -> -> -> -> -> -> -> -> -> -> -> ->.
    split; [|split; [apply hrel_refl|]].
    + destruct I as [I1 I2 I3 I4]. constructor; cbn; auto.
      intros k w [Ek|Ek]; [|apply in_without in Ek; auto].
      injection Ek as <- <-.
      exists o', A', lx', lz', rx', ry', xo', yo', J', Iw', E', G', r. auto.
    + rewrite E2. eauto.
  - unfold ran in HB. destruct (body s) as [[v|e] s'] eqn:EB; cbn [fst snd] in *; [|exact HB].
    destruct HB as (I' & H' & Q). split; [|split; [exact H'|exact Q]].
    destruct I' as [I1 I2 I3 I4]. constructor; cbn; auto.
    intros k w [Ek|Ek].
    + injection Ek as <- <-. destruct (f_oxz _ _ _ _ _ _ _ _ _ _ _) as [r|] eqn:EF;
        [|discriminate Q].
      destruct Q as (a & Ea & P). injection Ea as <-.
      exists o, A, lx, lz, rx, ry, xo, yo, J, Iw, E, G, r. auto.
    + apply I3. exact (in_firstn 127 _ _ Ek).
Qed.
