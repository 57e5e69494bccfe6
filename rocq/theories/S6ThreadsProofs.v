(** What each call of the threaded S6 model returns, whatever other threads do meanwhile. *)

From Coq Require Import ZArith Reals List Bool String Lia Lra.
From Verif Require Import Base Num RNum PyReal Symmetry S6 S6Cache S6CacheFacts S6CacheProofs
  S6CacheNc S6Threads S6ThreadsFacts.
Import ListNotations.
Open Scope R_scope.
Open Scope string_scope.

(** An entry of a result: a number, a dictionary with exactly these entries, or one made by
    [f_oxz] that other calls may be writing to. *)
Inductive part : Type :=
| PLeaf (x : R)
| PExact (E : dict)
| PShared (f : bool) (rx ry xo yo : R) (r : f_oxz_res).

Definition add_part (kvs : dict) (p : part) : part :=
  match p with PExact E => PExact (dupdate E kvs) | _ => p end.

Definition wpart (t : nat) (w : own) (h : heap) (b : nat) (p : part) : Prop :=
  match p with
  | PLeaf _ => False
  | PExact E => mine t w h b E /\ flat E
  | PShared f rx ry xo yo r => goodat f w h b rx ry xo yo r
  end.
Definition rpart (t : nat) (w : own) (h : heap) (v : val) (p : part) : Prop :=
  match p with
  | PLeaf x => v = VNum x
  | PExact E => exists b, v = VRef b /\ (pub w h b E \/ mine t w h b E) /\ flat E
  | PShared f rx ry xo yo r => exists b, v = VRef b /\ goodat f w h b rx ry xo yo r
  end.

Lemma wpart_rely t w h w' h' b p : rely t w h w' h' -> wpart t w h b p -> wpart t w' h' b p.
Proof.
  intros R'. destruct p; cbn; auto.
  - intros [M F]. split; [eapply mine_rely; eauto|exact F].
  - apply (good_rely t). exact R'.
Qed.
Lemma rpart_rely t w h w' h' v p : rely t w h w' h' -> rpart t w h v p -> rpart t w' h' v p.
Proof.
  intros R'. destruct p; cbn; auto.
  - intros (b & E' & [P|M] & F); exists b; (split; [exact E'|]); (split; [|exact F]).
    + left. eapply pub_rely; eauto.
    + right. eapply mine_rely; eauto.
  - intros (b & E' & G). exists b. split; [exact E'|]. eapply good_rely; eauto.
Qed.
Lemma wpart_rpart t w h b p : wpart t w h b p -> rpart t w h (VRef b) p.
Proof. destruct p; cbn; [tauto|intros [M F]; eauto 6|eauto]. Qed.

Lemma flat_dset k v d : nonref v = true -> flat d -> flat (dset k v d).
Proof.
  intros N F k' v'. rewrite dget_dset. destruct (String.eqb k k'); [|apply F].
  intros X. injection X as <-. exact N.
Qed.
Lemma flat_dupdate kvs : forall d,
  Forall (fun kv => nonref (snd kv) = true) kvs -> flat d -> flat (dupdate d kvs).
Proof.
  induction kvs as [|[k v] kvs IH]; intros d F H; [exact H|].
  rewrite dupdate_cons. apply IH; [now apply Forall_inv_tail in F|].
  apply flat_dset; [exact (Forall_inv F)|exact H].
Qed.

(** Writing entries of [late] to the dictionary just got from [f_oc_...]. *)
Definition late_kv (kv : string * val) : Prop := In (fst kv) late /\ nonref (snd kv) = true.
Lemma late_not k : In k late -> k <> "β" /\ k <> "f_oxz" /\ k <> "Axis of Symmetry".
Proof. cbn. intuition (subst; discriminate). Qed.
Lemma late_kv_ok r kvs : Forall late_kv kvs -> Forall (kv_ok r) kvs.
Proof.
  apply Forall_impl. intros [k v] [L N]. cbn in L, N. left. cbn [fst snd].
  destruct (late_not k L) as (N1 & N2 & N3).
  split; [|split; [congruence|split; [congruence|exact N]]].
  cbn in L |- *. tauto.
Qed.
Lemma late_notin k kvs : Forall late_kv kvs -> ~ In k late -> ~ In k (map fst kvs).
Proof.
  intros F N H. apply in_map_iff in H. destruct H as (kv & <- & H).
  rewrite Forall_forall in F. apply N, (F kv H).
Qed.

Lemma safe_update_part t w h b p kvs (Q : res unit -> own -> heap -> Prop) :
  wpart t w h b p -> Forall late_kv kvs ->
  (forall w' h', grow w h w' h' -> wpart t w' h' b (add_part kvs p) -> Q (Ok tt) w' h') ->
  safe t Q (atom (update b kvs)) w h.
Proof.
  intros P F K. destruct p as [x|E|f rx ry xo yo r]; cbn [wpart add_part] in *; [tauto| |].
  - destruct P as [M FL]. apply (safe_update_mine t w h b E kvs); [exact M| | |].
    + apply late_notin; [exact F|]. cbn. intuition discriminate.
    + apply late_notin; [exact F|]. cbn. intuition discriminate.
    + intros w' h' G M'. apply K; [exact G|]. split; [exact M'|].
      apply flat_dupdate; [|exact FL]. eapply Forall_impl; [|exact F].
      intros kv [_ N]. exact N.
  - eapply (safe_update_good t f f w h b kvs); eauto using late_kv_ok.
    intros w' h' R' G. apply K; [eapply rely_grow, R'|exact G].
Qed.

Ltac fin := cbn; intros; reflexivity.

(** * Flexural buckling *)

Lemma safe_flex t A k l r fy fr ab w h (Q : res nat -> own -> heap -> Prop) :
  (forall w' h' out, rely t w h w' h' ->
     (match s6_3_3_N_c A k l r fy fr ab with
      | Ok n => exists a b, out = Ok a
          /\ pub w' h' a [("N_c", VNum (nc_N_c n)); ("Intermediate", VRef b)]
          /\ pub w' h' b (flex_inter l r n)
      | Err e => out = Err e
      end) -> Q out w' h') ->
  safe t Q (p_s6_3_3_N_c A k l r fy fr ab) w h.
Proof.
  intros K. unfold p_s6_3_3_N_c. cbv zeta. unfold s6_3_3_N_c in K. unfold plift.
  destruct (s6_3_3_lambda_n k l r fy fr) as [ln|e] eqn:EL; cbn [pbind bind] in *.
  2:{ cbn. intros w' h' R'. now apply K. }
  unfold p_s6_3_3_alpha_c, plift.
  destruct (s6_3_3_alpha_c ln ab) as [ac|e] eqn:EA; cbn [bind] in *.
  2:{ cbn. intros w' h' R'. now apply K. }
  apply safe_bind. cbn [pbind]. apply safe_bind, safe_alloc; [reflexivity|].
  intros w1 h1 ib R1 P1. apply safe_alloc; [reflexivity|]. intros w2 h2 a R2 P2.
  apply (pub_rely _ _ _ _ _ _ _ R2) in P1. pose proof (rely_trans _ _ _ _ _ _ _ R1 R2) as RR.
  apply safe_bind. eapply safe_get_num; [exact P2|reflexivity|]. intros w3 h3 R3.
  apply (pub_rely _ _ _ _ _ _ _ R3) in P1, P2. apply (rely_trans _ _ _ _ _ _ _ RR) in R3.
  clear R1 R2 RR. apply safe_bind. eapply safe_get_ref; [exact P2|reflexivity|].
  intros w4 h4 R4. apply (pub_rely _ _ _ _ _ _ _ R4) in P1, P2.
  apply (rely_trans _ _ _ _ _ _ _ R3) in R4. clear R3.
  apply safe_bind. eapply safe_read; [exact P1|]. intros w5 h5 R5.
  apply (rely_trans _ _ _ _ _ _ _ R4) in R5. clear R4.
  apply safe_bind, safe_alloc; [reflexivity|]. intros w6 h6 b R6 P6.
  apply (rely_trans _ _ _ _ _ _ _ R5) in R6. clear R5.
  apply safe_alloc; [reflexivity|]. intros w7 h7 a' R7 P7.
  apply (pub_rely _ _ _ _ _ _ _ R7) in P6. apply (rely_trans _ _ _ _ _ _ _ R6) in R7.
  apply K; [exact R7|]. exists a', b. split; [reflexivity|]. split; [exact P7|exact P6].
Qed.

(** * Torsional buckling stress *)

Definition oc_res (t : nat) (p : res (R * part)) (out : res nat) (w : own) (h : heap) : Prop :=
  match p with
  | Ok (f, p) => exists a b, out = Ok a
      /\ pub w h a [("f_oc", VNum f); ("Intermediate", VRef b)] /\ wpart t w h b p
  | Err e => out = Err e
  end.

Definition double_part (A lx lz rx ry xo yo J Iw E G : R) (sym : symmetry_t)
  : res (R * part) :=
  let! r := f_oxz A lx lz rx ry xo yo J Iw E G in
  let! foz := f_euler_torsion A lz rx ry xo yo J Iw E G in
  let! s := symmetry sym in
  Ok (pymin (fx_f_oxz r) foz, PShared true rx ry xo yo r).
Definition single_part (A lx ly lz rx ry xo yo J Iw E G : R) (sym : symmetry_t)
  : res (R * part) :=
  match sym with
  | Some [a] =>
      if axis_is "x" a then
        let! r := f_oxz A lx lz rx ry xo yo J Iw E G in
        let! s := symmetry sym in
        Ok (fx_f_oxz r, PShared true rx ry xo yo r)
      else
        let! r := f_oxz A ly lz ry rx yo xo J Iw E G in
        let! s := symmetry sym in
        Ok (fx_f_oxz r, PShared true ry rx yo xo r)
  | _ => Err TypeError
  end.
Definition point_part (A lz rx ry xo yo J Iw E G : R) : res (R * part) :=
  let! fe := point_tree A lz rx ry xo yo J Iw E G in Ok (fst fe, PExact (snd fe)).
Definition unsym_part roots (A lx ly lz rx ry xo yo J Iw E G : R) : res (R * part) :=
  let! fe := unsym_tree roots A lx ly lz rx ry xo yo J Iw E G in Ok (fst fe, PExact (snd fe)).

Lemma foz_of A lx lz rx ry xo yo J Iw E G r z :
  f_oxz A lx lz rx ry xo yo J Iw E G = Ok r ->
  f_euler_torsion A lz rx ry xo yo J Iw E G = Ok z -> z = fx_f_oz r.
Proof.
  intros EF Ez. unfold f_oxz in EF. rewrite Ez in EF.
  destruct (rdiv xo _) as [q|]; cbn [bind] in EF; [|discriminate EF].
  destruct (f_euler _ _ _) as [fox|]; cbn [bind] in EF; [|discriminate EF].
  destruct (rdiv 1 _) as [q'|]; cbn [bind] in EF; [|discriminate EF].
  destruct (rroot _) as [q''|]; cbn [bind] in EF; [|discriminate EF].
  injection EF as <-. reflexivity.
Qed.

Lemma safe_double t A lx lz rx ry xo yo J Iw E G sym w h :
  safe t (oc_res t (double_part A lx lz rx ry xo yo J Iw E G sym))
    (p_f_oc_double_symmetric A lx lz rx ry xo yo J Iw E G sym) w h.
Proof.
  unfold p_f_oc_double_symmetric, double_part. apply safe_bind.
  eapply safe_mono; [|apply safe_foxz]. cbv beta. intros out w1 h1 P. unfold foxz_post in P.
  pose proof (foz_of A lx lz rx ry xo yo J Iw E G) as FZ.
  destruct (f_oxz A lx lz rx ry xo yo J Iw E G) as [r|e]; cbn [bind].
  2:{ subst out. fin. }
  destruct P as (a & b & -> & PA & GB). apply safe_bind, safe_fet. intros w2 h2 R2.
  apply (pub_rely _ _ _ _ _ _ _ R2) in PA.
  apply (good_rely _ _ _ _ _ _ _ _ _ _ _ _ R2) in GB. clear R2.
  destruct (f_euler_torsion A lz rx ry xo yo J Iw E G) as [foz|e]; cbn [bind].
  2:{ fin. }
  specialize (FZ r foz eq_refl eq_refl). subst foz.
  apply safe_bind. eapply safe_get_num; [exact PA|reflexivity|]. intros w3 h3 R3.
  apply (pub_rely _ _ _ _ _ _ _ R3) in PA.
  apply (good_rely _ _ _ _ _ _ _ _ _ _ _ _ R3) in GB. clear R3.
  apply safe_bind. eapply safe_get_ref; [exact PA|reflexivity|]. intros w4 h4 R4.
  apply (good_rely _ _ _ _ _ _ _ _ _ _ _ _ R4) in GB. clear R4 PA.
  apply safe_bind. eapply (safe_update_good t false true); [exact GB|kv|cbn; tauto|].
  intros w5 h5 R5 G5. apply safe_bind.
  eapply (safe_update_good t true true); [exact G5|kv|tauto|].
  intros w6 h6 R6 G6. apply safe_bind.
  eapply (safe_update_good t true true); [exact G6|kv|tauto|].
  intros w7 h7 R7 G7. unfold plift.
  destruct (symmetry sym) as [sc|e]; cbn [pbind bind].
  2:{ fin. }
  apply safe_bind. eapply (safe_update_good t true true); [exact G7|kv|tauto|].
  intros w8 h8 R8 G8. apply safe_alloc; [reflexivity|]. intros w9 h9 a' R9 P9.
  exists a', b. split; [reflexivity|]. split; [exact P9|].
  cbn [wpart]. eapply good_rely; eauto.
Qed.

Lemma safe_single t A lx ly lz rx ry xo yo J Iw E G sym w h :
  safe t (oc_res t (single_part A lx ly lz rx ry xo yo J Iw E G sym))
    (p_f_oc_single_symmetric A lx ly lz rx ry xo yo J Iw E G sym) w h.
Proof.
  unfold p_f_oc_single_symmetric, single_part.
  destruct sym as [[|ax [|]]|]; unfold plift; cbn [symcount pbind];
    try fin. cbv zeta.
  assert (forall ly lz rx ry xo yo fo w h x,
    fo = f_oxz A ly lz rx ry xo yo J Iw E G ->
    safe t (oc_res t (let! r := fo in
                      let! s := symmetry (Some [ax]) in
                      Ok (fx_f_oxz r, PShared true rx ry xo yo r)))
     (par d <- p_f_oxz 0 A ly lz rx ry xo yo J Iw E G;
      par inter <- atom (get_ref d "Intermediate");
      par _ <- atom (update inter [("Axis of Symmetry", VStr x)]);
      par f <- atom (get_num d "f_oxz");
      par _ <- atom (update inter [("f_oxz", VNum f)]);
      par s <- Done (symmetry (Some [ax]));
      par _ <- atom (update inter [("Symmetry", VStr (sym_name s))]);
      par _ <- atom (update inter [("AS4600 Clause", VStr "AS4600 S3.4.3")]);
      atom (alloc [("f_oc", VNum f); ("Intermediate", VRef inter)])) w h) as H.
  { clear. intros ly lz rx ry xo yo fo w h x ->. apply safe_bind.
    eapply safe_mono; [|apply safe_foxz]. cbv beta. intros out w1 h1 P. unfold foxz_post in P.
    destruct (f_oxz A ly lz rx ry xo yo J Iw E G) as [r|e]; cbn [bind].
    2:{ subst out. fin. }
    destruct P as (a & b & -> & PA & GB).
    apply safe_bind. eapply safe_get_ref; [exact PA|reflexivity|]. intros w4 h4 R4.
    apply (pub_rely _ _ _ _ _ _ _ R4) in PA.
    apply (good_rely _ _ _ _ _ _ _ _ _ _ _ _ R4) in GB. clear R4.
    apply safe_bind. eapply (safe_update_good t false false); [exact GB|kv|tauto|].
    intros w5 h5 R5 G5. apply (pub_rely _ _ _ _ _ _ _ R5) in PA. clear R5.
    apply safe_bind. eapply safe_get_num; [exact PA|reflexivity|]. intros w3 h3 R3.
    apply (good_rely _ _ _ _ _ _ _ _ _ _ _ _ R3) in G5. clear R3.
    apply safe_bind. eapply (safe_update_good t false true); [exact G5|kv|cbn; tauto|].
    intros w6 h6 R6 G6.
    destruct (symmetry _) as [sc|e]; cbn [pbind bind].
    2:{ fin. }
    apply safe_bind. eapply (safe_update_good t true true); [exact G6|kv|tauto|].
    intros w7 h7 R7 G7.
    apply safe_bind. eapply (safe_update_good t true true); [exact G7|kv|tauto|].
    intros w8 h8 R8 G8. apply safe_alloc; [reflexivity|]. intros w9 h9 a' R9 P9.
    exists a', b. split; [reflexivity|]. split; [exact P9|].
    cbn [wpart]. eapply good_rely; eauto. }
  destruct (axis_is "x" ax); now apply H.
Qed.

Lemma safe_point t A lz rx ry xo yo J Iw E G w h :
  safe t (oc_res t (point_part A lz rx ry xo yo J Iw E G))
    (p_f_oc_point_symmetric A lz rx ry xo yo J Iw E G) w h.
Proof.
  unfold p_f_oc_point_symmetric, point_part, point_tree. apply safe_bind, safe_fet.
  intros w1 h1 _. destruct (f_euler_torsion A lz rx ry xo yo J Iw E G) as [f|e]; cbn [bind].
  2:{ fin. }
  apply safe_bind. apply safe_alloc_mine; [reflexivity..|]. intros w2 h2 b R2 M2.
  apply safe_alloc; [reflexivity|]. intros w3 h3 a R3 P3. exists a, b.
  split; [reflexivity|]. split; [exact P3|]. split; [eapply mine_rely; eauto|].
  cbn [fst snd]. flat_list.
Qed.

Lemma safe_unsym roots t A lx ly lz rx ry xo yo J Iw E G w h :
  safe t (oc_res t (unsym_part roots A lx ly lz rx ry xo yo J Iw E G))
    (p_f_oc_unsymmetric roots A lx ly lz rx ry xo yo J Iw E G) w h.
Proof.
  unfold p_f_oc_unsymmetric, unsym_part, unsym_tree. unfold plift.
  destruct (f_euler E lx rx) as [f_ox|e]; cbn [bind pbind]; [|fin].
  destruct (f_euler E ly ry) as [f_oy|e]; cbn [bind pbind]; [|fin].
  apply safe_bind, safe_r_ol. intros w1 h1 _. apply safe_bind, safe_fet. intros w2 h2 _.
  destruct (f_euler_torsion A lz rx ry xo yo J Iw E G) as [f_oz|e]; cbn [bind]; [|fin].
  unfold unsym_coeffs.
  match goal with |- context [fold_left min_stress ?l None] => set (rs := l) end.
  destruct (match fold_left min_stress rs None with
            | Some (re, im) => if Reqb im 0 then Ok re else Err EComplex
            | None => Err ValueError end) as [m|e]; cbn [bind pbind]; [|fin].
  apply safe_bind. apply safe_alloc_mine; [reflexivity..|]. intros w3 h3 b R2 M2.
  apply safe_alloc; [reflexivity|]. intros w4 h4 a R3 P3. exists a, b.
  split; [reflexivity|]. split; [exact P3|]. split; [eapply mine_rely; eauto|].
  cbn [fst snd]. flat_list.
Qed.

Definition oc_part (roots : roots_oracle) (q : sect6) (lx ly lz : R) (sym : symmetry_t)
  : res (R * part) :=
  let! s := symmetry sym in
  match s with
  | SymDouble => double_part (q_A_n q) lx lz (q_r_x q) (q_r_y q) (q_x_o q) (q_y_o q)
                   (q_J q) (q_I_w q) (q_E q) (q_G q) sym
  | SymSingle => single_part (q_A_n q) lx ly lz (q_r_x q) (q_r_y q) (q_x_o q) (q_y_o q)
                   (q_J q) (q_I_w q) (q_E q) (q_G q) sym
  | SymPoint => point_part (q_A_n q) lz (q_r_x q) (q_r_y q) (q_x_o q) (q_y_o q)
                   (q_J q) (q_I_w q) (q_E q) (q_G q)
  | SymNone => unsym_part roots (q_A_n q) lx ly lz (q_r_x q) (q_r_y q) (q_x_o q) (q_y_o q)
                   (q_J q) (q_I_w q) (q_E q) (q_G q)
  end.
Lemma safe_foc roots t q lx ly lz sym w h :
  safe t (oc_res t (oc_part roots q lx ly lz sym)) (p_f_oc roots q lx ly lz sym) w h.
Proof.
  unfold p_f_oc, oc_part, plift. destruct (symmetry sym) as [sc|e]; cbn [pbind bind].
  2:{ fin. }
  destruct sc.
  - apply safe_unsym.
  - apply safe_double.
  - apply safe_point.
  - apply safe_single.
Qed.

(** * Capacities *)

Definition ncz_part (roots : roots_oracle) (q : sect6) (lx ly lz : R) (sym : symmetry_t)
  (u : R) : res (ncz_res * part) :=
  let! fe := oc_part roots q lx ly lz sym in
  let! z := n_cz_of (s6_2_A_e (q_A_n q) (q_k_f q)) (q_f_y q) (fst fe) u in
  Ok (z, add_part [("f_oc", VNum (fst fe)); ("λ_c", VNum (cz_lambda_c z));
                   ("f_n", VNum (cz_f_n z))] (snd fe)).

Lemma safe_frame {A} t (Q : res A -> own -> heap -> Prop) (p : prog A) w0 h0 : forall w h,
  grow w0 h0 w h -> safe t Q p w h ->
  safe t (fun r w' h' => grow w0 h0 w' h' /\ Q r w' h') p w h.
Proof.
  induction p as [r|g k IH]; cbn; intros w h G S.
  - intros w' h' R'. split; [|auto]. eapply grow_trans; [exact G|eapply rely_grow, R'].
  - intros w' s I R'. destruct (S w' s I R') as (w2 & I2 & U & S2). exists w2.
    split; [exact I2|]. split; [exact U|]. apply IH; [|exact S2].
    eapply grow_trans; [exact G|]. eapply grow_trans; [eapply rely_grow, R'|].
    eapply guar_grow, U.
Qed.

Definition ncz_res_ok t (p : res (ncz_res * part)) (out : res nat) (w : own) (h : heap) : Prop :=
  match p with
  | Ok (z, p) => exists a b, out = Ok a
      /\ pub w h a [("N_cz", VNum (cz_N_cz z)); ("Intermediate", VRef b)]
      /\ wpart t w h b p
  | Err e => out = Err e
  end.
Ltac latekv := repeat (apply Forall_cons; [split; [cbn; tauto|reflexivity]|]);
  apply Forall_nil.

Lemma safe_ncz roots t q lx ly lz sym u w h :
  safe t (ncz_res_ok t (ncz_part roots q lx ly lz sym u))
    (p_s6_3_3_N_c_torsion roots q lx ly lz sym u) w h.
Proof.
  unfold p_s6_3_3_N_c_torsion, ncz_part. cbv zeta. apply safe_bind.
  eapply safe_mono; [|apply safe_foc]. cbv beta. intros out w1 h1 P. unfold oc_res in P.
  destruct (oc_part roots q lx ly lz sym) as [[f p]|e]; cbn [bind fst snd].
  2:{ subst out. fin. }
  destruct P as (a & b & -> & PA & WB).
  apply safe_bind. eapply safe_get_num; [exact PA|reflexivity|]. intros w2 h2 R2.
  apply (pub_rely _ _ _ _ _ _ _ R2) in PA. apply (wpart_rely _ _ _ _ _ _ _ R2) in WB.
  clear R2. unfold plift. destruct (n_cz_of _ _ _ _) as [z|e]; cbn [pbind bind].
  2:{ fin. }
  apply safe_bind. eapply safe_get_ref; [exact PA|reflexivity|]. intros w3 h3 R3.
  apply (wpart_rely _ _ _ _ _ _ _ R3) in WB. clear R3 PA.
  apply safe_bind. eapply safe_update_part; [exact WB|latekv|]. intros w4 h4 _ WB4.
  apply safe_alloc; [reflexivity|]. intros w5 h5 a' R5 P5. exists a', b.
  split; [reflexivity|]. split; [exact P5|]. eapply wpart_rely; eauto.
Qed.

(** * Results of calls *)

Definition ptree : Type := list (string * part).
Definition pentry (t : nat) (w : own) (h : heap) (kv : string * val) (kp : string * part)
  : Prop := fst kv = fst kp /\ rpart t w h (snd kv) (snd kp).
Definition tree_res (t : nat) (p : res ptree) (out : res nat) (w : own) (h : heap) : Prop :=
  match p with
  | Ok l => exists a d, out = Ok a /\ pub w h a d /\ Forall2 (pentry t w h) d l
  | Err e => out = Err e
  end.

Definition nc_part (roots : roots_oracle) (g : nc_args) : res ptree :=
  let q := n_q g in
  let N_s := s6_2_N_s (s6_2_A_e (q_A_n q) (q_k_f q)) (q_f_y q) in
  let phi := n_phi g in
  let top := [("N_s", PLeaf N_s); ("φN_s", PLeaf (phi * N_s)%R);
              ("N_s Intermediate", PExact (section_inter q))] in
  if n_buckling g then
    let l_ex := s6_3_2_l_e (n_l g) (n_k_ex g) in
    let l_ey := s6_3_2_l_e (n_l g) (n_k_ey g) in
    let! bx := s6_3_3_N_c (q_A_n q) (q_k_f q) l_ex (q_r_x q) (q_f_y q) (n_f_ref g)
                 (n_alpha_b g) in
    let! by_ := s6_3_3_N_c (q_A_n q) (q_k_f q) l_ey (q_r_y q) (q_f_y q) (n_f_ref g)
                 (n_alpha_b g) in
    let N_cx := pymin (nc_N_c bx) N_s in
    let N_cy := pymin (nc_N_c by_) N_s in
    let N_c := pymin (pymin N_s N_cx) N_cy in
    let flex := [("N_cx", PLeaf N_cx); ("N_cy", PLeaf N_cy); ("φN_cx", PLeaf (phi * N_cx)%R);
                 ("φN_cy", PLeaf (phi * N_cy)%R);
                 ("N_c Intermediate", PExact [("f_ref", VNum (n_f_ref g));
                                           ("α_b", VNum (n_alpha_b g))]);
                 ("N_cx Intermediate", PExact (flex_inter l_ex (q_r_x q) bx));
                 ("N_cy Intermediate", PExact (flex_inter l_ey (q_r_y q) by_))] in
    if n_torsion g then
      let l_ez := s6_3_2_l_e (n_l g) (n_k_ez g) in
      let! zp := ncz_part roots q l_ex l_ey l_ez (n_sym g) (n_uncertainty g) in
      let N_cz := pymin N_s (cz_N_cz (fst zp)) in
      let N_c' := pymin N_c N_cz in
      Ok (app top (app flex
        [("N_cz Intermediate", add_part [("N_cz_buckling", VNum (cz_N_cz (fst zp)))] (snd zp));
         ("N_cz", PLeaf N_cz); ("φN_cz", PLeaf (phi * N_cz)%R); ("N_c", PLeaf N_c');
         ("φN_c", PLeaf (phi * N_c')%R)]))
    else Ok (app top (app flex
           [("N_c", PLeaf N_c);
            ("φN_c", PLeaf (pymin (pymin (phi * N_s) (phi * N_cx)) (phi * N_cy))%R)]))
  else Ok (app top [("N_c", PLeaf N_s); ("φN_c", PLeaf (phi * N_s)%R)]).

Lemma pentry_num t w h k x : pentry t w h (k, VNum x) (k, PLeaf x).
Proof. split; reflexivity. Qed.
Lemma pentry_pub t w h k b E : pub w h b E -> flat E -> pentry t w h (k, VRef b) (k, PExact E).
Proof. intros P F. split; [reflexivity|]. exists b. auto. Qed.
Lemma pentry_part t w h k b p : wpart t w h b p -> pentry t w h (k, VRef b) (k, p).
Proof. intros P. split; [reflexivity|]. now apply wpart_rpart. Qed.

Ltac pentries := repeat (apply Forall2_cons; [first [apply pentry_num
    | apply pentry_pub; [eassumption|first [apply flat_section|apply flat_flex|flat_list]]
    | apply pentry_part; eassumption ]|]); apply Forall2_nil.

Lemma safe_nc roots t g w h :
  safe t (tree_res t (nc_part roots g)) (p_s6_1_1_Nc roots g) w h.
Proof.
  unfold p_s6_1_1_Nc, nc_part. cbv zeta. apply safe_bind, safe_alloc; [reflexivity|].
  intros w1 h1 ib _ PA. fold (section_inter (n_q g)) in PA.
  destruct (n_buckling g).
  2:{ apply safe_alloc; [reflexivity|]. intros w2 h2 a R2 P2.
      apply (pub_rely _ _ _ _ _ _ _ R2) in PA. eexists a, _. split; [reflexivity|].
      split; [exact P2|]. pentries. }
  apply safe_bind, safe_flex. intros w2 h2 out R2 Q2.
  destruct (s6_3_3_N_c _ _ (s6_3_2_l_e _ (n_k_ex g)) _ _ _ _) as [bx|e]; cbn [bind].
  2:{ subst out. fin. }
  destruct Q2 as (ax & ix & -> & PX & PIX). apply (pub_rely _ _ _ _ _ _ _ R2) in PA. clear R2.
  apply safe_bind, safe_flex. intros w3 h3 out R2 Q2.
  destruct (s6_3_3_N_c _ _ (s6_3_2_l_e _ (n_k_ey g)) _ _ _ _) as [by_|e]; cbn [bind].
  2:{ subst out. fin. }
  destruct Q2 as (ay & iy & -> & PY & PIY).
  apply (pub_rely _ _ _ _ _ _ _ R2) in PA, PX, PIX. clear R2.
  apply safe_bind. eapply safe_get_num; [exact PX|reflexivity|]. intros w4 h4 R4.
  apply (pub_rely _ _ _ _ _ _ _ R4) in PA, PX, PIX, PY, PIY. clear R4.
  apply safe_bind. eapply safe_get_num; [exact PY|reflexivity|]. intros w5 h5 R4.
  apply (pub_rely _ _ _ _ _ _ _ R4) in PA, PX, PIX, PY, PIY. clear R4.
  apply safe_bind, safe_alloc; [reflexivity|]. intros w6 h6 ci R4 PC.
  apply (pub_rely _ _ _ _ _ _ _ R4) in PA, PX, PIX, PY, PIY. clear R4.
  apply safe_bind. eapply safe_get_ref; [exact PX|reflexivity|]. intros w7 h7 R4.
  apply (pub_rely _ _ _ _ _ _ _ R4) in PA, PIX, PY, PIY, PC. clear R4 PX.
  apply safe_bind. eapply safe_get_ref; [exact PY|reflexivity|]. intros w8 h8 R4.
  apply (pub_rely _ _ _ _ _ _ _ R4) in PA, PIX, PIY, PC. clear R4 PY.
  destruct (n_torsion g).
  2:{ apply safe_alloc; [reflexivity|]. intros w9 h9 a R4 P9.
      apply (pub_rely _ _ _ _ _ _ _ R4) in PA, PIX, PIY, PC.
      eexists a, _. split; [reflexivity|]. split; [exact P9|]. pentries. }
  apply safe_bind.
  eapply safe_mono; [|apply safe_frame; [apply grow_refl|apply safe_ncz]].
  cbv beta. intros out w9 h9 [GR P]. unfold ncz_res_ok in P.
  apply (pub_grow _ _ _ _ _ _ GR) in PA, PIX, PIY, PC. clear GR.
  destruct (ncz_part roots (n_q g) _ _ _ (n_sym g) (n_uncertainty g)) as [[z p]|e];
    cbn [bind fst snd].
  2:{ subst out. fin. }
  destruct P as (az & iz & -> & PZ & WZ).
  apply safe_bind. eapply safe_get_ref; [exact PZ|reflexivity|]. intros wa ha R4.
  apply (pub_rely _ _ _ _ _ _ _ R4) in PA, PIX, PIY, PC, PZ.
  apply (wpart_rely _ _ _ _ _ _ _ R4) in WZ. clear R4.
  apply safe_bind. eapply safe_get_num; [exact PZ|reflexivity|]. intros wb hb R4.
  apply (pub_rely _ _ _ _ _ _ _ R4) in PA, PIX, PIY, PC.
  apply (wpart_rely _ _ _ _ _ _ _ R4) in WZ. clear R4 PZ.
  apply safe_bind. eapply safe_update_part; [exact WZ|latekv|]. intros wc hc GR WZ'.
  apply (pub_grow _ _ _ _ _ _ GR) in PA, PIX, PIY, PC. clear GR WZ.
  apply safe_alloc; [reflexivity|]. intros wd hd a R4 Pd.
  apply (pub_rely _ _ _ _ _ _ _ R4) in PA, PIX, PIY, PC.
  apply (wpart_rely _ _ _ _ _ _ _ R4) in WZ'.
  eexists a, _. split; [reflexivity|]. split; [exact Pd|]. pentries.
Qed.

(** What each call gives. *)
Definition call_spec (roots : roots_oracle) (c : call) : res (R + ptree) :=
  let oc (p : res (R * part)) :=
    let! fp := p in Ok (inr [("f_oc", PLeaf (fst fp)); ("Intermediate", snd fp)]) in
  match c with
  | CallRol _ a b c d => Ok (inl (r_ol a b c d))
  | CallTorsion _ A lz rx ry xo yo J Iw E G =>
      let! x := f_euler_torsion A lz rx ry xo yo J Iw E G in Ok (inl x)
  | CallAlphaC a b =>
      let! r := s6_3_3_alpha_c a b in
      Ok (inr [("Intermediate", PExact (ac_inter r)); ("α_c", PLeaf (ac_alpha_c r))])
  | CallFlexural A k l r fy fr a =>
      let! n := s6_3_3_N_c A k l r fy fr a in
      Ok (inr [("N_c", PLeaf (nc_N_c n)); ("Intermediate", PExact (flex_inter l r n))])
  | CallFoxz _ A lx lz rx ry xo yo J Iw E G =>
      let! r := f_oxz A lx lz rx ry xo yo J Iw E G in
      Ok (inr [("Intermediate", PShared false rx ry xo yo r); ("f_oxz", PLeaf (fx_f_oxz r))])
  | CallDouble A lx lz rx ry xo yo J Iw E G s => oc (double_part A lx lz rx ry xo yo J Iw E G s)
  | CallSingle A lx ly lz rx ry xo yo J Iw E G s =>
      oc (single_part A lx ly lz rx ry xo yo J Iw E G s)
  | CallPoint A lz rx ry xo yo J Iw E G => oc (point_part A lz rx ry xo yo J Iw E G)
  | CallUnsym A lx ly lz rx ry xo yo J Iw E G =>
      oc (unsym_part roots A lx ly lz rx ry xo yo J Iw E G)
  | CallNcz q lx ly lz s u =>
      let! zp := ncz_part roots q lx ly lz s u in
      Ok (inr [("N_cz", PLeaf (cz_N_cz (fst zp))); ("Intermediate", snd zp)])
  | CallNc g => let! l := nc_part roots g in Ok (inr l)
  end.

Definition val_res (t : nat) (p : res (R + ptree)) (out : res val) (w : own) (h : heap) : Prop :=
  match p with
  | Ok (inl x) => out = Ok (VNum x)
  | Ok (inr l) => exists a d, out = Ok (VRef a) /\ pub w h a d /\ Forall2 (pentry t w h) d l
  | Err e => out = Err e
  end.

Lemma Forall2_mono {A B} (P Q : A -> B -> Prop) l l' :
  (forall a b, P a b -> Q a b) -> Forall2 P l l' -> Forall2 Q l l'.
Proof. intros L. induction 1; constructor; auto. Qed.

Lemma pentry_rely t w h w' h' kv kp :
  rely t w h w' h' -> pentry t w h kv kp -> pentry t w' h' kv kp.
Proof. intros R' [E P]. split; [exact E|]. eapply rpart_rely; eauto. Qed.
Lemma val_res_rely t p out w h w' h' :
  rely t w h w' h' -> val_res t p out w h -> val_res t p out w' h'.
Proof.
  intros R'. unfold val_res. destruct p as [[x|l]|e]; auto.
  intros (a & d & E & P & F). exists a, d. split; [exact E|].
  split; [eapply pub_rely; eauto|]. eapply Forall2_mono; [|exact F].
  intros kv kp. now apply pentry_rely.
Qed.

(** Turning the address of a dictionary into a value. *)
Lemma safe_p_ref t (P : res nat -> own -> heap -> Prop) sp p w h :
  safe t P p w h ->
  (forall out w h, P out w h -> match out with
      | Ok a => val_res t sp (Ok (VRef a)) w h
      | Err e => val_res t sp (Err e) w h end) ->
  safe t (val_res t sp) (p_ref p) w h.
Proof.
  intros S L. unfold p_ref. apply safe_bind. eapply safe_mono; [|exact S]. cbv beta.
  intros out w1 h1 K. specialize (L _ _ _ K). destruct out as [a|e]; cbn;
    intros w2 h2 R2; eapply val_res_rely; eauto.
Qed.

Lemma oc_res_val t p out w h :
  oc_res t p out w h ->
  match out with
  | Ok a => val_res t (let! fp := p in
       Ok (inr [("f_oc", PLeaf (fst fp)); ("Intermediate", snd fp)])) (Ok (VRef a)) w h
  | Err e => val_res t (let! fp := p in
       Ok (inr [("f_oc", PLeaf (fst fp)); ("Intermediate", snd fp)])) (Err e) w h
  end.
Proof.
  unfold oc_res. destruct p as [[f p]|e]; cbn [bind]; [|intros ->; reflexivity].
  intros (a & b & -> & PA & W). eexists a, _. split; [reflexivity|]. split; [exact PA|].
  cbn [fst snd]. pentries.
Qed.

Theorem safe_call roots t c w h :
  safe t (val_res t (call_spec roots c)) (p_call roots c) w h.
Proof.
  destruct c; cbn [p_call call_spec].
  - unfold p_num. apply safe_bind, safe_r_ol. fin.
  - unfold p_num. apply safe_bind, safe_fet. intros w1 h1 _.
    destruct (f_euler_torsion _ _ _ _ _ _ _ _ _ _); fin.
  - unfold p_s6_3_3_alpha_c, plift, p_ref.
    destruct (s6_3_3_alpha_c _ _) as [r|e]; cbn [bind pbind]; [|fin].
    apply safe_bind, safe_bind, safe_alloc; [reflexivity|]. intros w1 h1 b _ P1.
    apply safe_alloc; [reflexivity|]. intros w2 h2 a R2 P2 w3 h3 R3.
    apply (pub_rely _ _ _ _ _ _ _ R2), (pub_rely _ _ _ _ _ _ _ R3) in P1.
    apply (pub_rely _ _ _ _ _ _ _ R3) in P2.
    eexists a, _. split; [reflexivity|]. split; [exact P2|].
    apply Forall2_cons; [apply pentry_pub; [exact P1|unfold ac_inter; flat_list]|]. pentries.
  - unfold p_ref. apply safe_bind, safe_flex. intros w1 h1 out _ P.
    destruct (s6_3_3_N_c _ _ _ _ _ _ _) as [n|e]; cbn [bind]; [|subst out; fin].
    destruct P as (a & b & -> & P1 & P2). intros w3 h3 R3.
    apply (pub_rely _ _ _ _ _ _ _ R3) in P1, P2.
    eexists a, _. split; [reflexivity|]. split; [exact P1|]. pentries.
  - eapply safe_p_ref; [apply safe_foxz|]. unfold foxz_post. intros out w1 h1 P.
    destruct (f_oxz _ _ _ _ _ _ _ _ _ _ _) as [r|e]; cbn [bind]; [|subst out; reflexivity].
    destruct P as (a & b & -> & P1 & P2). eexists a, _. split; [reflexivity|].
    split; [exact P1|]. apply Forall2_cons; [|pentries].
    apply pentry_part. exact P2.
  - eapply safe_p_ref; [apply safe_double|]. apply oc_res_val.
  - eapply safe_p_ref; [apply safe_single|]. apply oc_res_val.
  - eapply safe_p_ref; [apply safe_point|]. apply oc_res_val.
  - eapply safe_p_ref; [apply safe_unsym|]. apply oc_res_val.
  - eapply safe_p_ref; [apply safe_ncz|]. unfold ncz_res_ok. intros out w1 h1 P.
    destruct (ncz_part _ _ _ _ _ _ _) as [[z p]|e]; cbn [bind fst snd];
      [|subst out; reflexivity].
    destruct P as (a & b & -> & P1 & P2). eexists a, _. split; [reflexivity|].
    split; [exact P1|]. pentries.
  - eapply safe_p_ref; [apply safe_nc|]. unfold tree_res. intros out w1 h1 P.
    destruct (nc_part _ _) as [l|e]; cbn [bind]; [|subst out; reflexivity].
    destruct P as (a & d & -> & P). exists a, d. auto.
Qed.
