(** What each stateful S6 function returns, after any session: the outcome of the pure
    model, in dictionaries with the contents listed here. *)

From Coq Require Import ZArith Reals List Bool String Lia Lra.
From Verif Require Import Base Num RNum PyReal Symmetry S6 S6Cache S6CacheFacts.
Import ListNotations.
Open Scope R_scope.
Open Scope string_scope.

(** * Flexural buckling: fresh dictionaries only *)

Lemma m_s6_3_3_alpha_c_ran ln ab s :
  inv s -> ran (st_heap s) (m_s6_3_3_alpha_c ln ab) s
    (fun out h => match s6_3_3_alpha_c ln ab with
       | Ok r => exists a b, out = Ok a
           /\ nth_error h a = Some [("Intermediate", VRef b); ("α_c", VNum (ac_alpha_c r))]
           /\ nth_error h b = Some (ac_inter r)
       | Err e => out = Err e
       end).
Proof.
  intros I. unfold m_s6_3_3_alpha_c. apply ran_bind, ran_lift; auto using hrel_refl.
  destruct (s6_3_3_alpha_c ln ab) as [r|e]; [|reflexivity].
  intros s1 I1 H1 E1. apply ran_bind. apply ran_alloc; auto; [cbn; congruence|].
  intros s2 I2 H2 E2. apply ran_alloc; auto; [cbn; congruence|].
  rewrite E2. eexists _, _. split; [reflexivity|]. split; [apply nth_alloc|].
  apply nth_old, nth_alloc.
Qed.

Definition flex_inter (l_e r : R) (n : n_c_res) : dict :=
  [("λ_n", VNum (nc_lambda_n n)); ("α_c", VNum (ac_alpha_c (nc_alpha n)));
   ("α_a", VNum (ac_alpha_a (nc_alpha n))); ("λ", VNum (ac_lambda (nc_alpha n)));
   ("η", VNum (ac_eta (nc_alpha n))); ("ξ", VNum (ac_xi (nc_alpha n)));
   ("l_e", VNum l_e); ("r", VNum r)].

Lemma m_s6_3_3_N_c_ran A k l r fy fr ab s :
  inv s -> ran (st_heap s) (m_s6_3_3_N_c A k l r fy fr ab) s
    (fun out h => match s6_3_3_N_c A k l r fy fr ab with
       | Ok n => exists a b, out = Ok a
           /\ nth_error h a = Some [("N_c", VNum (nc_N_c n)); ("Intermediate", VRef b)]
           /\ nth_error h b = Some (flex_inter l r n)
       | Err e => out = Err e
       end).
Proof.
  intros I. unfold m_s6_3_3_N_c, s6_3_3_N_c. apply ran_bind, ran_lift; auto using hrel_refl.
  destruct (s6_3_3_lambda_n k l r fy fr) as [ln|e]; cbn [bind]; [|reflexivity].
  intros s1 I1 H1 E1. apply ran_bind.
  eapply ran_mono; [apply ran_base; [exact H1|now apply m_s6_3_3_alpha_c_ran]|].
  cbn beta. intros o h [HR Q].
  destruct (s6_3_3_alpha_c ln ab) as [ac|e]; cbn [bind]; [|now subst o].
  destruct Q as (a & b & -> & Ea & Eb). intros s2 I2 H2 E2.
  apply ran_bind. eapply ran_get_num; eauto; [rewrite E2; exact Ea|reflexivity|].
  intros s3 I3 H3 E3. apply ran_bind.
  eapply ran_get_ref; eauto; [rewrite E3, E2; exact Ea|reflexivity|].
  intros s4 I4 H4 E4. apply ran_bind.
  eapply ran_read; eauto; [rewrite E4, E3, E2; exact Eb|].
  intros s5 I5 H5 E5. apply ran_bind. apply ran_alloc; auto; [cbn; congruence|].
  intros s6 I6 H6 E6. apply ran_alloc; auto; [cbn; congruence|].
  rewrite E6. eexists _, _. split; [reflexivity|]. split; [apply nth_alloc|].
  apply nth_old. rewrite nth_alloc. reflexivity.
Qed.

(** * Torsional buckling stress: outcome and entries, by symmetry *)

Definition double_tree (A lx lz rx ry xo yo J Iw E G : R) (sym : symmetry_t)
  : res (R * dict) :=
  let! r := f_oxz A lx lz rx ry xo yo J Iw E G in
  let! foz := f_euler_torsion A lz rx ry xo yo J Iw E G in
  let! s := symmetry sym in
  Ok (pymin (fx_f_oxz r) foz,
      app (fx_base rx ry xo yo r)
        [("f_oxz", VNum (fx_f_oxz r)); ("AS4600 Clause", VStr "AS4600 S3.4.3");
         ("Symmetry", VStr (sym_name s))]).

Definition single_tree (A lx ly lz rx ry xo yo J Iw E G : R) (sym : symmetry_t)
  : res (R * dict) :=
  match sym with
  | Some [a] =>
      let x := axis_is "x" a in
      let! r := (if x then f_oxz A lx lz rx ry xo yo J Iw E G
                 else f_oxz A ly lz ry rx yo xo J Iw E G) in
      let! s := symmetry sym in
      Ok (fx_f_oxz r,
          app (if x then fx_base rx ry xo yo r else fx_base ry rx yo xo r)
            [("Axis of Symmetry", VStr (if x then "x" else "y"));
             ("f_oxz", VNum (fx_f_oxz r)); ("Symmetry", VStr (sym_name s));
             ("AS4600 Clause", VStr "AS4600 S3.4.3")])
  | _ => Err TypeError
  end.

Definition point_tree (A lz rx ry xo yo J Iw E G : R) : res (R * dict) :=
  let! f := f_euler_torsion A lz rx ry xo yo J Iw E G in
  Ok (f, [("AS4600 Clause", VStr "AS4600 S3.4.4")]).

Definition unsym_tree (roots : roots_oracle) (A lx ly lz rx ry xo yo J Iw E G : R)
  : res (R * dict) :=
  let! f_ox := f_euler E lx rx in
  let! f_oy := f_euler E ly ry in
  let! f_oz := f_euler_torsion A lz rx ry xo yo J Iw E G in
  let '(a, b, c, d) := unsym_coeffs f_ox f_oy f_oz (r_ol rx ry xo yo) xo yo in
  let rs := roots a (- b)%R c (- d)%R in
  let! m := match fold_left min_stress rs None with
            | None => Err ValueError
            | Some (re, im) => if Reqb im 0 then Ok re else Err EComplex
            end in
  Ok (m, [("AS4600 Clause", VStr "S3.4.5"); ("Equation", VNums [a; - b; c; - d]%R);
          ("Solutions", VText rs); ("f_ox", VNum f_ox); ("f_oy", VNum f_oy);
          ("f_oz", VNum f_oz); ("a", VNum a); ("b", VNum b); ("c", VNum c);
          ("d", VNum d)]).

(** The entries a caller adds later, and what a shared dictionary [d] tells of [E]. *)
Definition late : list string := ["f_oc"; "λ_c"; "f_n"; "N_cz_buckling"].
Definition content (E d : dict) : Prop :=
  (forall k, ~ In k late -> k <> "Axis of Symmetry" -> dget k d = dget k E)
  /\ str_or_none (dget "Axis of Symmetry" d).
Definition writable (n : nat) (b : nat) (d : dict) : Prop :=
  (exists rx ry xo yo r, good rx ry xo yo r d)
  \/ ((n <= b)%nat /\ dget "β" d = None /\ dget "f_oxz" d = None).
Definition oc_post (n : nat) (axis : bool) (t : res (R * dict)) (out : res nat) (h : heap)
  : Prop :=
  match t with
  | Ok (f, E) => exists a b d, out = Ok a
      /\ nth_error h a = Some [("f_oc", VNum f); ("Intermediate", VRef b)]
      /\ nth_error h b = Some d /\ content E d
      /\ (axis = true -> dget "Axis of Symmetry" d = dget "Axis of Symmetry" E)
      /\ writable n b d
  | Err e => out = Err e
  end.

Lemma volatile_cases k :
  In k volatile -> k = "f_oxz" \/ k = "AS4600 Clause" \/ k = "Symmetry"
    \/ k = "Axis of Symmetry" \/ In k late.
Proof. cbn. intuition. Qed.

Ltac kv := repeat first [apply Forall_nil | apply Forall_cons];
  unfold kv_ok; cbn [fst snd];
  first [ right; split; [reflexivity|congruence]
        | left; split; [cbn; tauto|split; [intros K; first [discriminate K|reflexivity]
                                          |split; [intros K; first [discriminate K|eauto]
                                                  |reflexivity]]] ].

(** An update of the dictionary [b] made by [f_oxz], seen from the caller. *)
Lemma ran_update' h0 b d kvs rx ry xo yo r s (Q : res unit -> heap -> Prop) :
  inv s -> hrel h0 (st_heap s) -> nth_error (st_heap s) b = Some d ->
  good rx ry xo yo r d -> Forall (kv_ok r) kvs ->
  (forall h, nth_error h b = Some (dupdate d kvs) ->
     (forall c, c <> b -> nth_error h c = nth_error (st_heap s) c) ->
     good rx ry xo yo r (dupdate d kvs) -> Q (Ok tt) h) ->
  ran h0 (update b kvs) s Q.
Proof.
  intros I H E G F K. eapply ran_update; eauto. apply K.
  - rewrite nth_replace, Nat.eqb_refl, E. reflexivity.
  - intros c N. rewrite nth_replace. destruct (Nat.eqb_spec b c); [congruence|reflexivity].
  - now apply dupdate_rel.
Qed.

Lemma symmetry_err sym e : symmetry sym = Err e -> sym = None /\ e = TypeError.
Proof.
  destruct sym as [l|]; cbn.
  - repeat match goal with |- context [if ?b then _ else _] => destruct b end; discriminate.
  - intros E. injection E as <-. auto.
Qed.

Lemma m_double_ran A lx lz rx ry xo yo J Iw E G sym s :
  inv s -> ran (st_heap s) (m_f_oc_double_symmetric A lx lz rx ry xo yo J Iw E G sym) s
    (oc_post (List.length (st_heap s)) false (double_tree A lx lz rx ry xo yo J Iw E G sym)).
Proof.
  intros I. unfold m_f_oc_double_symmetric, double_tree, oc_post. apply ran_bind.
  eapply ran_mono; [now apply m_f_oxz_ran|]. cbn beta. intros o h Q.
  destruct (f_oxz A lx lz rx ry xo yo J Iw E G) as [r|e] eqn:EF; cbn [bind]; [|now subst o].
  destruct Q as (a & -> & P). intros s1 I1 H1 E1. apply ran_bind.
  eapply ran_mono; [apply ran_base; [exact H1|now apply m_f_euler_torsion_ran]|].
  cbn beta. intros o h' (_ & -> & ->).
  assert (forall z, f_euler_torsion A lz rx ry xo yo J Iw E G = Ok z -> z = fx_f_oz r) as EZ.
  { intros z Ez. unfold f_oxz in EF. rewrite Ez in EF.
    destruct (rdiv xo _) as [q|]; cbn [bind] in EF; [|discriminate EF].
    destruct (f_euler _ _ _) as [fox|]; cbn [bind] in EF; [|discriminate EF].
    destruct (rdiv 1 _) as [q'|]; cbn [bind] in EF; [|discriminate EF].
    destruct (rroot _) as [q''|]; cbn [bind] in EF; [|discriminate EF].
    injection EF as <-. reflexivity. }
  destruct (f_euler_torsion A lz rx ry xo yo J Iw E G) as [foz|e]; cbn [bind]; [|reflexivity].
  specialize (EZ foz eq_refl). subst foz.
  destruct P as (b & d & Pa & Pb & GD).
  intros s2 I2 H2 E2. rewrite E1 in E2. rewrite <- E2 in Pa, Pb.
  apply ran_bind. eapply ran_get_num; eauto; [reflexivity|].
  intros s3 I3 H3 E3. rewrite <- E3 in Pa, Pb. apply ran_bind.
  eapply ran_get_ref; eauto; [reflexivity|].
  intros s4 I4 H4 E4. rewrite <- E4 in Pa, Pb. apply ran_bind.
  eapply ran_update'; eauto; [kv|]. intros h1 N1 _ G1.
  intros s5 I5 H5 E5. rewrite <- E5 in N1. apply ran_bind.
  eapply ran_update'; eauto; [kv|]. intros h2 N2 _ G2.
  intros s6 I6 H6 E6. rewrite <- E6 in N2. apply ran_bind.
  eapply ran_update'; eauto; [kv|]. intros h3 N3 _ G3.
  intros s7 I7 H7 E7. rewrite <- E7 in N3. apply ran_bind, ran_lift; auto.
  destruct (symmetry sym) as [sc|e]; cbn [bind]; [|reflexivity].
  intros s8 I8 H8 E8. rewrite <- E8 in N3. apply ran_bind.
  eapply ran_update'; eauto; [kv|]. intros h4 N4 _ G4.
  intros s9 I9 H9 E9. rewrite <- E9 in N4. apply ran_alloc; auto; [cbn; congruence|].
  eexists _, _, _. split; [reflexivity|]. split; [apply nth_alloc|].
  split; [apply nth_old, N4|]. split; [|split].
  - split; [|apply (proj1 (proj2 (proj2 (proj2 G4))))]. intros k NL NA. cbn [dupdate fold_left fst snd].
    rewrite !dget_dset, dget_app.
    destruct (vol_dec k) as [V|V].
    + destruct (volatile_cases k V) as [->|[->|[->|[C|C]]]]; try reflexivity; contradiction.
    + destruct GD as (_ & B & _). rewrite B by exact V.
      destruct (String.eqb_spec "Symmetry" k) as [<-|_]; [elim V; cbn; tauto|].
      destruct (String.eqb_spec "AS4600 Clause" k) as [<-|_]; [elim V; cbn; tauto|].
      destruct (String.eqb_spec "f_oz" k) as [<-|_]; [reflexivity|].
      destruct (String.eqb_spec "f_oxz" k) as [<-|_]; [elim V; cbn; tauto|].
      destruct (dget k (fx_base _ _ _ _ _)); [reflexivity|]. cbn [dget].
      destruct (String.eqb_spec "f_oxz" k) as [<-|_]; [elim V; cbn; tauto|].
      destruct (String.eqb_spec "AS4600 Clause" k) as [<-|_]; [elim V; cbn; tauto|].
      destruct (String.eqb_spec "Symmetry" k) as [<-|_]; [elim V; cbn; tauto|].
      reflexivity.
  - discriminate.
  - left. eauto 6.
Qed.

Lemma m_single_ran A lx ly lz rx ry xo yo J Iw E G sym s :
  inv s -> ran (st_heap s) (m_f_oc_single_symmetric A lx ly lz rx ry xo yo J Iw E G sym) s
    (oc_post (List.length (st_heap s)) true (single_tree A lx ly lz rx ry xo yo J Iw E G sym)).
Proof.
  intros I. unfold m_f_oc_single_symmetric, single_tree, oc_post.
  apply ran_bind, ran_lift; auto using hrel_refl.
  destruct sym as [[|ax [|]]|]; cbn [symcount];
    try (intros s1 I1 H1 E1; apply ran_lift; auto; reflexivity); [|reflexivity].
  intros s1 I1 H1 E1. cbv zeta. apply ran_bind.
  set (x := axis_is "x" ax) in *.
  set (pr := if x then f_oxz A lx lz rx ry xo yo J Iw E G
             else f_oxz A ly lz ry rx yo xo J Iw E G).
  set (rx' := if x then rx else ry). set (ry' := if x then ry else rx).
  set (xo' := if x then xo else yo). set (yo' := if x then yo else xo).
  assert (ran (st_heap s1) (if x then m_f_oxz 0 A lx lz rx ry xo yo J Iw E G
               else m_f_oxz 0 A ly lz ry rx yo xo J Iw E G) s1
          (fun out h => match pr with
                        | Ok r => exists a, out = Ok a /\ pair_ok h a rx' ry' xo' yo' r
                        | Err e => out = Err e end)) as HF.
  { subst pr rx' ry' xo' yo'. destruct x; now apply m_f_oxz_ran. }
  eapply ran_mono; [apply ran_base; [exact H1|exact HF]|].
  cbn beta. intros o h [HR Q]. destruct pr as [r|e]; cbn [bind]; [|now subst o].
  destruct Q as (a & -> & b & d & Pa & Pb & GD).
  intros s2 I2 H2 E2. rewrite <- E2 in Pa, Pb. apply ran_bind.
  eapply ran_get_ref; eauto; [reflexivity|].
  intros s3 I3 H3 E3. rewrite <- E3 in Pa, Pb. apply ran_bind.
  assert (a <> b) as NAB.
  { intros ->. rewrite Pa in Pb. injection Pb as <-. destruct GD as (_ & B & _).
    specialize (B "β" beta_stable). discriminate B. }
  eapply ran_update'; eauto; [kv|]. intros h1 N1 O1 G1.
  intros s5 I5 H5 E5. rewrite <- E5 in N1. apply ran_bind.
  assert (nth_error (st_heap s5) a
          = Some [("Intermediate", VRef b); ("f_oxz", VNum (fx_f_oxz r))]) as Pa5.
  { rewrite E5, O1; auto. }
  eapply ran_get_num; [exact I5|exact H5|exact Pa5|reflexivity|].
  intros s4 I4 H4 E4. rewrite <- E4 in N1. apply ran_bind.
  eapply ran_update'; eauto; [kv|]. intros h2 N2 _ G2.
  intros s6 I6 H6 E6. rewrite <- E6 in N2. apply ran_bind, ran_lift; auto.
  destruct (symmetry _) as [sc|e]; cbn [bind]; [|reflexivity].
  intros s8 I8 H8 E8. rewrite <- E8 in N2. apply ran_bind.
  eapply ran_update'; eauto; [kv|]. intros h4 N4 _ G4.
  intros s9 I9 H9 E9. rewrite <- E9 in N4. apply ran_bind.
  eapply ran_update'; eauto; [kv|]. intros h5 N5 _ G5.
  intros s10 I10 H10 E10. rewrite <- E10 in N5. apply ran_alloc; auto; [cbn; congruence|].
  assert ((if x return list (string * val) then fx_base rx ry xo yo r
           else fx_base ry rx yo xo r)
          = fx_base rx' ry' xo' yo' r) as -> by (subst rx' ry' xo' yo'; now destruct x).
  eexists _, _, _. split; [reflexivity|]. split; [apply nth_alloc|].
  split; [apply nth_old, N5|]. split; [|split].
  - split; [|apply (proj1 (proj2 (proj2 (proj2 G5))))]. intros k NL NA. cbn [dupdate fold_left fst snd].
    rewrite !dget_dset, dget_app.
    destruct (vol_dec k) as [V|V].
    + destruct (volatile_cases k V) as [->|[->|[->|[C|C]]]]; try reflexivity; contradiction.
    + destruct GD as (_ & B & _). rewrite B by exact V.
      destruct (String.eqb_spec "AS4600 Clause" k) as [<-|_]; [elim V; cbn; tauto|].
      destruct (String.eqb_spec "Symmetry" k) as [<-|_]; [elim V; cbn; tauto|].
      destruct (String.eqb_spec "f_oxz" k) as [<-|_]; [elim V; cbn; tauto|].
      destruct (String.eqb_spec "Axis of Symmetry" k) as [<-|_]; [elim V; cbn; tauto|].
      destruct (dget k (fx_base _ _ _ _ _)); [reflexivity|]. cbn [dget].
      destruct (String.eqb_spec "Axis of Symmetry" k) as [<-|_]; [elim V; cbn; tauto|].
      destruct (String.eqb_spec "f_oxz" k) as [<-|_]; [elim V; cbn; tauto|].
      destruct (String.eqb_spec "Symmetry" k) as [<-|_]; [elim V; cbn; tauto|].
      destruct (String.eqb_spec "AS4600 Clause" k) as [<-|_]; [elim V; cbn; tauto|].
      reflexivity.
  - intros _. cbn [dupdate fold_left fst snd]. rewrite !dget_dset. reflexivity.
  - left. eauto 6.
Qed.

Lemma m_point_ran A lz rx ry xo yo J Iw E G s :
  inv s -> ran (st_heap s) (m_f_oc_point_symmetric A lz rx ry xo yo J Iw E G) s
    (oc_post (List.length (st_heap s)) true (point_tree A lz rx ry xo yo J Iw E G)).
Proof.
  intros I. unfold m_f_oc_point_symmetric, point_tree, oc_post. apply ran_bind.
  eapply ran_mono; [now apply m_f_euler_torsion_ran|]. cbn beta. intros o h (-> & ->).
  destruct (f_euler_torsion A lz rx ry xo yo J Iw E G) as [f|e]; cbn [bind]; [|reflexivity].
  intros s1 I1 H1 E1. apply ran_bind. apply ran_alloc; auto; [cbn; congruence|].
  intros s2 I2 H2 E2. apply ran_alloc; auto; [cbn; congruence|].
  rewrite E2. eexists _, _, _. split; [reflexivity|]. split; [apply nth_alloc|].
  split; [apply nth_old, nth_alloc|]. split; [|split].
  - split; [reflexivity|]. left. reflexivity.
  - reflexivity.
  - right. rewrite E1. auto.
Qed.

Lemma m_unsym_ran roots A lx ly lz rx ry xo yo J Iw E G s :
  inv s -> ran (st_heap s) (m_f_oc_unsymmetric roots A lx ly lz rx ry xo yo J Iw E G) s
    (oc_post (List.length (st_heap s)) true (unsym_tree roots A lx ly lz rx ry xo yo J Iw E G)).
Proof.
  intros I. unfold m_f_oc_unsymmetric, unsym_tree, oc_post.
  apply ran_bind, ran_lift; auto using hrel_refl.
  destruct (f_euler E lx rx) as [f_ox|e]; cbn [bind]; [|reflexivity].
  intros s1 I1 H1 E1. apply ran_bind, ran_lift; auto.
  destruct (f_euler E ly ry) as [f_oy|e]; cbn [bind]; [|reflexivity].
  intros s2 I2 H2 E2. apply ran_bind.
  eapply ran_mono; [apply ran_base; [exact H2|now apply m_r_ol_ran]|].
  cbn beta. intros o h (_ & -> & ->). intros s3 I3 H3 E3. apply ran_bind.
  eapply ran_mono; [apply ran_base; [exact H3|now apply m_f_euler_torsion_ran]|].
  cbn beta. intros o h (_ & -> & ->).
  destruct (f_euler_torsion A lz rx ry xo yo J Iw E G) as [f_oz|e]; cbn [bind]; [|reflexivity].
  intros s4 I4 H4 E4. unfold unsym_coeffs. apply ran_bind, ran_lift; auto.
  match goal with |- context [fold_left min_stress ?l None] => set (rs := l) end.
  destruct (match fold_left min_stress rs None with
            | Some (re, im) => if Reqb im 0 then Ok re else Err EComplex
            | None => Err ValueError end) as [m|e]; cbn [bind]; [|reflexivity].
  intros s5 I5 H5 E5. apply ran_bind. apply ran_alloc; auto; [cbn; congruence|].
  intros s6 I6 H6 E6. apply ran_alloc; auto; [cbn; congruence|].
  rewrite E6. eexists _, _, _. split; [reflexivity|]. split; [apply nth_alloc|].
  split; [apply nth_old, nth_alloc|]. split; [|split].
  - split; [reflexivity|]. left. reflexivity.
  - reflexivity.
  - right. split; [|split; reflexivity]. rewrite E5. apply hrel_length. exact H4.
Qed.

(** * Torsional capacity *)

Definition oc_tree (roots : roots_oracle) (q : sect6) (lx ly lz : R) (sym : symmetry_t)
  : res (R * dict) :=
  let! s := symmetry sym in
  match s with
  | SymDouble => double_tree (q_A_n q) lx lz (q_r_x q) (q_r_y q) (q_x_o q) (q_y_o q)
                   (q_J q) (q_I_w q) (q_E q) (q_G q) sym
  | SymSingle => single_tree (q_A_n q) lx ly lz (q_r_x q) (q_r_y q) (q_x_o q) (q_y_o q)
                   (q_J q) (q_I_w q) (q_E q) (q_G q) sym
  | SymPoint => point_tree (q_A_n q) lz (q_r_x q) (q_r_y q) (q_x_o q) (q_y_o q)
                   (q_J q) (q_I_w q) (q_E q) (q_G q)
  | SymNone => unsym_tree roots (q_A_n q) lx ly lz (q_r_x q) (q_r_y q) (q_x_o q) (q_y_o q)
                   (q_J q) (q_I_w q) (q_E q) (q_G q)
  end.

Definition is_double (sym : symmetry_t) : bool :=
  match symmetry sym with Ok SymDouble => true | _ => false end.

Lemma m_f_oc_ran roots q lx ly lz sym s :
  inv s -> ran (st_heap s) (m_f_oc roots q lx ly lz sym) s
    (oc_post (List.length (st_heap s)) (negb (is_double sym)) (oc_tree roots q lx ly lz sym)).
Proof.
  intros I. unfold m_f_oc, oc_tree, is_double. apply ran_bind, ran_lift; auto using hrel_refl.
  destruct (symmetry sym) as [sc|e]; cbn [bind negb]; [|reflexivity].
  intros s1 I1 H1 E1. rewrite <- E1. destruct sc.
  - now apply m_unsym_ran.
  - now apply m_double_ran.
  - now apply m_point_ran.
  - now apply m_single_ran.
Qed.

Lemma oc_tree_pure roots q lx ly lz sym :
  rmap fst (oc_tree roots q lx ly lz sym) = f_oc roots q lx ly lz sym.
Proof.
  unfold oc_tree, f_oc. destruct (symmetry sym) as [sc|e] eqn:ES; cbn [bind rmap];
    [|reflexivity].
  destruct sc.
  - unfold unsym_tree, f_oc_unsymmetric, unsym_coeffs.
    destruct (f_euler _ lx _); cbn [bind rmap]; [|reflexivity].
    destruct (f_euler _ ly _); cbn [bind rmap]; [|reflexivity].
    destruct (f_euler_torsion _ _ _ _ _ _ _ _ _ _); cbn [bind rmap]; [|reflexivity].
    destruct (fold_left _ _ _) as [[re im]|]; [destruct (Reqb im 0)|]; reflexivity.
  - unfold double_tree, f_oc_double_symmetric.
    destruct (f_oxz _ _ _ _ _ _ _ _ _ _ _); cbn [bind rmap]; [|reflexivity].
    destruct (f_euler_torsion _ _ _ _ _ _ _ _ _ _); cbn [bind rmap]; [|reflexivity].
    rewrite ES. reflexivity.
  - unfold point_tree, f_oc_point_symmetric.
    now destruct (f_euler_torsion _ _ _ _ _ _ _ _ _ _).
  - unfold single_tree, f_oc_single_symmetric.
    destruct sym as [[|ax [|]]|]; try reflexivity. cbn [symcount bind].
    destruct (axis_is "x" ax);
      (destruct (f_oxz _ _ _ _ _ _ _ _ _ _ _); cbn [bind rmap]; [|reflexivity]);
      rewrite ES; reflexivity.
Qed.

Definition ncz_tree (roots : roots_oracle) (q : sect6) (lx ly lz : R) (sym : symmetry_t)
  (u : R) : res (ncz_res * dict) :=
  let! fe := oc_tree roots q lx ly lz sym in
  let! z := n_cz_of (s6_2_A_e (q_A_n q) (q_k_f q)) (q_f_y q) (fst fe) u in
  Ok (z, app (snd fe) [("f_oc", VNum (fst fe)); ("λ_c", VNum (cz_lambda_c z));
                       ("f_n", VNum (cz_f_n z))]).

Lemma ncz_tree_pure roots q lx ly lz sym u :
  rmap fst (ncz_tree roots q lx ly lz sym u) = s6_3_3_N_c_torsion roots q lx ly lz sym u.
Proof.
  unfold ncz_tree, s6_3_3_N_c_torsion. rewrite <- oc_tree_pure.
  destruct (oc_tree _ _ _ _ _ _) as [[f E]|]; cbn [bind rmap fst snd]; [|reflexivity].
  now destruct (n_cz_of _ _ _ _).
Qed.

(** The keys of an [oc_tree] never include the late ones. *)
Lemma oc_tree_late roots q lx ly lz sym f E k :
  oc_tree roots q lx ly lz sym = Ok (f, E) -> In k late -> dget k E = None.
Proof.
  intros H L.
  unfold oc_tree in H. destruct (symmetry sym) as [sc|]; cbn [bind] in H; [|discriminate H].
  destruct sc.
  - unfold unsym_tree, unsym_coeffs in H.
    destruct (f_euler _ lx _); cbn [bind] in H; [|discriminate H].
    destruct (f_euler _ ly _); cbn [bind] in H; [|discriminate H].
    destruct (f_euler_torsion _ _ _ _ _ _ _ _ _ _); cbn [bind] in H; [|discriminate H].
    destruct (fold_left _ _ _) as [[re im]|];
      [destruct (Reqb im 0)|]; cbn [bind] in H; try discriminate H.
    injection H as _ <-. repeat (destruct L as [<-|L]; [reflexivity|]). destruct L.
  - unfold double_tree in H.
    destruct (f_oxz _ _ _ _ _ _ _ _ _ _ _); cbn [bind] in H; [|discriminate H].
    destruct (f_euler_torsion _ _ _ _ _ _ _ _ _ _); cbn [bind] in H; [|discriminate H].
    destruct (symmetry sym); cbn [bind] in H; [|discriminate H].
    injection H as _ <-.
    repeat (destruct L as [<-|L]; [reflexivity|]). destruct L.
  - unfold point_tree in H.
    destruct (f_euler_torsion _ _ _ _ _ _ _ _ _ _); cbn [bind] in H; [|discriminate H].
    injection H as _ <-. repeat (destruct L as [<-|L]; [reflexivity|]). destruct L.
  - unfold single_tree in H. destruct sym as [[|ax [|]]|]; try discriminate H. cbv zeta in H.
    destruct (axis_is "x" ax);
      (destruct (f_oxz _ _ _ _ _ _ _ _ _ _ _); cbn [bind] in H; [|discriminate H]);
      (destruct (symmetry _); cbn [bind] in H; [|discriminate H]);
      injection H as _ <-;
      repeat (destruct L as [<-|L]; [reflexivity|]); destruct L.
Qed.

(** Contents once the torsional capacity is known; [N_cz_buckling] may be left over from
    an earlier [s6_1_1_Nc]. *)
Definition ncz_content (E d : dict) : Prop :=
  (forall k, k <> "N_cz_buckling" -> k <> "Axis of Symmetry" -> dget k d = dget k E)
  /\ str_or_none (dget "Axis of Symmetry" d).
Definition ncz_post (n : nat) (axis : bool) (t : res (ncz_res * dict)) (out : res nat)
  (h : heap) : Prop :=
  match t with
  | Ok (z, E) => exists a b d, out = Ok a
      /\ nth_error h a = Some [("N_cz", VNum (cz_N_cz z)); ("Intermediate", VRef b)]
      /\ nth_error h b = Some d /\ ncz_content E d
      /\ (axis = true -> dget "Axis of Symmetry" d = dget "Axis of Symmetry" E)
      /\ writable n b d
  | Err e => out = Err e
  end.

Lemma m_ncz_ran roots q lx ly lz sym u s :
  inv s -> ran (st_heap s) (m_s6_3_3_N_c_torsion roots q lx ly lz sym u) s
    (ncz_post (List.length (st_heap s)) (negb (is_double sym))
       (ncz_tree roots q lx ly lz sym u)).
Proof.
  intros I. unfold m_s6_3_3_N_c_torsion, ncz_tree, ncz_post. cbv zeta. apply ran_bind.
  eapply ran_mono; [now apply m_f_oc_ran|]. unfold oc_post. intros o h Q.
  pose proof (oc_tree_late roots q lx ly lz sym) as LT.
  destruct (oc_tree roots q lx ly lz sym) as [[f E]|e]; cbn [bind fst snd]; [|now subst o].
  specialize (fun k => LT f E k eq_refl).
  destruct Q as (a & b & d & -> & Pa & Pb & (C1 & C2) & AX & W).
  intros s1 I1 H1 E1. rewrite <- E1 in Pa, Pb. apply ran_bind.
  eapply ran_get_num; eauto; [reflexivity|].
  intros s2 I2 H2 E2. rewrite <- E2 in Pa, Pb. apply ran_bind, ran_lift; auto.
  destruct (n_cz_of _ _ _ _) as [z|e]; cbn [bind]; [|reflexivity].
  intros s3 I3 H3 E3. rewrite <- E3 in Pa, Pb. apply ran_bind.
  eapply ran_get_ref; eauto; [reflexivity|].
  intros s4 I4 H4 E4. rewrite <- E4 in Pa, Pb. apply ran_bind.
  set (kvs := [("f_oc", VNum f); ("λ_c", VNum (cz_lambda_c z)); ("f_n", VNum (cz_f_n z))]).
  assert (ncz_content (app E kvs) (dupdate d kvs)
          /\ (negb (is_double sym) = true -> dget "Axis of Symmetry" (dupdate d kvs)
                = dget "Axis of Symmetry" (app E kvs))) as [CT AX'].
  { unfold kvs. cbn [dupdate fold_left fst snd]. split; [split|].
    - intros k N1 N2. rewrite !dget_dset, dget_app.
      destruct (String.eqb_spec "f_n" k) as [<-|M1]; [rewrite LT by (cbn; tauto); reflexivity|].
      destruct (String.eqb_spec "λ_c" k) as [<-|M2]; [rewrite LT by (cbn; tauto); reflexivity|].
      destruct (String.eqb_spec "f_oc" k) as [<-|M3]; [rewrite LT by (cbn; tauto); reflexivity|].
      rewrite C1; [|cbn; intuition|auto].
      destruct (dget k E); [reflexivity|]. cbn [dget].
      destruct (String.eqb_spec "f_oc" k); [congruence|].
      destruct (String.eqb_spec "λ_c" k); [congruence|].
      destruct (String.eqb_spec "f_n" k); [congruence|]. reflexivity.
    - rewrite !dget_dset. exact C2.
    - intros D. rewrite !dget_dset, dget_app. cbn [String.eqb]. cbn. rewrite AX by exact D.
      now destruct (dget "Axis of Symmetry" E). }
  destruct W as [(rx & ry & xo & yo & r & GD)|(W1 & W2 & W3)].
  - eapply ran_update'; eauto.
    { unfold kvs. repeat (apply Forall_cons; [kv|]). apply Forall_nil. }
    intros h' N _ G'. intros s5 I5 H5 E5. rewrite <- E5 in N.
    apply ran_alloc; auto; [cbn; congruence|].
    eexists _, _, _. split; [reflexivity|]. split; [apply nth_alloc|].
    split; [apply nth_old, N|]. split; [exact CT|]. split; [exact AX'|]. left. eauto 6.
  - eapply ran_update_new; eauto.
    { cbn. intuition discriminate. }
    intros s5 I5 H5 E5. apply ran_alloc; auto; [cbn; congruence|].
    eexists _, _, _. split; [reflexivity|]. split; [apply nth_alloc|].
    split; [apply nth_old; rewrite E5, nth_replace, Nat.eqb_refl, Pb; reflexivity|].
    split; [exact CT|]. split; [exact AX'|]. right. split; [exact W1|].
    split; rewrite dget_dupdate_other; auto; cbn; intuition discriminate.
Qed.
