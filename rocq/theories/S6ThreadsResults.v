(** What the clients of several threads read, against the same call alone. *)

From Coq Require Import ZArith Reals List Bool String Lia Lra.
From Verif Require Import Base Num RNum PyReal Symmetry S6 S6Cases S6Cache S6CacheFacts
  S6CacheProofs S6CacheNc S6CacheSession S6CacheCases
  S6Threads S6ThreadsFacts S6ThreadsProofs S6ThreadsPool.
Import ListNotations.
Open Scope R_scope.
Open Scope string_scope.

Lemma agree_mono (ok ok' : list string -> Prop) x h y h' :
  (forall p, ok' p -> ok p) -> agree ok x h y h' -> agree ok' x h y h'.
Proof. intros L. unfold agree. destruct x, y; auto. Qed.

Lemma steady_general sp p :
  (forall k k', p = [k; k'] -> ~ In k' volatile) -> steady sp p.
Proof. intros N l k k' f rx ry xo yo r _ -> _ V. elim (N k k' eq_refl V). Qed.

(** Which entries are shared. *)
Definition shared_by (sym : symmetry_t) (p : part) : Prop :=
  match p with
  | PShared f _ _ _ _ _ =>
      f = true /\ (symmetry sym = Ok SymDouble \/ symmetry sym = Ok SymSingle)
  | _ => True
  end.
Lemma shared_add sym kvs p : shared_by sym p -> shared_by sym (add_part kvs p).
Proof. destruct p; auto. Qed.
Lemma oc_part_shared roots q lx ly lz sym f p :
  oc_part roots q lx ly lz sym = Ok (f, p) -> shared_by sym p.
Proof.
  unfold oc_part. destruct (symmetry sym) as [sc|e] eqn:ES; cbn [bind]; [|discriminate].
  destruct sc.
  - unfold unsym_part. destruct (unsym_tree _ _ _ _ _ _ _ _ _ _ _ _ _) as [fe|e]; cbn [bind];
      intros E; [|discriminate E]. injection E as _ <-. exact I.
  - unfold double_part. destruct (f_oxz _ _ _ _ _ _ _ _ _ _ _) as [r|e]; cbn [bind]; [|discriminate].
    destruct (f_euler_torsion _ _ _ _ _ _ _ _ _ _) as [z|e]; cbn [bind]; [|discriminate].
    rewrite ES. cbn [bind]. intros E. injection E as _ <-. cbn. auto.
  - unfold point_part. destruct (point_tree _ _ _ _ _ _ _ _ _ _) as [fe|e]; cbn [bind];
      intros E; [|discriminate E]. injection E as _ <-. exact I.
  - unfold single_part. destruct sym as [[|a [|]]|]; try discriminate.
    destruct (axis_is "x" a); (destruct (f_oxz _ _ _ _ _ _ _ _ _ _ _) as [r|e]; cbn [bind];
      [|discriminate]); rewrite ES; cbn [bind]; intros E; injection E as _ <-; cbn; auto.
Qed.
Lemma ncz_part_shared roots q lx ly lz sym u z p :
  ncz_part roots q lx ly lz sym u = Ok (z, p) -> shared_by sym p.
Proof.
  unfold ncz_part. destruct (oc_part roots q lx ly lz sym) as [[f p0]|e] eqn:EO; cbn [bind];
    [|discriminate].
  cbn [fst snd]. destruct (n_cz_of _ _ _ _) as [z0|e]; cbn [bind]; [|discriminate].
  intros E. injection E as _ <-. eapply shared_add, oc_part_shared, EO.
Qed.

Lemma pget_app k l l' : pget k (app l l') = match pget k l with Some p => Some p | None => pget k l' end.
Proof.
  induction l as [|[k1 p1] l IH]; [reflexivity|]. cbn. destruct (String.eqb k1 k); auto.
Qed.
Definition no_shared (l : ptree) : Prop :=
  Forall (fun kp => match snd kp with PShared _ _ _ _ _ _ => False | _ => True end) l.
Lemma no_shared_get k l f rx ry xo yo r :
  no_shared l -> pget k l = Some (PShared f rx ry xo yo r) -> False.
Proof.
  intros N. induction N as [|[k1 p1] l P N IH]; cbn; [discriminate|].
  destruct (String.eqb k1 k); [|exact IH]. intros E. injection E as ->. exact P.
Qed.

Lemma nc_part_shared roots g l k f rx ry xo yo r :
  nc_part roots g = Ok l -> pget k l = Some (PShared f rx ry xo yo r) ->
  k = "N_cz Intermediate" /\ f = true /\ n_buckling g = true /\ n_torsion g = true
  /\ (symmetry (n_sym g) = Ok SymDouble \/ symmetry (n_sym g) = Ok SymSingle).
Proof.
  unfold nc_part. cbv zeta. destruct (n_buckling g).
  2:{ intros E P. injection E as <-. exfalso. eapply no_shared_get; [|exact P].
      repeat constructor. }
  destruct (s6_3_3_N_c _ _ _ (q_r_x _) _ _ _) as [bx|e]; cbn [bind]; [|discriminate].
  destruct (s6_3_3_N_c _ _ _ (q_r_y _) _ _ _) as [by_|e]; cbn [bind]; [|discriminate].
  destruct (n_torsion g).
  2:{ intros E P. injection E as <-. exfalso. eapply no_shared_get; [|exact P].
      repeat constructor. }
  destruct (ncz_part _ _ _ _ _ _ _) as [[z p]|e] eqn:EZ; cbn [bind fst snd]; [|discriminate].
  intros E P. injection E as <-. apply ncz_part_shared in EZ.
  cbn [app pget] in P.
  repeat match type of P with
  | (if String.eqb ?a ?b then _ else _) = _ => destruct (String.eqb_spec a b); try discriminate P
  end.
  injection P as P. pose proof (shared_add _ [("N_cz_buckling", VNum (cz_N_cz z))] _ EZ) as S.
  rewrite P in S. destruct S as [S1 S2]. auto.
Qed.

Lemma steady_nc roots g p :
  (forall k', p = ["N_cz Intermediate"; k'] ->
     ~ In k' ["f_oc"; "λ_c"; "f_n"; "N_cz_buckling"; "AS4600 Clause"; "Symmetry";
              "Axis of Symmetry"]) ->
  steady (call_spec roots (CallNc g)) p.
Proof.
  intros N l k k' f rx ry xo yo r E -> P V. cbn [call_spec] in E.
  destruct (nc_part roots g) as [l0|e] eqn:EN; [|discriminate E]. cbn [bind] in E.
  injection E as ->. destruct (nc_part_shared _ _ _ _ _ _ _ _ _ _ EN P) as (-> & -> & _).
  split; [|reflexivity]. destruct V as [<-|V]; [reflexivity|]. elim (N k' eq_refl).
  cbn in V |- *. tauto.
Qed.
Lemma steady_nc_unshared roots g p :
  (symmetry (n_sym g) = Ok SymPoint \/ symmetry (n_sym g) = Ok SymNone
   \/ n_buckling g = false \/ n_torsion g = false) ->
  steady (call_spec roots (CallNc g)) p.
Proof.
  intros H l k k' f rx ry xo yo r E -> P V. cbn [call_spec] in E.
  destruct (nc_part roots g) as [l0|e] eqn:EN; [|discriminate E]. cbn [bind] in E.
  injection E as ->. exfalso.
  destruct (nc_part_shared _ _ _ _ _ _ _ _ _ _ EN P) as (_ & _ & B & T & S).
  destruct H as [H|[H|[H|H]]]; try congruence; destruct S; congruence.
Qed.

Lemma any_call roots css evs i j cs c r :
  nth_error css i = Some cs -> nth_error cs j = Some c -> received (fst (play roots css evs)) i j = Some r ->
  agree (fun p => forall k k', p = [k; k'] -> ~ In k' volatile) r (st_heap (snd (play roots css evs)))
    (fst (run_call roots c fresh)) (st_heap (snd (run_call roots c fresh))).
Proof.
  intros Ecs Ec Er. eapply agree_mono; [apply steady_general|].
  eapply schedule_independent; eauto.
Qed.
Lemma nc_call_steady roots css evs i j cs g r :
  nth_error css i = Some cs -> nth_error cs j = Some (CallNc g) ->
  received (fst (play roots css evs)) i j = Some r ->
  agree (fun p => forall k', p = ["N_cz Intermediate"; k'] ->
           ~ In k' ["f_oc"; "λ_c"; "f_n"; "N_cz_buckling"; "AS4600 Clause"; "Symmetry";
                    "Axis of Symmetry"]) r (st_heap (snd (play roots css evs)))
    (fst (run_call roots (CallNc g) fresh)) (st_heap (snd (run_call roots (CallNc g) fresh))).
Proof.
  intros Ecs Ec Er. eapply agree_mono; [apply (steady_nc roots g)|].
  eapply schedule_independent; eauto.
Qed.
Lemma nc_call_unshared roots css evs i j cs g r :
  nth_error css i = Some cs -> nth_error cs j = Some (CallNc g) ->
  received (fst (play roots css evs)) i j = Some r ->
  (symmetry (n_sym g) = Ok SymPoint \/ symmetry (n_sym g) = Ok SymNone
   \/ n_buckling g = false \/ n_torsion g = false) ->
  agree (fun _ => True) r (st_heap (snd (play roots css evs)))
    (fst (run_call roots (CallNc g) fresh)) (st_heap (snd (run_call roots (CallNc g) fresh))).
Proof.
  intros Ecs Ec Er H.
  eapply agree_mono; [intros p _; apply (steady_nc_unshared roots g p H)|].
  eapply schedule_independent; eauto.
Qed.
Lemma nc_call_values roots css evs i j cs g r :
  nth_error css i = Some cs -> nth_error cs j = Some (CallNc g) ->
  received (fst (play roots css evs)) i j = Some r ->
  match nc_pure roots g with
  | Err e => r = Err e
  | Ok o => exists v, r = Ok v
      /\ forall k, numeric (at_path (st_heap (snd (play roots css evs))) v [k]) = option_map VNum (entry_of o k)
  end.
Proof.
  intros Ecs Ec Er. pose proof (nc_call_steady _ _ _ _ _ _ _ _ Ecs Ec Er) as A.
  pose proof (nc_values roots [] g) as P. cbn [session fold_left] in P.
  destruct (nc_pure roots g) as [o|e].
  - destruct P as (w & E & P). unfold agree in A. cbv zeta in E, P. rewrite E in A.
    destruct r as [v|e]; [|destruct A]. exists v. split; [reflexivity|]. intros k.
    rewrite A; [apply P|]. intros k' D. discriminate D.
  - unfold agree in A. cbv zeta in P. rewrite P in A. destruct r; [destruct A|congruence].
Qed.

(** After any schedule, a call that is left alone. *)
Lemma nc_after roots css evs g :
  same_numbers (run_call roots (CallNc g) (snd (play roots css evs)))
               (run_call roots (CallNc g) fresh).
Proof.
  pose proof (nc_call roots g _ (play_inv roots css evs)) as P.
  pose proof (nc_call roots g _ inv_fresh) as P'.
  unfold same_numbers. destruct (nc_tree roots g) as [t|e].
  - destruct P as (a & -> & S). destruct P' as (a' & -> & S').
    intros p. now rewrite (shows_num _ _ _ _ S), (shows_num _ _ _ _ S').
  - now rewrite P, P'.
Qed.

(** * The other thread's numbers *)

Lemma fold_app ts evs evs' :
  fold_left happen (app evs evs') ts = fold_left happen evs' (fold_left happen evs ts).
Proof. apply fold_left_app. Qed.

Lemma other_numbers roots q lx ly lz sym u fy' z z' :
  symmetry sym = Ok SymDouble ->
  s6_3_3_N_c_torsion roots q lx ly lz sym u = Ok z ->
  s6_3_3_N_c_torsion roots (with_f_y q fy') lx ly lz sym u = Ok z' ->
  let c := CallNcz q lx ly lz sym u in
  let c' := CallNcz (with_f_y q fy') lx ly lz sym u in
  exists evs v,
     received (fst (play roots [[c]; [c']] evs)) 0 0 = None
  /\ received (fst (play roots [[c]; [c']] (app evs [Run 0]))) 0 0 = Some (Ok v)
  /\ at_path (st_heap (snd (play roots [[c]; [c']] (app evs [Run 0])))) v ["Intermediate"; "λ_c"]
     = Some (VNum (cz_lambda_c z'))
  /\ exists w, fst (run_call roots c fresh) = Ok w
      /\ at_path (st_heap (snd (run_call roots c fresh))) w ["Intermediate"; "λ_c"]
         = Some (VNum (cz_lambda_c z)).
Proof.
  intros S E E' c c'. destruct (handed_out_changes roots q lx ly lz sym u fy' z z' S E E')
    as (v & E1 & E2 & E3).
  fold c in E1, E2, E3. fold c' in E3. cbn [session fold_left] in E3.
  set (s1 := snd (run_call roots c fresh)) in *.
  destruct (run_alone [] [] 0 (p_call roots c)
    (map (spawn roots) [[c]; [c']]) fresh eq_refl) as (n & En).
  rewrite same_call, E1 in En. fold s1 in En.
  destruct (run_alone [] [] 1 (p_call roots c')
    (replace 0 (mk_thread [] [Done (Ok v)]) (map (spawn roots) [[c]; [c']])) s1 eq_refl)
    as (m & Em).
  rewrite same_call in Em.
  exists (app (repeat (Run 0) n) (repeat (Run 1) m)), v. unfold play.
  rewrite !fold_app, En, Em. cbn [map spawn replace fold_left happen nth_error fst snd].
  split; [reflexivity|]. split; [reflexivity|]. split; [exact E3|].
  exists v. split; [exact E1|exact E2].
Qed.
