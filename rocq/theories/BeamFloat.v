(** Lemmas for C10, C14, C20, C23, C24: doubles, zero-length elements, constant loads. *)

From Coq Require Import ZArith Reals List Bool Sorted Permutation Lra Lia Floats.SpecFloat.
From Verif Require Import Base Num RNum PyNum Numpy LoadCase OrdFacts LoadFacts LoadSpec LoadProofs
  Beam BeamSpec BeamFacts BeamPositions BeamProofs BeamLoads BeamMisc.
Import ListNotations.

(** ** Rounding never makes a NaN of a non-negative mantissa *)
Lemma shr_1_nonneg m : (0 <= shr_m m)%Z -> (0 <= shr_m (shr_1 m))%Z.
Proof. destruct m as [[|[p|p|]|p] r s]; cbn; lia. Qed.

Lemma iter_shr_nonneg p : forall m, (0 <= shr_m m)%Z -> (0 <= shr_m (iter_pos shr_1 p m))%Z.
Proof. induction p as [p IH|p IH|]; intros m H; cbn; auto using shr_1_nonneg. Qed.

Lemma shr_fexp_nonneg m e l : (0 <= m)%Z -> (0 <= shr_m (fst (shr_fexp f64 e64 m e l)))%Z.
Proof.
  intros H. unfold shr_fexp, shr. assert (H' : (0 <= shr_m (shr_record_of_loc m l))%Z).
  { destruct l as [|[]]; auto. }
  destruct (_ - e)%Z; cbn; auto using iter_shr_nonneg.
Qed.

Lemma round_not_nan s m e l : (0 <= m)%Z -> binary_round_aux f64 e64 s m e l <> S754_nan.
Proof.
  intros H. unfold binary_round_aux. pose proof (shr_fexp_nonneg m e l H) as H1.
  destruct (shr_fexp f64 e64 m e l) as [r e']. cbn [fst] in H1.
  set (m2 := round_nearest_even _ _).
  assert (H2 : (0 <= m2)%Z).
  { unfold m2, round_nearest_even. destruct (loc_of_shr_record r) as [|[]]; try lia. destruct (Z.even _); lia. }
  clearbody m2. pose proof (shr_fexp_nonneg m2 e' loc_Exact H2) as H3.
  destruct (shr_fexp f64 e64 m2 e' loc_Exact) as [r2 e2]. cbn [fst] in H3.
  destruct (shr_m r2); [discriminate| |lia]. destruct (_ <=? _)%Z; discriminate.
Qed.

Lemma SFdiv_not_nan sx mx ex sy my ey :
  SFdiv f64 e64 (S754_finite sx mx ex) (S754_finite sy my ey) <> S754_nan.
Proof.
  unfold SFdiv, SFdiv_core_binary.
  set (m' := match (_ - _ - _)%Z with Z0 => _ | _ => _ end).
  assert (H : (0 <= m')%Z).
  { unfold m'. destruct (_ - _ - _)%Z; try lia. apply Z.shiftl_nonneg. lia. }
  clearbody m'. pose proof (Z.div_pos m' (Z.pos my) H ltac:(lia)) as Hd. unfold Z.div in Hd.
  destruct (Z.div_eucl m' (Z.pos my)) as [q r]. now apply round_not_nan.
Qed.

(** ** C14 on doubles *)
Lemma zero_plus (l : pynum) : l <> minus_zero -> nadd (nint 0) l = l.
Proof.
  destruct l as [z|[[]|s| |s m e]]; intros H; try reflexivity. now contradiction H.
Qed.

Section P.
Context {Sec : Type}.

Lemma C14_float (b : beam_t pynum Sec) l0 ls : Forall2 (fun e l => elength e = Some l) b (l0 :: ls) ->
  l0 <> minus_zero ->
  exists rest total, element_ends b = Ok ((fl 0 1, Some l0) :: rest) /\ beam_length b = Ok total /\
    rounded_tiles l0 ls rest total.
Proof.
  intros F N. inversion F as [|e l b' ls' E F' Eb El]; subst.
  destruct (ends_from_rounded b' ls F' l0) as (r & f & E1 & E2 & Rt).
  exists r, f. cbn [element_ends]. rewrite E, E1. cbn [bind]. split; [reflexivity|].
  unfold beam_length. cbn [sum_lengths]. rewrite E. unfold add_opt. cbn [bind]. rewrite zero_plus; auto.
Qed.

(** ** C23 on doubles *)
Definition tagged (ps : list pynum) (rows : list (orow pynum)) : Prop :=
  Forall (fun o => exists p, In p ps /\ (fst o = p \/ fst o = nfloat p)) rows.

Lemma nfloat_twice (x : pynum) : nfloat (nfloat x) = nfloat x.
Proof. reflexivity. Qed.

Lemma tagged_float ps rows : tagged ps rows -> tagged ps (map orow_float rows).
Proof.
  intros H. apply Forall_map. eapply Forall_impl; [|exact H]. intros o (p & Hp & E). exists p. split; auto.
  right. unfold orow_float. cbn [fst]. destruct E as [->| ->]; auto.
Qed.

Lemma vstack_tagged ps a v s : tagged ps a -> tagged ps v -> vstack a v = Ok s -> tagged ps s.
Proof.
  intros Ha Hv. assert (H : tagged ps (a ++ v)) by (apply Forall_app; auto). unfold vstack.
  destruct a as [|ra a]; [congruence|]. destruct v as [|rv v]; [congruence|].
  destruct (Nat.eqb _ _); [|discriminate].
  destruct (existsb row_has_none _).
  { intros E. apply (f_equal (fun r => match r with Ok x => x | Err _ => [] end)) in E. subst s. auto. }
  destruct (existsb row_has_float _); intros E;
    apply (f_equal (fun r => match r with Ok x => x | Err _ => [] end)) in E; subst s; auto.
  now apply tagged_float.
Qed.

Lemma set_position_tagged ps p rows : In p ps ->
  (rows = [] \/ existsb row_has_none rows = true \/ existsb row_has_float rows = true) ->
  tagged ps (set_position p rows).
Proof.
  intros Hp H. unfold set_position. apply Forall_map. apply Forall_forall. intros o Ho. exists p. split; auto. cbn [fst].
  destruct H as [->|[->| ->]]; [contradiction|auto|]. destruct (existsb row_has_none rows); auto.
Qed.

Lemma accumulate_tagged qs (b : beam_t pynum Sec) c a ps :
  any_argsort qs -> (forall e lc, In e b -> dict_get c (eloads e) = Ok lc -> float_table lc) ->
  forall locs, (forall t, In t locs -> In (fst (fst t)) ps) -> forall acc out,
  tagged ps (match acc with None => [] | Some x => x end) ->
  accumulate qs b c a acc locs = Ok (Some out) -> tagged ps out.
Proof.
  intros Hq Hf. induction locs as [|[[p e] l] locs IH]; intros Hl acc out Ha E; cbn [accumulate] in E.
  - injection E as ->. exact Ha.
  - destruct (py_index b e) as [el|] eqn:Ee; [|discriminate]. cbn [bind] in E.
    destruct (el_get_loads qs el c (PosNum l) None a) as [v|] eqn:Ev; [|discriminate]. cbn [bind] in E.
    destruct v as [rows|]; [|discriminate]. cbv zeta in E.
    assert (Hin : In el b).
    { unfold py_index in Ee. destruct (_ || _); [discriminate|].
      destruct (nth_error b _) eqn:En; [|discriminate]. injection Ee as ->. eapply nth_error_In; eauto. }
    assert (Ht : tagged ps (set_position p rows)).
    { apply set_position_tagged; [apply (Hl (p, e, l)); now left|].
      unfold el_get_loads in Ev. destruct (dict_get c (eloads el)) as [lc|] eqn:Ed; [|discriminate]. cbn [bind] in Ev.
      specialize (Hf el lc Hin Ed). destruct lc as [tab|].
      - assert (Fl : Forall (fun o => nisfloat (fst o) = true) rows).
        { apply (get_load_floats qs tab (PosNum l) None a); auto.
          intros x y Hy. eapply Permutation_in; [apply Hq|exact Hy]. }
        destruct rows as [|o rows]; auto. right. right. cbn [existsb]. apply Forall_inv in Fl.
        unfold row_has_float. now rewrite Fl.
      - unfold get_load in Ev. destruct (list_positions None None (PosNum l)) as [q|]; [|discriminate]. cbn [bind] in Ev.
        assert (Er : rows = map (fun p => (p, [None])) (np_array q)) by (injection Ev; auto).
        subst rows. destruct (np_array q); auto. }
    destruct acc as [x|].
    + destruct (vstack x (set_position p rows)) as [s|] eqn:Es; [|discriminate]. cbn [bind] in E.
      apply (IH (fun t H => Hl t (or_intror H)) (Some s) out); auto. exact (vstack_tagged ps x _ s Ha Ht Es).
    + cbn [bind] in E. apply (IH (fun t H => Hl t (or_intror H)) (Some (set_position p rows)) out); auto.
Qed.

Lemma C23_float_gen qs (b : beam_t pynum Sec) c position mp a out :
  any_argsort qs -> (forall e lc, In e b -> dict_get c (eloads e) = Ok lc -> float_table lc) ->
  beam_get_loads qs b c position mp a = Ok (Some out) ->
  exists locs, beam_list_positions b position mp (Some c) = Ok locs /\
    tagged (map (fun t => fst (fst t)) locs) out.
Proof.
  intros Hq Hf E. unfold beam_get_loads in E.
  destruct (beam_list_positions b position mp (Some c)) as [locs|]; [|discriminate]. cbn [bind] in E.
  exists locs. split; auto.
  apply (accumulate_tagged qs b c a _ Hq Hf locs) with (acc := None); auto; [|constructor].
  intros t Ht. now apply (in_map (fun t => fst (fst t))).
Qed.

Lemma py_set_in {T} {NT : Num T} (l : list T) : forall s x, In x (set_update s l) -> In x s \/ In x l.
Proof.
  unfold set_update. induction l as [|y l IH]; intros s x H; cbn in *; auto.
  apply IH in H. destruct H as [H|H]; auto. unfold set_add in H. destruct (py_in y s); auto.
  apply in_app_iff in H. cbn in H. intuition.
Qed.

Lemma locations_pos {T} {NT : Num T} (b : beam_t T Sec) lc ps locs : locations b lc ps = Ok locs ->
  forall t, In t locs -> In (fst (fst t)) ps.
Proof.
  unfold locations. intros E. destruct (mapM _ ps) as [tss|] eqn:M; [|discriminate]. cbn [bind] in E.
  injection E as <-. apply mapM_inv in M. intros t Ht. apply in_concat in Ht. destruct Ht as (ts & Hts & Ht).
  destruct (Forall2_In_r _ _ _ ts M Hts) as (p & Hp & Ep).
  destruct (in_elements b p) as [is|]; [|discriminate]. cbn [bind] in Ep.
  destruct (mapM (locations_at b lc p) is) as [rs|] eqn:Mr; [|discriminate]. cbn [bind] in Ep. injection Ep as <-.
  apply in_concat in Ht. destruct Ht as (r & Hr & Ht). apply mapM_inv in Mr.
  destruct (Forall2_In_r _ _ _ r Mr Hr) as (i & _ & Ei). unfold locations_at in Ei.
  assert (Et : fst (fst t) = p); [|now rewrite Et].
  destruct (py_index b i) as [e|]; [|discriminate]. cbn [bind] in Ei.
  assert (Single : (let! l := beam_to_local b p i in Ok [(p, i, l)]) = Ok r -> fst (fst t) = p).
  { destruct (beam_to_local b p i); [|discriminate]. cbn. intros [= <-]. destruct Ht as [<-|[]]. reflexivity. }
  destruct (elength e) as [len|]; auto. destruct (neqb len (nint 0)); auto.
  destruct (zero_length_positions e lc) as [xs|]; [|discriminate]. cbn [bind] in Ei. injection Ei as <-.
  apply in_map_iff in Ht. destruct Ht as (x & <- & _). reflexivity.
Qed.

Lemma C23_float qs (b : beam_t pynum Sec) c ps a out :
  any_argsort qs -> (forall e lc, In e b -> dict_get c (eloads e) = Ok lc -> float_table lc) ->
  Forall (fun p => nisfloat p = true) ps ->
  beam_get_loads qs b c (PosList ps) None a = Ok (Some out) ->
  Forall (fun o => In (fst o) ps) out.
Proof.
  intros Hq Hf Hp E. destruct (C23_float_gen qs b c _ _ a out Hq Hf E) as (locs & El & Ht).
  cbn [beam_list_positions] in El. destruct (check_on_beam b ps); [|discriminate]. cbn [bind] in El.
  eapply Forall_impl; [|exact Ht]. intros o (p & H & Eo). apply in_map_iff in H. destruct H as (t & <- & H).
  apply (locations_pos b _ _ _ El) in H. apply sort_in in H. apply py_set_in in H. destruct H as [[]|H].
  rewrite Forall_forall in Hp. specialize (Hp _ H). destruct Eo as [->| ->]; auto.
  destruct (fst (fst t)); [discriminate|auto].
Qed.

(** ** C24 on doubles: beams of one element *)
Lemma minus_zero_start f : to_ext (nsub (PFlt f) (fl 0 1)) = to_ext (PFlt f).
Proof. now destruct f as [[]|[]| |[] m e]. Qed.

Lemma py_cmp_zero x : py_leb (fl 0 1) x = py_leb (PInt 0) x.
Proof. reflexivity. Qed.

Lemma to_local_single (e : elem pynum Sec) l f : elength e = Some l -> positive_float l ->
  nleb (fl 0 1) (PFlt f) = true -> nleb (PFlt f) l = true ->
  beam_to_local [e] (PFlt f) 0 = Ok (ndiv (nsub (PFlt f) (fl 0 1)) l) /\
  Pok (ndiv (nsub (PFlt f) (fl 0 1)) l).
Proof.
  intros El (m & ex & ->) H0 H1. split.
  - unfold beam_to_local, element_start_end. cbn [element_ends ends_from]. rewrite El. cbn [bind].
    change (py_index [(nflt 0 1, Some (PFlt (S754_finite false m ex)))] 0)
      with (Ok (A := pynum * option pynum) (nflt 0 1, Some (PFlt (S754_finite false m ex)))).
    change (py_index [e] 0) with (Ok e). cbn [bind fst]. cbv zeta. rewrite El. fold (fl 0 1).
    assert (A1 : nltb (nsub (PFlt f) (fl 0 1)) (nint 0) = false).
    { cbn [nltb nleb PNum] in *. unfold py_ltb, py_leb in *. rewrite minus_zero_start.
      replace (to_ext (nint 0)) with (to_ext (fl 0 1)) by reflexivity. rewrite H0. apply andb_false_r. }
    assert (A2 : nltb (PFlt (S754_finite false m ex)) (nsub (PFlt f) (fl 0 1)) = false).
    { cbn [nltb nleb PNum] in *. unfold py_ltb, py_leb in *. rewrite minus_zero_start. rewrite H1. apply andb_false_r. }
    rewrite A1, A2.
    assert (A3 : neqb (PFlt (S754_finite false m ex)) (fl 0 1) = false).
    { cbn [neqb PNum]. unfold py_eqb. replace (py_leb (PFlt (S754_finite false m ex)) (fl 0 1)) with false; auto.
      symmetry. unfold py_leb. change (to_ext (fl 0 1)) with (EFin 0 0). cbn [to_ext]. cbn [ext_leb].
      apply Z.leb_gt. rewrite Z.mul_0_l. apply Z.mul_pos_pos; [lia|]. apply Z.pow_pos_nonneg; lia. }
    now rewrite A3.
  - destruct f as [[]|[]| |s m' e']; try exact I.
    + vm_compute in H0. discriminate.
    + change (nsub (PFlt (S754_finite s m' e')) (fl 0 1)) with (PFlt (S754_finite s m' e')).
      cbn [ndiv PNum tofl]. pose proof (SFdiv_not_nan s m' e' false m ex) as N. unfold Pok.
      destruct (SFdiv f64 e64 _ _); auto.
Qed.

Lemma single_length (e : elem pynum Sec) l : elength e = Some l -> positive_float l ->
  beam_length [e] = Ok l /\ element_ends [e] = Ok [(fl 0 1, Some l)] /\ neqb l (nint 0) = false.
Proof.
  intros El (m & ex & ->). unfold beam_length. cbn [sum_lengths element_ends ends_from]. rewrite El. cbn [bind add_opt].
  rewrite zero_plus by discriminate. repeat split. cbn [neqb PNum]. unfold py_eqb.
  replace (py_leb (PFlt (S754_finite false m ex)) (nint 0)) with false; auto.
  symmetry. unfold py_leb. cbn [to_ext nint PNum ext_leb].
  apply Z.leb_gt. rewrite Z.mul_0_l. apply Z.mul_pos_pos; [lia|]. apply Z.pow_pos_nonneg; lia.
Qed.

Lemma locations_single (e : elem pynum Sec) l lc ps : elength e = Some l -> positive_float l ->
  Forall (fun p => nisfloat p = true) ps ->
  exists locs, locations [e] lc ps = Ok locs /\
    Forall (fun t => snd (fst t) = 0%Z /\ Pok (snd t)) locs.
Proof.
  intros El Pl Hp. destruct (single_length e l El Pl) as (_ & Ee & Ez).
  unfold locations. induction Hp as [|p ps Hp _ IH]; [cbn; eauto|].
  destruct p as [|f]; [discriminate|]. destruct IH as (locs & E & F). cbn [mapM].
  destruct (mapM _ ps) as [r|]; [|discriminate]. cbn [bind] in E. injection E as <-.
  unfold in_elements at 1. rewrite Ee. cbn [bind in_ends].
  destruct (nleb (fl 0 1) (PFlt f)) eqn:H0; cbn [bind mapM List.concat]; [|eauto].
  destruct (nleb (PFlt f) l) eqn:H1; cbn [mapM bind List.concat]; [|eauto].
  unfold locations_at at 1. change (py_index [e] 0) with (Ok e). cbn [bind]. rewrite El, Ez.
  destruct (to_local_single e l f El Pl H0 H1) as (-> & Ho). cbn [bind app].
  eexists. split; [reflexivity|]. cbn. constructor; auto.
Qed.

Lemma single_explicit (e : elem pynum Sec) l lc ps : elength e = Some l -> positive_float l ->
  Forall (fun p => nisfloat p = true /\ nleb (fl 0 1) p = true /\ nleb p l = true) ps ->
  exists locs, beam_list_positions [e] (PosList ps) None lc = Ok locs /\
    Forall (fun t => snd (fst t) = 0%Z /\ Pok (snd t)) locs.
Proof.
  intros El Pl Hp. destruct (single_length e l El Pl) as (Eb & _ & _). cbn [beam_list_positions].
  assert (C : check_on_beam [e] ps = Ok tt).
  { induction Hp as [|p ps (H1 & H2 & H3) _ IH]; [reflexivity|]. cbn [check_on_beam].
    assert (A1 : nltb p (nint 0) = false).
    { cbn [nltb nleb PNum] in *. unfold py_ltb. rewrite py_cmp_zero in H2. change (nint 0) with (PInt 0).
      rewrite H2. apply andb_false_r. }
    rewrite A1, Eb. cbn [bind].
    assert (A2 : nltb l p = false).
    { cbn [nltb nleb PNum] in *. unfold py_ltb. rewrite H3. apply andb_false_r. }
    now rewrite A2. }
  rewrite C. cbn [bind]. apply (locations_single e l); auto.
  apply Forall_forall. intros p H. apply sort_in in H. apply py_set_in in H. destruct H as [[]|H].
  rewrite Forall_forall in Hp. now apply Hp.
Qed.

Lemma good_local qs rows x a cs : any_argsort qs -> good_table rows -> Pok x -> designates a cs -> cs <> [] ->
  exists out, get_load qs (Some rows) (PosNum x) None a = Ok (Some out) /\
    Forall (fun o => List.length (snd o) = List.length cs) out.
Proof.
  intros Hq (H1 & H2 & H3) Hx Hd Hc.
  destruct (C02_float_lemma qs rows [x] a cs Hq H1 H2 H3) as (at_ps & blocks & _ & F & E); auto; [discriminate|].
  exists (List.concat blocks). split.
  - rewrite <- E. unfold get_load, list_positions. destruct x as [z|f]; [contradiction|]. reflexivity.
  - clear E. induction F as [|p blk ps bs Hb _ IH]; cbn [List.concat]; [constructor|]. apply Forall_app. split; auto.
    destruct Hb as [_|vs _ F2].
    + apply Forall_map. apply Forall_forall. intros r _. cbn. now rewrite map_length.
    + constructor; auto. cbn. rewrite map_length. clear - F2. induction F2; cbn; congruence.
Qed.

Lemma single_accumulate qs (e : elem pynum Sec) c a cs rows : any_argsort qs ->
  dict_get c (eloads e) = Ok (Some rows) -> good_table rows -> designates a cs -> cs <> [] ->
  forall locs, Forall (fun t => snd (fst t) = 0%Z /\ Pok (snd t)) locs -> forall acc,
  Forall (fun o : orow pynum => List.length (snd o) = List.length cs) (match acc with None => [] | Some x => x end) ->
  exists out, accumulate qs [e] c a acc locs = Ok out.
Proof.
  intros Hq Ed Hg Hd Hc. induction 1 as [|[[p z] x] locs (Hz & Hx) _ IH]; intros acc Ha; cbn [accumulate]; [eauto|].
  cbn in Hz, Hx. subst z. change (py_index [e] 0) with (Ok e). cbn [bind]. unfold el_get_loads at 1.
  rewrite Ed. cbn [bind]. destruct (good_local qs rows x a cs Hq Hg Hx Hd Hc) as (out & -> & W). cbn [bind]. cbv zeta.
  assert (W' : Forall (fun o : orow pynum => List.length (snd o) = List.length cs) (set_position p out)).
  { unfold set_position. apply Forall_map. exact W. }
  destruct acc as [s|]; [|apply IH; exact W'].
  assert (V : exists s', vstack s (set_position p out) = Ok s' /\
     Forall (fun o : orow pynum => List.length (snd o) = List.length cs) s').
  { assert (G : Forall (fun o : orow pynum => List.length (snd o) = List.length cs) (s ++ set_position p out))
      by (apply Forall_app; auto).
    unfold vstack. destruct s as [|r1 s]; [eauto|]. destruct (set_position p out) as [|r2 s2]; [eauto|].
    rewrite (Forall_inv Ha), (Forall_inv W'), Nat.eqb_refl. eexists. split; [reflexivity|].
    destruct (existsb row_has_none _); auto. destruct (existsb row_has_float _); auto.
    apply Forall_map. eapply Forall_impl; [|exact G]. intros o Ho. unfold orow_float. cbn [snd]. now rewrite map_length. }
  destruct V as (s' & -> & W2). cbn [bind]. apply IH. exact W2.
Qed.

Lemma C24_single_explicit qs (e : elem pynum Sec) l c rows ps a cs : any_argsort qs ->
  elength e = Some l -> positive_float l -> dict_get c (eloads e) = Ok (Some rows) -> good_table rows ->
  designates a cs -> cs <> [] ->
  Forall (fun p => nisfloat p = true /\ nleb (fl 0 1) p = true /\ nleb p l = true) ps ->
  exists out, beam_get_loads qs [e] c (PosList ps) None a = Ok out.
Proof.
  intros Hq El Pl Ed Hg Hd Hc Hp. destruct (single_explicit e l (Some c) ps El Pl Hp) as (locs & E & F).
  unfold beam_get_loads. rewrite E. cbn [bind]. apply (single_accumulate qs e c a cs rows); auto.
Qed.

Lemma C24_single_min qs (e : elem pynum Sec) l c rows n a cs : any_argsort qs ->
  elength e = Some l -> positive_float l -> dict_get c (eloads e) = Ok (Some rows) -> good_table rows ->
  Forall (fun r => nleb (fl 0 1) (lpos r) = true /\ nleb (lpos r) (fl 1 1) = true) rows ->
  designates a cs -> cs <> [] -> (0 <= n)%Z ->
  exists out, beam_get_loads qs [e] c PosNone (Some n) a = Ok out.
Proof.
  intros Hq El Pl Ed Hg Hr Hd Hc Hn. destruct (single_length e l El Pl) as (Eb & Ee & Ez).
  unfold beam_get_loads, beam_list_positions. rewrite Eb. cbn [bind].
  unfold linspace. destruct (n <? 0)%Z eqn:E0; [apply Z.ltb_lt in E0; lia|]. cbn [bind].
  set (lin := if (1 <? n)%Z then _ else _).
  assert (Hlin : Forall (fun p => nisfloat p = true) lin).
  { assert (A : forall i, nisfloat (lin_entry (nfloat (fl 0 1)) (nsub (nfloat l) (nfloat (fl 0 1))) n i) = true).
    { intros i. unfold lin_entry. cbv zeta. repeat match goal with |- context [if ?x then _ else _] => destruct x end; reflexivity. }
    unfold lin. destruct (1 <? n)%Z.
    - apply Forall_app. split; [apply Forall_map, Forall_forall; intros; apply A|repeat constructor].
    - apply Forall_map, Forall_forall; intros; apply A. }
  clearbody lin. rewrite Ee. cbn [bind real_positions]. unfold el_load_positions. rewrite Ed. cbn [bind load_positions].
  assert (M : exists q, mapM (fun p => local_to_beam [e] p 0) (map lpos rows) = Ok q /\
                Forall (fun p => nisfloat p = true) q).
  { clear Ed Hg. induction Hr as [|r rows (H1 & H2) _ IH]; [exists []; split; [reflexivity|constructor]|].
    destruct IH as (q & Eq & Fq).
    assert (A1 : nltb (lpos r) (nint 0) = false).
    { cbn [nltb nleb PNum] in *. unfold py_ltb. rewrite py_cmp_zero in H1. change (nint 0) with (PInt 0).
      rewrite H1. apply andb_false_r. }
    assert (A2 : nltb (nflt 1 1) (lpos r) = false).
    { cbn [nltb nleb PNum] in *. unfold py_ltb. fold (fl 1 1). rewrite H2. apply andb_false_r. }
    cbn [map mapM]. unfold local_to_beam at 1. rewrite A1, A2. cbn [orb]. unfold element_start_end. rewrite Ee. cbn [bind].
    change (py_index [(fl 0 1, Some l)] 0) with (Ok (A := pynum * option pynum) (fl 0 1, Some l)).
    change (py_index [e] 0) with (Ok e). cbn [bind fst]. rewrite El, Eq. cbn [bind].
    eexists. split; [reflexivity|]. constructor; auto. }
  destruct M as (q & -> & Fq). cbn [bind].
  match goal with |- exists out, bind (locations [e] (Some c) ?ps) _ = _ =>
    destruct (locations_single e l (Some c) ps El Pl) as (locs & -> & F) end.
  - apply Forall_forall. intros p H. apply sort_in in H. apply py_set_in in H.
    destruct H as [H|H]; [|rewrite Forall_forall in Hlin; auto].
    apply py_set_in in H. destruct H as [[]|H]. apply in_app_iff in H. destruct H as [H|H].
    + destruct Pl as (m & ex & ->). cbn in H. destruct H as [<-|[<-|[]]]; reflexivity.
    + rewrite app_nil_r in H. rewrite Forall_forall in Fq. auto.
  - cbn [bind]. apply (single_accumulate qs e c a cs rows); auto.
Qed.
End P.

Open Scope R_scope.
Section B.
Context {Sec : Type}.
Implicit Types b : beam_t R Sec.

Lemma in_locals (locs : list (location R)) p i l : In l (locals_of locs p i) <-> In (p, Z.of_nat i, l) locs.
Proof.
  unfold locals_of. rewrite in_map_iff. split.
  - intros ([[q z] x] & <- & H). apply filter_In in H. cbn in H. destruct H as [H E].
    apply andb_true_iff in E. destruct E as [E1 E2]. apply Reqb_true in E1. apply Z.eqb_eq in E2. now subst.
  - intros H. exists (p, Z.of_nat i, l). split; auto. apply filter_In. split; auto. cbn.
    now rewrite Reqb_refl, Z.eqb_refl.
Qed.

Lemma C20_iff b ls position mp c locs p i r0 rows : has_lengths b ls ->
  beam_list_positions b position mp (Some c) = Ok locs -> In p (positions_of locs) ->
  covers ls i p -> nth i ls 0 = 0 -> stored_table b c i (r0 :: rows) -> accepted (Some (r0 :: rows)) ->
  good_locals locs p i (r0 :: rows) <-> lpos r0 = 0 /\ lpos (last rows r0) = 1.
Proof.
  intros H E Hp C Z (e & He & Ed) Ha.
  pose proof (locals_zero b ls position mp (Some c) locs p i e H E Hp C He Z) as L.
  rewrite (zero_length_table e c r0 rows Ed) in L.
  apply (f_equal (fun r => match r with Ok x => x | Err _ => [] end)) in L.
  apply accepted_rows in Ha. destruct Ha as [S F].
  assert (F' : forall r, In r (r0 :: rows) -> 0 <= lpos r <= 1) by (rewrite Forall_forall in F; exact F).
  assert (Lin : In (last rows r0) (r0 :: rows)).
  { clear. revert r0. induction rows as [|x rows IH]; intros r0; [now left|].
    right. destruct rows as [|y rows]; [now left|]. specialize (IH x).
    replace (last (x :: y :: rows) r0) with (last (y :: rows) x); auto.
    change (last (x :: y :: rows) r0) with (last (y :: rows) r0). clear.
    revert y. induction rows as [|z rows IH]; intros y; auto. apply (IH z). }
  unfold good_locals. destruct (Reqb (lpos (last rows r0)) 1) eqn:El.
  - apply Reqb_true in El. split.
    + intros (_ & H0 & _ & _). split; auto. apply in_locals in H0. rewrite <- L in H0.
      apply in_map_iff in H0. destruct H0 as (r & Er & Hr).
      apply StronglySorted_inv in S. destruct S as [_ S]. rewrite Forall_forall in S.
      pose proof (F' r0 (or_introl eq_refl)). destruct Hr as [->|Hr]; auto.
      specialize (S r Hr). lra.
    + intros (H0 & _). repeat split.
      * apply in_locals in H1. rewrite <- L in H1. apply in_map_iff in H1. destruct H1 as (r & <- & Hr). apply F', Hr.
      * apply in_locals in H1. rewrite <- L in H1. apply in_map_iff in H1. destruct H1 as (r & <- & Hr). apply F', Hr.
      * apply in_locals. rewrite <- L. left. exact H0.
      * apply in_locals. rewrite <- L. rewrite <- El. apply in_map. exact Lin.
      * intros r Hr. apply in_locals. rewrite <- L. now apply in_map.
  - apply Reqb_false in El. split; [|tauto]. intros (_ & H0 & _ & _). exfalso.
    apply in_locals in H0. rewrite <- L in H0. rewrite map_map in H0. apply in_map_iff in H0.
    destruct H0 as (r & Er & Hr). specialize (F' r Hr). lra.
Qed.

Lemma C20_none b ls position mp locs p i : has_lengths b ls ->
  beam_list_positions b position mp None = Ok locs -> In p (positions_of locs) ->
  covers ls i p -> nth i ls 0 = 0 ->
  forall l, In (p, Z.of_nat i, l) locs <-> l = 0 \/ l = 1.
Proof.
  intros H E Hp C Z l. destruct (lengths_has b ls i H (proj1 C)) as (e & He).
  pose proof (locals_zero b ls position mp None locs p i e H E Hp C He Z) as L. cbn in L.
  apply (f_equal (fun r => match r with Ok x => x | Err _ => [] end)) in L.
  rewrite <- in_locals, <- L. cbn. split; [intros [<-|[<-|[]]]|intros [->| ->]]; [left|right|left|right; left]; lra.
Qed.

(** ** C23 over the reals *)
Lemma C23_real qs b ls c position mp a out : has_lengths b ls ->
  beam_get_loads qs b c position mp a = Ok (Some out) ->
  exists locs, beam_list_positions b position mp (Some c) = Ok locs /\
    StronglySorted Rle (map fst out) /\
    (forall p, In p (map fst out) -> In p (positions_of locs)).
Proof.
  intros H E. destruct (C21_inv qs b ls c position mp a _ H E) as (locs & blocks & El & F & Eo).
  exists locs. split; auto. destruct (list_positions_triples b ls position mp (Some c) locs H El) as (_ & S & _).
  assert (Ec : out = List.concat blocks) by (destruct locs; [discriminate|congruence]). subst out. clear - F S.
  assert (K : forall t blk, rows_of_triple qs b c a t blk -> forall o, In o blk -> fst o = fst (fst t)).
  { intros [[p e] l] blk (el & rows & _ & _ & _ & ->) o Ho. unfold at_position in Ho.
    apply in_map_iff in Ho. destruct Ho as (r & <- & _). reflexivity. }
  assert (Kc : forall locs blocks, Forall2 (rows_of_triple qs b c a) locs blocks ->
     forall p, In p (map fst (List.concat blocks)) -> In p (positions_of locs)).
  { clear F S. induction 1 as [|t blk locs0 bs Ht F IH]; cbn; auto. intros p. rewrite map_app, in_app_iff.
    intros [Hp|Hp]; [left|right; auto]. apply in_map_iff in Hp. destruct Hp as (o & <- & Ho).
    symmetry. eapply K; eauto. }
  split; [|now apply Kc].
  induction F as [|t blk locs bs Ht F IH]; cbn [List.concat map]; [constructor|].
  cbn [positions_of map] in S. apply StronglySorted_inv in S. destruct S as [S Fl]. specialize (IH S).
  rewrite map_app. assert (Kt := K t blk Ht). clear K Ht.
  induction blk as [|o blk IHb]; [exact IH|]. cbn [map app]. constructor.
  - apply IHb. intros; apply Kt; now right.
  - rewrite (Kt o) by now left. apply Forall_app. split.
    + apply Forall_map. apply Forall_forall. intros o' Ho'. rewrite (Kt o') by now right. lra.
    + apply Forall_forall. intros p Hp. apply (Kc locs bs F) in Hp. rewrite Forall_forall in Fl. auto.
Qed.

Lemma C23_real_all qs b ls c position mp a cs locs : any_argsort qs -> has_lengths b ls ->
  loaded b c -> designates a cs -> cs <> [] ->
  beam_list_positions b position mp (Some c) = Ok locs -> locs <> [] ->
  exists out, beam_get_loads qs b c position mp a = Ok (Some out) /\
    forall p, In p (map fst out) <-> In p (positions_of locs).
Proof.
  intros Hq H Hl Hd Hc El N. destruct (C21_total qs b ls c position mp a cs locs Hq H Hl Hd Hc El) as (blocks & F & E).
  exists (List.concat blocks). split; [destruct locs; [congruence|exact E]|].
  clear E El N. induction F as [|t blk locs bs Ht F IH]; [cbn; tauto|]. intros p. cbn [List.concat positions_of map].
  rewrite map_app, in_app_iff, IH. cbn [In]. fold (positions_of locs).
  assert (K : In p (map fst blk) <-> fst (fst t) = p); [|tauto].
  destruct t as [[q z] l]. destruct Ht as (el & rows & Hel & _ & Er & ->). cbn [fst].
  destruct (Hl el (nth_error_In _ _ Hel)) as (tab & Ed & Ha & Hn).
  rewrite (el_get_loads_block qs el c l a cs tab) in Er by auto.
  assert (Eb : rows = block tab cs l) by congruence.
  assert (Nr : rows <> []).
  { subst rows. apply (block_nonempty (ok := Rok)); [|exact I]. clear. induction tab; constructor; auto.
    split; [exact I|reflexivity]. }
  unfold at_position. rewrite map_map. split.
  - intros Hp. apply in_map_iff in Hp. destruct Hp as (o & E & _). exact E.
  - intros <-. destruct rows as [|o rows]; [congruence|]. now left.
Qed.

(** ** C24 over the reals *)
Lemma C24_explicit qs b ls c position ps a cs : any_argsort qs -> has_lengths b ls -> loaded b c ->
  designates a cs -> cs <> [] -> requested position ps -> Forall (fun p => 0 <= p <= span ls) ps ->
  exists out, beam_get_loads qs b c position None a = Ok out.
Proof.
  intros Hq H Hl Hd Hc Rq Hp.
  assert (X : exists locs, beam_list_positions b position None (Some c) = Ok locs).
  { rewrite (explicit_R b position ps (Some c) Rq).
    destruct (check_on_beam_R b ls ps H) as [[-> _]|[-> (p & Hin & Off)]]; cbn [bind].
    - apply (locations_total b ls); auto. intros i e He _. right.
      destruct (Hl e (nth_error_In _ _ He)) as (rows & Ed & _ & Hn). exists c.
      unfold el_load_positions. rewrite Ed. destruct rows as [|r rows]; [congruence|]. cbn. eauto.
    - rewrite Forall_forall in Hp. specialize (Hp p Hin). lra. }
  destruct X as (locs & El).
  destruct (C21_total qs b ls c position None a cs locs Hq H Hl Hd Hc El) as (blocks & _ & E). eauto.
Qed.

Lemma C24_min qs b ls c n a cs : any_argsort qs -> has_lengths b ls -> b <> [] -> loaded b c ->
  designates a cs -> cs <> [] -> (0 <= n)%Z ->
  exists out, beam_get_loads qs b c PosNone (Some n) a = Ok out.
Proof.
  intros Hq H Nb Hl Hd Hc Hn. destruct (C18_loads b ls c n H Nb Hl Hn) as (locs & El & _).
  destruct (C21_total qs b ls c PosNone (Some n) a cs locs Hq H Hl Hd Hc El) as (blocks & _ & E). eauto.
Qed.

(** ** C10 on a beam *)
Lemma C10_beam qs case_id vx vy n mx my t len (s : option Sec) ps : any_argsort qs -> 0 < len -> ps <> [] ->
  Forall (fun p => 0 <= p <= len) ps ->
  exists e b at_ps, constant_load_element case_id vx vy n mx my t (Some len) s = Ok e /\
    beam (BElem e) = Ok b /\ distinct_ascending ps at_ps /\
    beam_get_loads qs b case_id (PosList ps) None CNone
    = Ok (Some (map (fun p => (p, map Some [vx; vy; n; mx; my; t])) at_ps)).
Proof.
  intros Hq Hlen Np Hp.
  destruct (C10_num_real qs vx vy n mx my t 0 Hq) as (lc & Hlc & _).
  assert (He : constant_load_element case_id vx vy n mx my t (Some len) s = Ok (mk_elem (Some len) s [(case_id, lc)])).
  { unfold constant_load_element. rewrite Hlc. cbn [bind]. unfold element. cbn [nltb nflt RNum].
    now rewrite (proj2 (Rltb_false len (0/1))) by lra. }
  set (e := mk_elem (Some len) s [(case_id, lc)]) in *.
  assert (Hb : beam (BElem e) = Ok [e]).
  { apply C13_accept. split; [left; eauto|]. split; [discriminate|]. intros x y [<-|[]] [<-|[]]. reflexivity. }
  assert (HL : has_lengths [e] [len]) by (repeat constructor; cbn; lra).
  exists e, [e], (py_sorted (py_set ps)). split; auto. split; auto.
  assert (DA : distinct_ascending ps (py_sorted (py_set ps))).
  { split; [|split].
    - pose proof (sorted_set_ascending (ok := Rok) ps (R_ok ps)) as A. exact A.
    - intros p H. apply sort_in in H. apply py_set_in in H. destruct H as [[]|H]; auto.
    - intros p H. exists p. split; [|apply Reqb_refl]. now apply Rin_sorted_set. }
  split; auto. unfold beam_get_loads.
  assert (El : beam_list_positions [e] (PosList ps) None (Some case_id)
     = Ok (map (fun p => (p, 0%Z, p / len)) (py_sorted (py_set ps)))).
  { rewrite (explicit_R [e] (PosList ps) ps (Some case_id) (r_list ps)).
    assert (Sp : span [len] = len) by (unfold span; cbn; lra).
    destruct (check_on_beam_R [e] [len] ps HL) as [[-> _]|[-> (p & Hin & Off)]]; cbn [bind].
    2:{ rewrite Forall_forall in Hp. specialize (Hp p Hin). lra. }
    assert (Hs : Forall (fun p => 0 <= p <= len) (py_sorted (py_set ps))).
    { apply Forall_forall. intros p H. apply sort_in in H. apply py_set_in in H. rewrite Forall_forall in Hp.
      destruct H as [[]|H]; auto. }
    unfold locations. rewrite (mapM_ok _ (fun p => [(p, 0%Z, p / len)])).
    - cbn [bind]. apply f_equal. clear. generalize (py_sorted (py_set ps)). intros q. induction q as [|x q IH]; [reflexivity|].
      cbn [map List.concat app]. now rewrite IH.
    - intros p H. rewrite Forall_forall in Hs. specialize (Hs p H).
      rewrite (in_elements_R [e] [len] p HL). cbn [bind].
      assert (Ei : ids [len] p = [0%nat]).
      { unfold ids. cbn [List.length seq filter]. unfold in_ext, start_of, end_of, span. cbn.
        rewrite (proj2 (Rleb_true 0 p)), (proj2 (Rleb_true p (len + 0))) by lra. reflexivity. }
      rewrite Ei. cbn [map mapM]. change (Z.of_nat 0) with 0%Z. unfold locations_at.
      change (py_index [e] 0) with (Ok e). cbn [bind]. cbn [elength e neqb nint RNum].
      rewrite (proj2 (Reqb_false len 0)) by lra.
      assert (D : designated (List.length [e]) 0 0) by (split; [cbn; lia|auto]).
      rewrite (beam_to_local_R [e] [len] p 0 0 HL D). unfold in_ext, start_of, end_of, span. cbn.
      rewrite (proj2 (Rleb_true 0 p)), (proj2 (Rleb_true p (len + 0))) by lra. cbn.
      rewrite (proj2 (Reqb_false len 0)) by lra. cbn. match goal with |- Ok [(p, 0%Z, ?x)] = _ => replace x with (p / len) by (f_equal; lra) end. reflexivity. }
  rewrite El. cbn [bind].
  assert (G : forall x, el_get_loads qs e case_id (PosNum x) None CNone
     = Ok (Some [(x, map Some [vx; vy; n; mx; my; t])])).
  { intros x. unfold el_get_loads. cbn [eloads e dict_get]. rewrite Z.eqb_refl. cbn [bind].
    destruct (C10_num_real qs vx vy n mx my t x Hq) as (lc' & Hlc' & Hg). congruence. }
  assert (Acc : forall l acc, (forall o, In o acc -> List.length (snd o) = 6%nat) ->
    accumulate qs [e] case_id CNone (Some acc) (map (fun p => (p, 0%Z, p / len)) l)
    = Ok (Some (acc ++ map (fun p => (p, map Some [vx; vy; n; mx; my; t])) l))).
  { induction l as [|p l IH]; intros acc Ha; cbn [map accumulate]; [now rewrite app_nil_r|].
    change (py_index [e] 0) with (Ok e). cbn [bind]. rewrite G. cbn [bind]. rewrite set_position_R.
    cbn [at_position map fst snd].
    rewrite (vstack_ok _ _ 6).
    - cbn [bind]. rewrite IH.
      + now rewrite <- app_assoc.
      + intros o Ho. apply in_app_iff in Ho. destruct Ho as [Ho|[<-|[]]]; auto.
    - apply Forall_forall. auto.
    - repeat constructor. }
  destruct (py_sorted (py_set ps)) as [|p0 l] eqn:Es.
  - exfalso. destruct ps as [|p ps]; [congruence|].
    assert (In p (py_sorted (py_set (p :: ps)))) by (apply Rin_sorted_set; now left). rewrite Es in H. contradiction.
  - cbn [map accumulate]. change (py_index [e] 0) with (Ok e). cbn [bind]. rewrite G. cbn [bind]. rewrite set_position_R.
    cbn [at_position map fst snd]. rewrite Acc; [reflexivity|]. intros o [<-|[]]. reflexivity.
Qed.
End B.
