(** Lemmas for C07, C10, C13-C16, C20, C23, C24. *)

From Coq Require Import ZArith Reals List Bool Sorted Lra Lia Floats.SpecFloat.
From Verif Require Import Base Num RNum PyNum Numpy LoadCase OrdFacts LoadFacts LoadSpec LoadProofs
  Beam BeamSpec BeamFacts BeamPositions BeamProofs BeamLoads.
Import ListNotations.

(** ** C13, for any numbers *)
Section Ctor.
Context {T : Type} {NT : Num T} {Sec : Type}.
Implicit Types b : beam_t T Sec.

Lemma zlist_eqb_iff a : forall a0 : list Z, zlist_eqb a a0 = true <-> a = a0.
Proof.
  induction a as [|x a IH]; intros [|y b]; cbn; split; intros H; try discriminate; auto.
  - apply andb_true_iff in H. destruct H as [H1 H2]. apply Z.eqb_eq in H1. apply IH in H2. congruence.
  - injection H as -> ->. rewrite Z.eqb_refl. now apply IH.
Qed.

Lemma check_elements_cases b :
  (b = [] /\ check_elements b = Err ElementError) \/
  (b <> [] /\ consistent b /\ check_elements b = Ok b) \/
  (b <> [] /\ ~ consistent b /\ check_elements b = Err ElementCaseError).
Proof.
  destruct b as [|e0 b]; auto. right. unfold check_elements.
  destruct (forallb (fun e => Nat.eqb (el_no_load_cases e) (el_no_load_cases e0)) (e0 :: b)) eqn:E1;
    cbn [negb].
  - destruct (forallb (fun e => zlist_eqb (el_load_cases e) (el_load_cases e0)) (e0 :: b)) eqn:E2; cbn [negb].
    + left. repeat split; try discriminate. rewrite forallb_forall in E2.
      intros e e' He He'. apply E2, zlist_eqb_iff in He. apply E2, zlist_eqb_iff in He'. congruence.
    + right. repeat split; try discriminate. intros C.
      assert (F : forallb (fun e => zlist_eqb (el_load_cases e) (el_load_cases e0)) (e0 :: b) = true); [|congruence].
      apply forallb_forall. intros e He. apply zlist_eqb_iff. apply C; auto. now left.
  - right. repeat split; try discriminate. intros C.
    assert (F : forallb (fun e => Nat.eqb (el_no_load_cases e) (el_no_load_cases e0)) (e0 :: b) = true); [|congruence].
    apply forallb_forall. intros e He. apply Nat.eqb_eq. unfold el_no_load_cases.
    now rewrite (C e e0 He (or_introl eq_refl)).
Qed.

Lemma all_elements_iff (l : list (option (elem T Sec))) es : all_elements l = Some es <-> l = map Some es.
Proof.
  revert es. induction l as [|[e|] l IH]; intros es; cbn.
  - split; [intros [= <-]; reflexivity|]. destruct es; [auto|discriminate].
  - destruct (all_elements l) as [r|]; cbn; split; intros H.
    + injection H as <-. cbn. f_equal. now apply IH.
    + destruct es as [|e' es]; [discriminate|]. cbn in H. injection H as -> H. apply IH in H. congruence.
    + discriminate.
    + destruct es as [|e' es]; [discriminate|]. cbn in H. injection H as -> H. apply IH in H. discriminate.
  - split; [discriminate|]. destruct es; discriminate.
Qed.

Lemma all_elements_none (l : list (option (elem T Sec))) : all_elements l = None <-> In None l.
Proof.
  induction l as [|[e|] l IH]; cbn.
  - split; [discriminate|tauto].
  - destruct (all_elements l); cbn; split; intros H.
    + discriminate.
    + destruct H as [|H]; [discriminate|]. apply IH in H. discriminate.
    + right. now apply IH.
    + auto.
  - tauto.
Qed.

Lemma C13_accept inp b : beam inp = Ok b <-> gives inp b /\ b <> [] /\ consistent b.
Proof.
  unfold gives. destruct inp as [|e|l]; cbn.
  - split; [discriminate|]. intros ([(e & H & _)|H] & _); discriminate.
  - destruct (check_elements_cases [e]) as [[H _]|[(_ & C & E)|(_ & C & _)]]; [discriminate| |].
    + unfold check_elements in E. cbn in E. rewrite E. split.
      * intros [= <-]. split; [left; eauto|]. split; [discriminate|auto].
      * intros ([(e' & H & ->)|H] & _); [injection H as ->; auto|discriminate].
    + exfalso. apply C. intros x y [<-|[]] [<-|[]]. reflexivity.
  - destruct (all_elements l) as [es|] eqn:Ea.
    + apply all_elements_iff in Ea. subst l.
      assert (Inj : forall b, BList (map Some es) = BList (map Some b) -> b = es).
      { intros b' H. injection H as H. revert b' H. clear.
        induction es as [|e es IH]; intros [|e' b'] H; try discriminate; auto.
        cbn in H. injection H as -> H. f_equal. auto. }
      destruct (check_elements_cases es) as [[-> ->]|[(N & C & ->)|(N & C & ->)]]; split; try discriminate.
      * intros ([(e & H & _)|H] & Hn & _); [discriminate|]. apply Inj in H. congruence.
      * intros [= <-]. auto.
      * intros ([(e & H & _)|H] & Hn & _); [discriminate|]. apply Inj in H. congruence.
      * intros ([(e & H & _)|H] & Hn & Hc); [discriminate|]. apply Inj in H. congruence.
    + split; [discriminate|]. intros ([(e & H & _)|H] & _); [discriminate|]. injection H as ->.
      assert (all_elements (map Some b) = Some b) by now apply all_elements_iff. congruence.
Qed.

Lemma C13_errors inp e : beam inp = Err e ->
  (e = ElementError /\ (inp = BNone \/ inp = BList [] \/ exists l, inp = BList l /\ In None l)) \/
  (e = ElementCaseError /\ exists es : beam_t T Sec, gives inp es /\ es <> [] /\ ~ consistent es).
Proof.
  unfold gives. destruct inp as [|x|l]; cbn.
  - intros [= <-]. auto.
  - intros E. destruct (check_elements_cases [x]) as [[H _]|[(_ & C & E')|(_ & C & _)]]; [discriminate| |].
    + unfold check_elements in E'. cbn in E, E'. rewrite E' in E. discriminate.
    + exfalso. apply C. intros a b [<-|[]] [<-|[]]. reflexivity.
  - destruct (all_elements l) as [es|] eqn:Ea.
    + apply all_elements_iff in Ea. subst l.
      destruct (check_elements_cases es) as [[-> ->]|[(N & C & ->)|(N & C & ->)]]; intros [= <-]; auto.
      right. split; auto. exists es. auto.
    + intros [= <-]. left. split; auto. right. right. exists l. split; auto. now apply all_elements_none.
Qed.

Lemma dict_get_in {V} k (d : list (Z * V)) : In k (map fst d) -> exists v, dict_get k d = Ok v.
Proof.
  induction d as [|[k' v] d IH]; cbn; [tauto|]. intros [->|H].
  - rewrite Z.eqb_refl. eauto.
  - destruct (k =? k')%Z; eauto.
Qed.

Lemma C13_answers inp b cs : beam inp = Ok b -> beam_load_cases b = Ok cs ->
  forall c e, In c cs -> In e b -> exists lc, dict_get c (eloads e) = Ok lc.
Proof.
  intros H E c e Hc He. apply C13_accept in H. destruct H as (_ & N & C).
  destruct b as [|e0 b]; [congruence|]. cbn in E. injection E as <-.
  apply dict_get_in. fold (el_load_cases e). rewrite (C e e0); auto. now left.
Qed.

Lemma ends_from_rounded (b : list (elem T Sec)) ls : Forall2 (fun e l => elength e = Some l) b ls ->
  forall s, exists r f, ends_from (Some s) b = Ok r /\ sum_lengths s b = Ok f /\ rounded_tiles s ls r f.
Proof.
  induction 1 as [|e l b ls E F IH]; intros s; cbn.
  - exists [], s. repeat split. constructor.
  - rewrite E. cbn. destruct (IH (nadd s l)) as (r & f & -> & -> & R). cbn.
    exists ((s, Some (nadd s l)) :: r), f. repeat split. now constructor.
Qed.

(** ** C07 *)
Lemma py_index_inv {A} (l : list A) i : py_index l i <> Err InvalidPositionError.
Proof. unfold py_index. destruct (_ || _); [discriminate|]. destruct (nth_error _ _); discriminate. Qed.

Lemma bind_inv {A B} (m : res A) (f : A -> res B) x :
  m <> Err x -> (forall a, m = Ok a -> f a <> Err x) -> bind m f <> Err x.
Proof. destruct m; cbn; auto. congruence. Qed.

Lemma mapM_not {A B} (f : A -> res B) l x : (forall a, f a <> Err x) -> mapM f l <> Err x.
Proof. intros H E. apply mapM_err in E. destruct E as (a & _ & E). now apply H in E. Qed.

Lemma sum_lengths_inv b : forall s, sum_lengths s b <> Err InvalidPositionError.
Proof.
  induction b as [|e b IH]; intros s; cbn; [discriminate|]. apply bind_inv; auto.
  unfold add_opt. destruct (elength e); discriminate.
Qed.

Lemma ends_from_inv b : forall p, ends_from p b <> Err InvalidPositionError.
Proof.
  induction b as [|e b IH]; intros [s|]; cbn; try discriminate. apply bind_inv.
  - unfold add_opt. destruct (elength e); discriminate.
  - intros q _. apply bind_inv; auto. discriminate.
Qed.

Lemma element_ends_inv b : element_ends b <> Err InvalidPositionError.
Proof. destruct b as [|e b]; cbn; [discriminate|]. apply bind_inv; [apply ends_from_inv|discriminate]. Qed.

Lemma start_end_inv b i : element_start_end b i <> Err InvalidPositionError.
Proof. apply bind_inv; [apply element_ends_inv|]. intros. apply py_index_inv. Qed.

Lemma in_ends_inv p en : forall i, in_ends (T := T) p i en <> Err InvalidPositionError.
Proof.
  induction en as [|[s e] en IH]; intros i; cbn; [discriminate|]. apply bind_inv.
  - destruct (nleb s p); [|discriminate]. destruct e; discriminate.
  - intros h _. apply bind_inv; auto. discriminate.
Qed.

Lemma beam_to_local_inv b p i : beam_to_local b p i <> Err InvalidPositionError.
Proof.
  apply bind_inv; [apply start_end_inv|]. intros se _. apply bind_inv; [apply py_index_inv|]. intros e _.
  cbv zeta. destruct (nltb _ _); [discriminate|]. destruct (elength e); [|discriminate].
  destruct (nltb _ _); [discriminate|]. destruct (neqb _ _); discriminate.
Qed.

Lemma local_to_beam_inv b p i : local_to_beam b p i <> Err InvalidPositionError.
Proof.
  unfold local_to_beam. destruct (_ || _); [discriminate|].
  apply bind_inv; [apply start_end_inv|]. intros se _. apply bind_inv; [apply py_index_inv|]. intros e _.
  destruct (elength e); discriminate.
Qed.

Lemma check_inv b ps : check_on_beam b ps <> Err InvalidPositionError.
Proof.
  induction ps as [|p ps IH]; cbn; [discriminate|]. destruct (nltb _ _); [discriminate|].
  apply bind_inv; [apply sum_lengths_inv|]. intros l _. destruct (nltb _ _); [discriminate|auto].
Qed.

Lemma load_positions_inv (e : elem T Sec) c : el_load_positions e c <> Err InvalidPositionError.
Proof.
  unfold el_load_positions. apply bind_inv.
  - destruct (dict_get_cases c (eloads e)) as [->|(v & ->)]; discriminate.
  - intros [l|] _; discriminate.
Qed.

Lemma zero_inv (e : elem T Sec) lc : zero_length_positions e lc <> Err InvalidPositionError.
Proof.
  destruct lc; cbn; [|discriminate]. apply bind_inv; [apply load_positions_inv|].
  intros [|x l] _; discriminate.
Qed.

Lemma real_positions_inv b lc es : forall i, real_positions b lc i es <> Err InvalidPositionError.
Proof.
  induction es as [|e es IH]; intros i; cbn; [discriminate|]. apply bind_inv.
  - destruct lc; [apply load_positions_inv|discriminate].
  - intros ps _. apply bind_inv; [apply mapM_not; intros; apply local_to_beam_inv|].
    intros q _. apply bind_inv; auto. discriminate.
Qed.

Lemma locations_inv b lc ps : locations b lc ps <> Err InvalidPositionError.
Proof.
  apply bind_inv; [|discriminate]. apply mapM_not. intros p. apply bind_inv.
  - apply bind_inv; [apply element_ends_inv|]. intros. apply in_ends_inv.
  - intros is _. apply bind_inv; [|discriminate]. apply mapM_not. intros i. unfold locations_at.
    apply bind_inv; [apply py_index_inv|]. intros e _. destruct (elength e) as [l|].
    + destruct (neqb l (nint 0)); apply bind_inv; try discriminate; [apply zero_inv|apply beam_to_local_inv].
    + apply bind_inv; [apply beam_to_local_inv|discriminate].
Qed.

Lemma C07_list b position mp lc :
  beam_list_positions b position mp lc = Err InvalidPositionError <-> (position = PosNone <-> mp = None).
Proof.
  destruct position as [|x|l], mp as [n|]; cbn [beam_list_positions];
    try (split; [intros _; split; discriminate|intros _; reflexivity]).
  - split; [|intros [H _]; now specialize (H eq_refl)]. intros H. exfalso. revert H.
    apply bind_inv; [apply sum_lengths_inv|]. intros len _. apply bind_inv.
    + unfold linspace. destruct (n <? 0)%Z; discriminate.
    + intros lin _. apply bind_inv; [apply element_ends_inv|]. intros en _.
      apply bind_inv; [apply real_positions_inv|]. intros re _. apply locations_inv.
  - split; auto. intros _. tauto.
  - split; [|intros [_ H]; now specialize (H eq_refl)]. intros H. exfalso. revert H.
    destruct (nisfloat x); [|discriminate]. apply bind_inv; [apply check_inv|]. intros. apply locations_inv.
  - split; [|intros [_ H]; now specialize (H eq_refl)]. intros H. exfalso. revert H.
    apply bind_inv; [apply check_inv|]. intros. apply locations_inv.
Qed.

Lemma get_load_inv qs (lc : lcase T) position mp a : get_load qs lc position mp a <> Err InvalidPositionError.
Proof.
  unfold get_load. apply bind_inv.
  - unfold list_positions. destruct position as [|x|l], mp as [n|]; try discriminate.
    + apply bind_inv; [destruct lc; discriminate|]. intros lp _. apply bind_inv.
      * unfold linspace. destruct (n <? 0)%Z; discriminate.
      * intros lin _. cbv zeta. destruct (_ <? _)%Z; discriminate.
    + destruct (nisfloat x); discriminate.
  - intros ps _. destruct lc as [rows|]; [|discriminate]. apply bind_inv.
    + intros E. apply components_err in E. intuition discriminate.
    + intros cs _. destruct (array_equal _ _); [discriminate|]. apply bind_inv.
      * destruct (filter _ ps) as [|i0 il]; [discriminate|]. apply bind_inv; [|discriminate].
        assert (G : forall xs f, np_interp xs (map lpos rows) f None None <> Err InvalidPositionError).
        { intros xs f. unfold np_interp. destruct (Nat.eqb _ _); [|discriminate]. apply mapM_not.
          intros y. unfold interp1. destruct (map _ (combine _ f)) as [|[u v] r]; [discriminate|].
          destruct (nltb _ _); discriminate. }
        cbn [multi_interp]. destruct (map _ cs) as [|f fs]; [discriminate|]. apply mapM_not. intros. apply G.
      * intros li _. match goal with |- match ?d with _ => _ end <> _ => destruct d end; [|discriminate].
        destruct li; discriminate.
Qed.

Lemma accumulate_not_inv qs b c a locs : forall acc, accumulate qs b c a acc locs <> Err InvalidPositionError.
Proof.
  induction locs as [|[[p e] l] locs IH]; intros acc; cbn [accumulate]; [discriminate|].
  apply bind_inv; [apply py_index_inv|]. intros el _. apply bind_inv.
  - apply bind_inv; [|intros; apply get_load_inv].
    destruct (dict_get_cases c (eloads el)) as [->|(v & ->)]; discriminate.
  - intros [rows|] _; [|discriminate]. cbv zeta. apply bind_inv; [|intros; apply IH].
    destruct acc; [|discriminate]. intros E. apply vstack_err in E. discriminate.
Qed.

Lemma C07_loads qs b c position mp a :
  beam_get_loads qs b c position mp a = Err InvalidPositionError <-> (position = PosNone <-> mp = None).
Proof.
  rewrite <- (C07_list b position mp (Some c)). unfold beam_get_loads.
  destruct (beam_list_positions b position mp (Some c)) as [locs|e]; cbn [bind].
  - split; [|discriminate]. intros H. exfalso. now apply accumulate_not_inv in H.
  - split; intros [= ->]; auto.
Qed.

Lemma C07_section b position mp lc :
  beam_get_section b position mp lc = Err InvalidPositionError <-> (position = PosNone <-> mp = None).
Proof.
  rewrite <- (C07_list b position mp lc). unfold beam_get_section.
  destruct (beam_list_positions b position mp lc) as [locs|e]; cbn [bind].
  - split; [|discriminate]. intros H. exfalso. revert H. apply bind_inv; [|discriminate].
    apply mapM_not. intros t. apply bind_inv; [apply py_index_inv|discriminate].
  - split; intros [= ->]; auto.
Qed.

(** ** C23: float tables *)
Lemma get_load_floats qs rows position mp a out :
  (forall l : list (nat * orow T), incl (qs l) l) ->
  (forall x : T, nisfloat (nfloat x) = true) ->
  Forall (fun r => nisfloat (lpos r) = true) rows ->
  get_load qs (Some rows) position mp a = Ok (Some out) ->
  Forall (fun o => nisfloat (fst o) = true) out.
Proof.
  intros Hq Hf Hr E. unfold get_load in E.
  destruct (list_positions (Some rows) mp position) as [ps|]; [|discriminate]. cbn [bind] in E.
  destruct (components a) as [cs|]; [|discriminate]. cbn [bind] in E.
  assert (Hp : forall l, incl l rows -> Forall (fun o => nisfloat (fst o) = true) (map (pick cs) l)).
  { intros l Hl. apply Forall_map. apply Forall_forall. intros r H. rewrite Forall_forall in Hr. apply Hr, Hl, H. }
  destruct (array_equal _ _).
  { injection E as <-. apply Hp. apply incl_refl. }
  set (d := match filter (fun p => py_in p (map lpos rows)) ps with
            | [] => None
            | _ => Some (map (pick cs) (filter (fun r => py_in (lpos r)
                   (filter (fun p => py_in p (map lpos rows)) ps)) rows)) end) in E.
  assert (Hd : forall x, d = Some x -> Forall (fun o => nisfloat (fst o) = true) x).
  { intros x Hx. unfold d in Hx. destruct (filter (fun p => py_in p (map lpos rows)) ps); [discriminate|].
    injection Hx as <-. apply Hp. intros r H. apply filter_In in H. tauto. }
  clearbody d.
  assert (Hi : forall il cols, Forall (fun o : orow T => nisfloat (fst o) = true)
      (map (fun pv : T * list T => (nfloat (fst pv), map Some (snd pv))) (combine il (transpose (List.length il) cols)))).
  { intros il cols. apply Forall_map. apply Forall_forall. intros [x v] _. apply Hf. }
  destruct (filter (fun p => negb (py_in p (map lpos rows))) ps) as [|i0 il].
  - cbn [bind] in E. destruct d as [d|]; [|discriminate]. injection E as <-. auto.
  - destruct (multi_interp _ _ _ _ _) as [cols|]; [|discriminate]. cbn [bind] in E.
    destruct d as [d|].
    + cbv zeta in E.
      match type of E with Ok (Some ?v) = _ => set (w := v) in E end.
      assert (Ew : w = out) by (apply (f_equal (fun r => match r with Ok (Some x) => x | _ => [] end)) in E; exact E).
      subst out. unfold w. apply Forall_map. apply Forall_forall. intros [n o] Ho. apply sort_in in Ho.
      apply Hq in Ho. apply in_app_iff in Ho. cbn [snd].
      destruct Ho as [Ho|Ho]; apply in_combine_r in Ho.
      * apply in_map_iff in Ho. destruct Ho as (o' & <- & _). cbn. apply Hf.
      * specialize (Hi (i0 :: il) cols). rewrite Forall_forall in Hi. now apply Hi.
    + injection E as <-. apply (Hi (i0 :: il) cols).
Qed.
End Ctor.

Open Scope R_scope.
Section B.
Context {Sec : Type}.
Implicit Types b : beam_t R Sec.

(** ** C14, C15, C16 *)
Lemma ends_tile s ls : tiles s ls (map (fun i => (s + start_of ls i, Some (s + end_of ls i))) (seq 0 (List.length ls)))
  (s + span ls).
Proof.
  revert s. induction ls as [|l ls IH]; intros s; cbn [List.length seq map].
  - replace (s + span []) with s by (unfold span; cbn; lra). constructor.
  - assert (E : end_of (l :: ls) 0 = l) by (unfold end_of, span; cbn; lra). rewrite E.
    replace (s + start_of (l :: ls) 0) with s by (unfold start_of, span; cbn; lra).
    constructor; [lra|].
    replace (s + span (l :: ls)) with ((s + l) + span ls) by (unfold span; cbn; lra).
    rewrite <- seq_shift, map_map.
    replace (map (fun x => (s + start_of (l :: ls) (S x), Some (s + end_of (l :: ls) (S x)))) (seq 0 (List.length ls)))
      with (map (fun i => (s + l + start_of ls i, Some (s + l + end_of ls i))) (seq 0 (List.length ls))).
    + apply IH.
    + apply map_ext. intros i. unfold start_of, end_of, span. cbn [firstn fold_right].
      apply f_equal2; [|apply f_equal]; lra.
Qed.

Lemma C14_real b ls : has_lengths b ls ->
  exists ends total, element_ends b = Ok ends /\ beam_length b = Ok total /\ tiles 0 ls ends total.
Proof.
  intros H. exists (BeamFacts.ends ls), (span ls). rewrite (element_ends_R b ls H), (beam_length_R b ls H).
  repeat split. replace (span ls) with (0 + span ls) by lra.
  replace (BeamFacts.ends ls) with
    (map (fun i => (0 + start_of ls i, Some (0 + end_of ls i))) (seq 0 (List.length ls))).
  - apply ends_tile.
  - unfold BeamFacts.ends. apply map_ext. intros i. apply f_equal2; [|apply f_equal]; lra.
Qed.

Lemma C15_real b ls p : has_lengths b ls -> b <> [] ->
  exists is, in_elements b p = Ok (map Z.of_nat is) /\ ids_at ls p is /\
    (is <> [] <-> 0 <= p <= span ls) /\
    (forall i j k, In i is -> In k is -> (i <= j <= k)%nat -> In j is) /\
    (forall i, (i < List.length b)%nat -> start_of ls i < p < end_of ls i -> is = [i]).
Proof.
  intros H Nb. pose proof (lengths_nonneg b ls H) as N. exists (ids ls p).
  split; [now apply in_elements_R|]. split; [apply ids_spec|]. split; [|split].
  - split.
    + intros Hn. destruct (ids ls p) as [|i r] eqn:E; [congruence|].
      apply covers_on_beam with i; auto. apply in_ids. rewrite E. now left.
    + intros Hp E. destruct (some_cover ls p) as (i & C); auto.
      * intros ->. inversion H. congruence.
      * apply in_ids in C. rewrite E in C. contradiction.
  - intros i j k Hi Hk Hj. apply in_ids. apply in_ids in Hi, Hk. now apply covers_consecutive with i k.
  - intros i Hi Hp. destruct (ids_spec ls p) as [S I].
    assert (Hin : In i (ids ls p)).
    { apply I. split; [now rewrite <- (lengths_len b ls H)|lra]. }
    assert (Un : forall j, In j (ids ls p) -> j = i).
    { intros j Hj. apply inside_only with ls p; auto. now apply I. }
    destruct (ids ls p) as [|x [|y r]]; [contradiction| |].
    + now rewrite (Un x (or_introl eq_refl)).
    + exfalso. apply StronglySorted_inv in S. destruct S as [_ F]. apply Forall_inv in F.
      rewrite (Un x), (Un y) in F by (cbn; auto). lia.
Qed.

Lemma C16_to_local b ls p e i : has_lengths b ls -> designated (List.length b) e i -> 0 < nth i ls 0 ->
  (start_of ls i <= p <= end_of ls i ->
     exists x, beam_to_local b p e = Ok x /\ 0 <= x <= 1 /\ local_to_beam b x e = Ok p) /\
  (~ start_of ls i <= p <= end_of ls i -> beam_to_local b p e = Err PositionNotInElementError).
Proof.
  intros H D L. rewrite (beam_to_local_R b ls p e i H D).
  assert (Hi : (i < List.length ls)%nat) by (rewrite <- (lengths_len b ls H); apply D).
  unfold in_ext. rewrite end_length by auto. split; intros Hp.
  - rewrite (proj2 (Rleb_true _ _) (proj1 Hp)), (proj2 (Rleb_true _ _) (proj2 Hp)). cbn [andb].
    rewrite (proj2 (Reqb_false (nth i ls 0) 0)) by lra.
    set (x := (p - start_of ls i) / nth i ls 0). assert (Ex : x * nth i ls 0 = p - start_of ls i) by (unfold x; field; lra).
    clearbody x. exists x. split; auto. assert (0 <= x <= 1) by (split; nra). split; auto.
    rewrite (local_to_beam_R b ls x e i H D).
    rewrite (proj2 (Rltb_false x 0)), (proj2 (Rltb_false 1 x)) by lra. cbn [orb]. f_equal. lra.
  - destruct (Rleb (start_of ls i) p) eqn:E1; auto. destruct (Rleb p _) eqn:E2; auto.
    apply Rleb_true in E1, E2. tauto.
Qed.

Lemma C16_to_beam b ls x e i : has_lengths b ls -> designated (List.length b) e i -> 0 < nth i ls 0 ->
  (0 <= x <= 1 -> exists p, local_to_beam b x e = Ok p /\ start_of ls i <= p <= end_of ls i /\
                            beam_to_local b p e = Ok x) /\
  (~ 0 <= x <= 1 -> local_to_beam b x e = Err PositionNotInElementError).
Proof.
  intros H D L. rewrite (local_to_beam_R b ls x e i H D).
  assert (Hi : (i < List.length ls)%nat) by (rewrite <- (lengths_len b ls H); apply D).
  split; intros Hx.
  - rewrite (proj2 (Rltb_false x 0)), (proj2 (Rltb_false 1 x)) by lra. cbn [orb].
    eexists. split; [reflexivity|]. rewrite (beam_to_local_R b ls _ e i H D). unfold in_ext.
    rewrite end_length by auto.
    assert (0 <= x * nth i ls 0 <= nth i ls 0) by nra. split; [lra|].
    rewrite (proj2 (Rleb_true _ _)), (proj2 (Rleb_true _ _)) by lra. cbn [andb].
    rewrite (proj2 (Reqb_false (nth i ls 0) 0)) by lra. f_equal. field. lra.
  - destruct (Rltb x 0) eqn:E1; auto. destruct (Rltb 1 x) eqn:E2; auto.
    apply Rltb_false in E1, E2. lra.
Qed.

Lemma C16_zero b ls p e i : has_lengths b ls -> designated (List.length b) e i -> nth i ls 0 = 0 ->
  beam_to_local b p e = Err (if Req_EM_T p (start_of ls i) then ElementLengthError else PositionNotInElementError).
Proof.
  intros H D L. rewrite (beam_to_local_R b ls p e i H D).
  assert (Hi : (i < List.length ls)%nat) by (rewrite <- (lengths_len b ls H); apply D).
  unfold in_ext. rewrite end_length by auto. rewrite L, Reqb_refl, Rplus_0_r.
  destruct (Req_EM_T p (start_of ls i)) as [->|Hn].
  - rewrite (proj2 (Rleb_true _ _)) by lra. reflexivity.
  - destruct (Rleb (start_of ls i) p) eqn:E1; auto. destruct (Rleb p (start_of ls i)) eqn:E2; auto.
    apply Rleb_true in E1, E2. lra.
Qed.

Lemma C16_bad_id b ls p e : has_lengths b ls -> (forall i, ~ designated (List.length b) e i) ->
  beam_to_local b p e = Err IndexError /\ (0 <= p <= 1 -> local_to_beam b p e = Err IndexError).
Proof.
  intros H D. unfold beam_to_local, local_to_beam, element_start_end.
  rewrite (element_ends_R b ls H). cbn [bind].
  rewrite (py_index_bad (BeamFacts.ends ls) e).
  - split; auto. intros Hp. cbn [nltb nint nflt RNum].
    rewrite (proj2 (Rltb_false p 0)), (proj2 (Rltb_false (1/1) p)) by lra. reflexivity.
  - rewrite ends_len, <- (lengths_len b ls H). exact D.
Qed.

(** ** C20 *)
Definition locals_of (locs : list (location R)) (p : R) (i : nat) : list R :=
  map snd (filter (fun t => Reqb (fst (fst t)) p && Z.eqb (snd (fst t)) (Z.of_nat i)) locs).

Lemma last_map {A B} (f : A -> B) l d : last (map f l) (f d) = f (last l d).
Proof. induction l as [|a [|b l] IH]; auto. Qed.

Lemma zero_length_last (r0 : lrow R) rows : last (map lpos (r0 :: rows)) (lpos r0) = lpos (last rows r0).
Proof. rewrite last_map. f_equal. now destruct rows. Qed.

Lemma zero_length_table (e : elem R Sec) c r0 rows : dict_get c (eloads e) = Ok (Some (r0 :: rows)) ->
  zero_length_positions e (Some c) =
  Ok (if Reqb (lpos (last rows r0)) 1 then map lpos (r0 :: rows)
      else map (fun x => x + 1) (map lpos (r0 :: rows))).
Proof.
  intros E. unfold zero_length_positions, el_load_positions. rewrite E. cbn [bind load_positions].
  change (map lpos (r0 :: rows)) with (lpos r0 :: map lpos rows). cbv iota.
  set (lp := lpos r0 :: map lpos rows). cbv zeta.
  assert (Id : map (nadd (nflt 0 1)) lp = lp).
  { rewrite <- (map_id lp) at 2. apply map_ext. intros x. cbn. lra. }
  rewrite Id. assert (Ee : (if negb (neqb (lpos r0) (nint 0)) then lp else lp) = lp) by (destruct (negb _); auto).
  rewrite Ee. unfold lp at 1. change (lpos r0 :: map lpos rows) with (map lpos (r0 :: rows)).
  rewrite zero_length_last. cbn [neqb nflt RNum].
  replace (Reqb (lpos (last rows r0)) (1 / 1)) with (Reqb (lpos (last rows r0)) 1) by (f_equal; lra).
  destruct (Reqb (lpos (last rows r0)) 1); cbn [negb]; f_equal.
  apply map_ext. intros x. cbn. lra.
Qed.

Lemma locals_map p i xs : locals_of (map (fun l : R => (p, Z.of_nat i, l)) xs) p i = xs.
Proof.
  unfold locals_of. induction xs as [|x xs IH]; auto. cbn [map filter fst snd].
  rewrite Reqb_refl, Z.eqb_refl. cbn [andb map snd]. now rewrite IH.
Qed.

Lemma locals_none p i p' (ts : list (location R)) : (forall t, In t ts -> fst (fst t) = p') ->
  p <> p' -> locals_of ts p i = [].
Proof.
  intros H N. unfold locals_of. induction ts as [|t ts IH]; auto. cbn [filter].
  rewrite (H t) by now left. rewrite (proj2 (Reqb_false p' p)) by congruence. cbn [andb].
  apply IH. intros; apply H; now right.
Qed.

Lemma locals_other p i j (ts : list (location R)) : (forall t, In t ts -> snd (fst t) = Z.of_nat j) ->
  i <> j -> locals_of ts p i = [].
Proof.
  intros H N. unfold locals_of. induction ts as [|t ts IH]; auto. cbn [filter].
  rewrite (H t) by now left. rewrite (proj2 (Z.eqb_neq (Z.of_nat j) (Z.of_nat i))) by lia.
  rewrite andb_false_r. apply IH. intros; apply H; now right.
Qed.

Lemma locals_app p i (u v : list (location R)) : locals_of (u ++ v) p i = locals_of u p i ++ locals_of v p i.
Proof. unfold locals_of. now rewrite filter_app, map_app. Qed.

(** The local positions listed for [p] in a zero-length element. *)
Lemma locals_zero b ls position mp lc locs p i e : has_lengths b ls ->
  beam_list_positions b position mp lc = Ok locs ->
  In p (positions_of locs) -> covers ls i p -> nth_error b i = Some e -> nth i ls 0 = 0 ->
  zero_length_positions e lc = Ok (locals_of locs p i).
Proof.
  intros H E Hp C He Z.
  (* the model's own arrangement *)
  assert (X : exists at_ps, locations b lc (py_sorted (py_set at_ps)) = Ok locs).
  { unfold beam_list_positions in E. destruct position as [|x|l], mp as [n|]; try discriminate.
    - destruct (beam_length b); [|discriminate]. cbn [bind] in E.
      destruct (linspace _ _ _) as [lin|]; [|discriminate]. cbn [bind] in E.
      destruct (element_ends b) as [en|]; [|discriminate]. cbn [bind] in E.
      destruct (real_positions _ _ _ _) as [re|]; [|discriminate]. cbn [bind] in E.
      exists ((flatten_ends en ++ re) ++ lin). unfold py_set, set_update in *. rewrite fold_left_app. exact E.
    - cbn [nisfloat RNum] in E. destruct (check_on_beam b [x]); [|discriminate]. now exists [x].
    - destruct (check_on_beam b l); [|discriminate]. now exists l. }
  destruct X as (at_ps & El). pose proof (sorted_set_R at_ps) as SS.
  assert (Hin : In p (py_sorted (py_set at_ps))).
  { destruct (locations_ok b ls lc _ locs H El) as (tss & F & Ec). subst locs.
    now apply (locations_positions ls _ tss (lengths_nonneg b ls H) F) in Hp. }
  rewrite (locations_R b ls lc _ H) in El.
  destruct (mapM _ _) as [tss|] eqn:M; [|discriminate]. cbn [bind] in El. injection El as <-.
  apply mapM_inv in M. clear Hp E.
  assert (Pos : forall q ts t, locs_at b ls lc q = Ok ts -> In t ts -> fst (fst t) = q).
  { intros q ts t Eq Ht. apply (triples_at_pos ls q ts (locs_at_ok b ls lc q ts H Eq) t Ht). }
  assert (Here : forall ts, locs_at b ls lc p = Ok ts -> zero_length_positions e lc = Ok (locals_of ts p i)).
  { intros ts Et. unfold locs_at in Et. destruct (mapM _ (ids ls p)) as [rs|] eqn:Mi; [|discriminate].
    cbn [bind] in Et. injection Et as <-. apply mapM_inv in Mi.
    assert (Hi : In i (ids ls p)) by now apply in_ids.
    destruct (ids_spec ls p) as [Si Ci].
    assert (Cov : forall j, In j (ids ls p) -> covers ls j p) by (intros j Hj; now apply Ci).
    clear Ci. induction Mi as [|j r js rs Hj Mi IH]; [contradiction|].
    apply StronglySorted_inv in Si. destruct Si as [Si Fi]. rewrite Forall_forall in Fi.
    assert (Elem : forall j r, locations_at b lc p (Z.of_nat j) = Ok r -> covers ls j p ->
                     forall t, In t r -> snd (fst t) = Z.of_nat j).
    { intros j' r' E' C' t Ht. destruct (lengths_has b ls j' H (proj1 C')) as (e' & He').
      rewrite (locations_at_R b ls lc p j' e' H C' He') in E'. destruct (locals_at e' ls lc p j'); [|discriminate].
      cbn in E'. injection E' as <-. apply in_map_iff in Ht. destruct Ht as (x & <- & _). reflexivity. }
    cbn [List.concat]. rewrite locals_app. destruct Hi as [->|Hi].
    - assert (R0 : locals_of (List.concat rs) p i = []).
      { clear IH. assert (Nj : forall j, In j js -> i <> j) by (intros j Hj2; specialize (Fi j Hj2); lia).
        assert (Cj : forall j, In j js -> covers ls j p) by (intros j Hj2; apply Cov; now right).
        clear Si Fi Cov. induction Mi as [|j r' js rs Hj' Mi IH']; [reflexivity|].
        cbn [List.concat]. rewrite locals_app, IH' by (intros; auto using in_cons).
        rewrite app_nil_r. apply locals_other with j; [|apply Nj; now left].
        apply Elem; auto. apply Cj. now left. }
      rewrite R0, app_nil_r. rewrite (locations_at_R b ls lc p i e H C He) in Hj.
      unfold locals_at in Hj. rewrite Z, Reqb_refl in Hj. destruct (zero_length_positions e lc) as [xs|]; [|discriminate].
      cbn in Hj. injection Hj as <-. now rewrite locals_map.
    - rewrite (locals_other p i j r).
      + cbn [app]. apply IH; auto. intros; apply Cov; now right.
      + apply Elem; auto. apply Cov. now left.
      + intros ->. specialize (Fi j Hi). lia. }
  clear C He Z. induction M as [|q ts qs tss Hq M IH]; [contradiction|].
  apply StronglySorted_inv in SS. destruct SS as [SS Fq]. rewrite Forall_forall in Fq.
  cbn [List.concat]. rewrite locals_app. destruct Hin as [->|Hin].
  - assert (R0 : locals_of (List.concat tss) p i = []).
    { assert (Nq : forall q, In q qs -> p <> q) by (intros q Hq2; specialize (Fq q Hq2); lra).
      clear SS Fq IH Hq. induction M as [|q ts' qs tss Hq M IH']; [reflexivity|].
      cbn [List.concat]. rewrite locals_app, IH' by (intros; auto using in_cons). rewrite app_nil_r.
      apply locals_none with q; [|apply Nq; now left]. intros t Ht. eapply Pos; eauto. }
    rewrite R0, app_nil_r. now apply Here.
  - rewrite (locals_none p i q ts).
    + cbn [app]. now apply IH.
    + intros t Ht. eapply Pos; eauto.
    + specialize (Fq p Hin). lra.
Qed.
End B.
