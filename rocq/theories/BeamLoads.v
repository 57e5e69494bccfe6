(** Beam.get_loads over the reals. *)

From Coq Require Import ZArith Reals List Bool Sorted Lra Lia.
From Verif Require Import Base Num RNum Numpy LoadCase OrdFacts LoadFacts LoadSpec LoadProofs
  Beam BeamSpec BeamFacts BeamPositions BeamProofs.
Import ListNotations.
Open Scope R_scope.

(** The errors of LoadCase.get_load. *)
Lemma components_err a e : components a = Err e -> e = KeyError \/ e = ValueError \/ e = AttributeError.
Proof.
  destruct a as [|s|z|c|l]; cbn; try discriminate.
  - unfold comp_of_name. repeat (destruct (String.eqb _ _); try discriminate). intros [= <-]. auto.
  - unfold comp_of_value. repeat (destruct (Z.eqb _ _); try discriminate). intros [= <-]. auto.
  - intros H. apply mapM_err in H. destruct H as ([c|] & _ & H); [discriminate|]. injection H as <-. auto.
Qed.

Lemma get_load_num_err qs (lc : lcase R) x a e : get_load qs lc (PosNum x) None a = Err e ->
  e = KeyError \/ e = ValueError \/ e = AttributeError.
Proof.
  unfold get_load. cbn [list_positions nisfloat RNum bind]. destruct lc as [rows|]; [|discriminate].
  destruct (components a) as [cs|e'] eqn:Ec; cbn [bind].
  2:{ intros [= <-]. eapply components_err; eauto. }
  destruct (array_equal _ _); [discriminate|].
  set (d := match filter (fun p => py_in p (map lpos rows)) (py_sorted (py_set [x])) with
            | [] => None
            | _ => Some (map (pick cs) (filter (fun r => py_in (lpos r)
                   (filter (fun p => py_in p (map lpos rows)) (py_sorted (py_set [x])))) rows)) end).
  destruct (filter (fun p => negb (py_in p (map lpos rows))) (py_sorted (py_set [x]))) as [|i0 il] eqn:Ei.
  - cbn [bind]. destruct d; discriminate.
  - destruct (multi_interp _ _ _ _ _) as [cols|e'] eqn:Em; cbn [bind].
    + destruct d; discriminate.
    + intros [= <-]. apply multi_interp_err in Em. auto.
Qed.

Lemma dict_get_cases {V} k (d : list (Z * V)) : dict_get k d = Err KeyError \/ exists v, dict_get k d = Ok v.
Proof. induction d as [|[k' v] d IH]; cbn; auto. destruct (k =? k')%Z; eauto. Qed.

Lemma set_position_R p (rows : list (orow R)) : set_position p rows = at_position p rows.
Proof.
  unfold set_position, at_position. destruct (existsb row_has_none rows); auto.
  destruct rows as [|r rows]; auto.
Qed.

Lemma orow_float_id (r : orow R) : orow_float r = r.
Proof.
  destruct r as [x l]. unfold orow_float. cbn [fst snd nfloat RNum]. f_equal.
  induction l as [|[y|] l IH]; cbn; congruence.
Qed.

Lemma vstack_R (a v : list (orow R)) s : vstack a v = Ok s -> s = a ++ v.
Proof.
  unfold vstack. destruct a as [|ra a]; [congruence|]. destruct v as [|rv v]; [congruence|].
  destruct (Nat.eqb _ _); [|discriminate].
  destruct (existsb row_has_none _); [congruence|]. destruct (existsb row_has_float _); [|congruence].
  intros H. apply (f_equal (fun r => match r with Ok x => x | Err _ => [] end)) in H. subst s.
  rewrite (map_ext _ (fun r => r) orow_float_id). apply map_id.
Qed.

Lemma vstack_err {T} {NT : Num T} (a v : list (orow T)) e : vstack a v = Err e -> e = ValueError.
Proof.
  unfold vstack. destruct a as [|ra a]; [discriminate|]. destruct v as [|rv v]; [discriminate|].
  destruct (Nat.eqb _ _); congruence.
Qed.

Definition width (w : nat) (rows : list (orow R)) : Prop := Forall (fun r => List.length (snd r) = w) rows.

Lemma vstack_ok (a v : list (orow R)) w : width w a -> width w v -> vstack a v = Ok (a ++ v).
Proof.
  intros Ha Hv. destruct (vstack a v) as [s|e] eqn:E; [now rewrite (vstack_R a v s E)|].
  exfalso. unfold vstack in E. destruct a as [|ra a]; [discriminate|]. destruct v as [|rv v]; [discriminate|].
  apply Forall_inv in Ha, Hv. rewrite Ha, Hv, Nat.eqb_refl in E. discriminate.
Qed.

Section B.
Context {Sec : Type}.
Implicit Types b : beam_t R Sec.

Definition indexed b (t : location R) : Prop :=
  exists i, snd (fst t) = Z.of_nat i /\ (i < List.length b)%nat.

Lemma accumulate_inv qs b c a locs : Forall (indexed b) locs -> forall acc out,
  accumulate qs b c a acc locs = Ok out ->
  exists blocks, Forall2 (rows_of_triple qs b c a) locs blocks /\
    out = match locs with
          | [] => acc
          | _ => Some (match acc with None => [] | Some x => x end ++ List.concat blocks)
          end.
Proof.
  induction 1 as [|[[p e] l] locs (i & Ei & Hi) F IH]; intros acc out E.
  - cbn in E. injection E as <-. exists []. split; [constructor|reflexivity].
  - cbn in Ei. subst e. cbn [accumulate] in E.
    destruct (nth_error b i) as [el|] eqn:En; [|apply nth_error_None in En; lia].
    rewrite (py_index_nat b i el En) in E. cbn [bind] in E.
    destruct (el_get_loads qs el c (PosNum l) None a) as [v|] eqn:Ev; [|discriminate]. cbn [bind] in E.
    destruct v as [rows|]; [|discriminate].
    rewrite set_position_R in E.
    assert (G : exists acc', accumulate qs b c a (Some acc') locs = Ok out /\
              acc' = match acc with None => [] | Some x => x end ++ at_position p rows).
    { destruct acc as [x|].
      - destruct (vstack x (at_position p rows)) as [s|] eqn:Es; [|discriminate]. apply vstack_R in Es. subst s.
        eauto.
      - cbn [bind] in E. eauto. }
    destruct G as (acc' & E' & ->). destruct (IH _ _ E') as (blocks & Fb & ->).
    exists (at_position p rows :: blocks). split.
    + constructor; auto. exists el, rows. rewrite Nat2Z.id. repeat split; auto. lia.
    + cbn [List.concat]. rewrite app_assoc. destruct locs; [|reflexivity].
      inversion Fb. cbn. now rewrite app_nil_r.
Qed.

Lemma locs_indexed b ls position mp lc locs : has_lengths b ls ->
  beam_list_positions b position mp lc = Ok locs -> Forall (indexed b) locs.
Proof.
  intros H E. destruct (list_positions_triples b ls position mp lc locs H E) as (T & _).
  apply Forall_forall. intros [[p e] l] Ht. destruct (T p e l Ht) as (i & -> & [Hi _] & _).
  exists i. split; auto. now rewrite (lengths_len b ls H).
Qed.

Lemma C21_inv qs b ls c position mp a out : has_lengths b ls ->
  beam_get_loads qs b c position mp a = Ok out ->
  exists locs blocks, beam_list_positions b position mp (Some c) = Ok locs /\
    Forall2 (rows_of_triple qs b c a) locs blocks /\
    out = match locs with [] => None | _ => Some (List.concat blocks) end.
Proof.
  intros H E. unfold beam_get_loads in E.
  destruct (beam_list_positions b position mp (Some c)) as [locs|] eqn:El; [|discriminate]. cbn [bind] in E.
  destruct (accumulate_inv qs b c a locs (locs_indexed b ls position mp (Some c) locs H El) None out E)
    as (blocks & F & ->).
  exists locs, blocks. auto.
Qed.

Lemma block_width (rows : list (lrow R)) cs p : width (List.length cs) (block rows cs p).
Proof.
  apply Forall_forall. intros o Ho. unfold block in Ho. destruct (py_in p (map lpos rows)).
  - apply in_map_iff in Ho. destruct Ho as (r & <- & _). cbn. now rewrite map_length.
  - destruct Ho as [<-|[]]. cbn. now rewrite map_length.
Qed.

Lemma el_get_loads_block qs (el : elem R Sec) c x a cs rows : any_argsort qs ->
  dict_get c (eloads el) = Ok (Some rows) -> accepted (Some rows) -> rows <> [] ->
  designates a cs -> cs <> [] ->
  el_get_loads qs el c (PosNum x) None a = Ok (Some (block rows cs x)).
Proof.
  intros Hq Hd Ha Hn Hc C. unfold el_get_loads. rewrite Hd. cbn [bind].
  rewrite (get_load_R qs rows (PosNum x) None a cs Hq); auto using designates_components.
  - cbn [list_positions nisfloat RNum]. cbn. now rewrite app_nil_r.
  - now apply accepted_rows.
Qed.

Lemma accumulate_total qs b c a cs : any_argsort qs -> loaded b c -> designates a cs -> cs <> [] ->
  forall locs, Forall (indexed b) locs -> forall acc,
  width (List.length cs) (match acc with None => [] | Some x => x end) ->
  exists out, accumulate qs b c a acc locs = Ok out.
Proof.
  intros Hq Hl Hc C locs. induction 1 as [|[[p e] l] locs (i & Ei & Hi) F IH]; intros acc W; [cbn; eauto|].
  cbn in Ei. subst e. cbn [accumulate].
  destruct (nth_error b i) as [el|] eqn:En; [|apply nth_error_None in En; lia].
  rewrite (py_index_nat b i el En). cbn [bind].
  destruct (Hl el (nth_error_In _ _ En)) as (rows & Hd & Ha & Hn).
  rewrite (el_get_loads_block qs el c l a cs rows) by auto. cbn [bind]. rewrite set_position_R.
  assert (W' : width (List.length cs) (at_position p (block rows cs l))).
  { apply Forall_map. apply block_width. }
  destruct acc as [x|].
  - rewrite (vstack_ok _ _ (List.length cs)) by auto. cbn [bind]. apply IH.
    apply Forall_app. auto.
  - cbn [bind]. apply IH. auto.
Qed.

Lemma C21_total qs b ls c position mp a cs locs : any_argsort qs -> has_lengths b ls ->
  loaded b c -> designates a cs -> cs <> [] ->
  beam_list_positions b position mp (Some c) = Ok locs ->
  exists blocks, Forall2 (rows_of_triple qs b c a) locs blocks /\
    beam_get_loads qs b c position mp a =
    Ok (match locs with [] => None | _ => Some (List.concat blocks) end).
Proof.
  intros Hq H Hl Hc C El.
  destruct (accumulate_total qs b c a cs Hq Hl Hc C locs
              (locs_indexed b ls position mp (Some c) locs H El) None) as (out & E); [constructor|].
  assert (G : beam_get_loads qs b c position mp a = Ok out).
  { unfold beam_get_loads. rewrite El. exact E. }
  destruct (C21_inv qs b ls c position mp a out H G) as (locs' & blocks & El' & F & Eo).
  assert (locs' = locs) by congruence. subst locs'. exists blocks. split; auto. now rewrite G, Eo.
Qed.

(** ** Errors of get_loads *)

Lemma accumulate_err qs b c a locs : Forall (indexed b) locs -> forall acc e,
  accumulate qs b c a acc locs = Err e ->
  e = KeyError \/ e = ValueError \/ e = AttributeError \/ e = TypeError.
Proof.
  induction 1 as [|[[p z] l] locs (i & Ei & Hi) F IH]; intros acc e E; [discriminate|].
  cbn in Ei. subst z. cbn [accumulate] in E.
  destruct (nth_error b i) as [el|] eqn:En; [|apply nth_error_None in En; lia].
  rewrite (py_index_nat b i el En) in E. cbn [bind] in E.
  destruct (el_get_loads qs el c (PosNum l) None a) as [v|e'] eqn:Ev; cbn [bind] in E.
  - destruct v as [rows|]; [|injection E as <-; auto].
    destruct acc as [x|]; [|cbn [bind] in E; eapply IH; eauto].
    destruct (vstack x (set_position p rows)) eqn:Es; cbn [bind] in E; [eapply IH; eauto|].
    injection E as <-. apply vstack_err in Es. auto.
  - injection E as <-. unfold el_get_loads in Ev.
    destruct (dict_get_cases c (eloads el)) as [K|(v & K)]; rewrite K in Ev; cbn [bind] in Ev;
      [injection Ev as <-; auto|]. apply get_load_num_err in Ev. tauto.
Qed.

Lemma get_loads_err qs b ls c position mp a e : has_lengths b ls ->
  beam_get_loads qs b c position mp a = Err e ->
  beam_list_positions b position mp (Some c) = Err e \/
  e = KeyError \/ e = ValueError \/ e = AttributeError \/ e = TypeError.
Proof.
  intros H E. unfold beam_get_loads in E.
  destruct (beam_list_positions b position mp (Some c)) as [locs|e'] eqn:El; cbn [bind] in E; [|left; congruence].
  right. exact (accumulate_err qs b c a locs (locs_indexed b ls position mp (Some c) locs H El) None e E).
Qed.

Lemma get_section_R b ls position mp lc locs : has_lengths b ls ->
  beam_list_positions b position mp lc = Ok locs ->
  exists secs, beam_get_section b position mp lc = Ok (positions_of locs, secs) /\
    Forall2 (fun t s => exists el, nth_error b (Z.to_nat (snd (fst t))) = Some el /\ s = esection el) locs secs.
Proof.
  intros H E. unfold beam_get_section. rewrite E. cbn [bind].
  pose proof (locs_indexed b ls position mp lc locs H E) as F.
  assert (G : exists secs, mapM (fun l : location R => let! e := py_index b (snd (fst l)) in Ok (esection e)) locs = Ok secs /\
     Forall2 (fun t s => exists el, nth_error b (Z.to_nat (snd (fst t))) = Some el /\ s = esection el) locs secs).
  { clear E. induction F as [|t locs (i & Ei & Hi) F IH]; [exists []; split; [reflexivity|constructor]|].
    destruct IH as (secs & Es & Fs).
    destruct (nth_error b i) as [el|] eqn:En; [|apply nth_error_None in En; lia].
    exists (esection el :: secs). cbn [mapM]. rewrite Ei, (py_index_nat b i el En). cbn [bind].
    rewrite Es. split; auto. constructor; auto. exists el. rewrite Ei, Nat2Z.id. auto. }
  destruct G as (secs & Es & Fs). exists secs. split; auto.
  exact (f_equal (fun r => bind r (fun s => Ok (positions_of locs, s))) Es).
Qed.

Lemma C19_loads qs b ls position ps c a : has_lengths b ls -> requested position ps ->
  beam_get_loads qs b c position None a = Err PositionNotInBeamError <->
  exists p, In p ps /\ (p < 0 \/ span ls < p).
Proof.
  intros H Rq. rewrite <- (C19_list b ls position ps (Some c) H Rq). split.
  - intros E. destruct (get_loads_err qs b ls c position None a _ H E) as [|K]; auto.
    exfalso. intuition discriminate.
  - intros E. unfold beam_get_loads. now rewrite E.
Qed.

Lemma C19_section b ls position ps lc : has_lengths b ls -> requested position ps ->
  beam_get_section b position None lc = Err PositionNotInBeamError <->
  exists p, In p ps /\ (p < 0 \/ span ls < p).
Proof.
  intros H Rq. rewrite <- (C19_list b ls position ps lc H Rq). split.
  - intros E. destruct (beam_list_positions b position None lc) as [locs|e] eqn:El.
    + destruct (get_section_R b ls position None lc locs H El) as (s & G & _). congruence.
    + unfold beam_get_section in E. rewrite El in E. cbn in E. congruence.
  - intros E. unfold beam_get_section. now rewrite E.
Qed.
End B.
