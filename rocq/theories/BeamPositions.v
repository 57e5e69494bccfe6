(** Beam.list_positions over the reals. *)

From Coq Require Import ZArith Reals List Bool Sorted Lra Lia.
From Verif Require Import Base Num RNum Numpy LoadCase OrdFacts LoadFacts LoadSpec LoadProofs
  Beam BeamSpec BeamFacts.
Import ListNotations.
Open Scope R_scope.

Lemma mapM_inv {A B} (f : A -> res B) l : forall r, mapM f l = Ok r -> Forall2 (fun a b => f a = Ok b) l r.
Proof.
  induction l as [|a l IH]; cbn; intros r H.
  - injection H as <-. constructor.
  - destruct (f a) eqn:E; [|discriminate]. cbn in H. destruct (mapM f l); [|discriminate].
    injection H as <-. constructor; auto.
Qed.

Lemma mapM_Forall2 {A B} (f : A -> res B) l r : Forall2 (fun a b => f a = Ok b) l r -> mapM f l = Ok r.
Proof. induction 1 as [|a b l r H F IH]; cbn; auto. rewrite H. cbn. rewrite IH. reflexivity. Qed.

Lemma mapM_total {A B} (f : A -> res B) l : (forall a, In a l -> exists b, f a = Ok b) ->
  exists r, mapM f l = Ok r.
Proof.
  induction l as [|a l IH]; cbn; intros H; eauto.
  destruct (H a) as (b & ->); auto. destruct IH as (r & ->); auto. cbn. eauto.
Qed.

Lemma Forall2_In_l {A B} (P : A -> B -> Prop) l r a : Forall2 P l r -> In a l -> exists b, In b r /\ P a b.
Proof.
  induction 1 as [|x y l r H F IH]; cbn; [tauto|]. intros [->|Ha]; eauto.
  destruct (IH Ha) as (b & Hb & Pb). eauto.
Qed.

Lemma Forall2_In_r {A B} (P : A -> B -> Prop) l r b : Forall2 P l r -> In b r -> exists a, In a l /\ P a b.
Proof.
  induction 1 as [|x y l r H F IH]; cbn; [tauto|]. intros [->|Hb]; eauto.
  destruct (IH Hb) as (a & Ha & Pa). eauto.
Qed.

Section B.
Context {Sec : Type}.
Implicit Types b : beam_t R Sec.

Lemma zero_length_nonempty (e : elem R Sec) lc locals :
  zero_length_positions e lc = Ok locals -> exists l0 r, locals = l0 :: r.
Proof.
  unfold zero_length_positions. destruct lc as [c|]; [|intros [= <-]; eauto].
  destruct (el_load_positions e c) as [lp|]; cbn [bind]; [|discriminate].
  destruct lp as [|p0 lp]; [discriminate|].
  cbv zeta. intros H. apply (f_equal (fun r => match r with Ok x => x | Err _ => [] end)) in H.
  subst locals.
  destruct (negb (neqb p0 (nint 0)));
    match goal with |- context [if ?x then _ else _] => destruct x end; cbn [map]; eauto.
Qed.

(** The locations of [p] in element [i]. *)
Definition locals_at (e : elem R Sec) (ls : list R) (lc : option Z) (p : R) (i : nat) : res (list R) :=
  if Reqb (nth i ls 0) 0 then zero_length_positions e lc
  else Ok [(p - start_of ls i) / nth i ls 0].

Lemma locations_at_R b ls lc p i e : has_lengths b ls -> covers ls i p -> nth_error b i = Some e ->
  locations_at b lc p (Z.of_nat i) = rmap (map (fun l => (p, Z.of_nat i, l))) (locals_at e ls lc p i).
Proof.
  intros H C E. unfold locations_at. rewrite (py_index_nat b i e E). cbn [bind].
  destruct (lengths_nth b ls i e H E) as (-> & L & Hi). cbn [neqb nint RNum]. unfold locals_at.
  destruct (Reqb (nth i ls 0) 0) eqn:Z.
  - destruct (zero_length_positions e lc); reflexivity.
  - rewrite (beam_to_local_R b ls p (Z.of_nat i) i H).
    2:{ apply designated_nat. now rewrite (lengths_len b ls H). }
    rewrite Z. unfold in_ext. destruct C as [_ [C1 C2]].
    rewrite (proj2 (Rleb_true _ _) C1), (proj2 (Rleb_true _ _) C2). reflexivity.
Qed.

Lemma locations_at_ok b ls lc p i ts : has_lengths b ls -> covers ls i p ->
  locations_at b lc p (Z.of_nat i) = Ok ts -> triples_in ls p i ts.
Proof.
  intros H C E. destruct (lengths_has b ls i H (proj1 C)) as (e & He).
  rewrite (locations_at_R b ls lc p i e H C He) in E. unfold locals_at in E.
  destruct (Reqb (nth i ls 0) 0) eqn:Z.
  - apply Reqb_true in Z. destruct (zero_length_positions e lc) as [locals|] eqn:El; [|discriminate].
    cbn in E. injection E as <-. split; [lra|]. intros _.
    destruct (zero_length_nonempty e lc locals El) as (l0 & r & ->). eauto.
  - apply Reqb_false in Z. cbn in E. injection E as <-. split; [|tauto]. intros P.
    eexists. split; [reflexivity|]. field. lra.
Qed.

Lemma locations_at_err b ls lc p i e : has_lengths b ls -> covers ls i p ->
  locations_at b lc p (Z.of_nat i) = Err e ->
  exists el, nth_error b i = Some el /\ nth i ls 0 = 0 /\ zero_length_positions el lc = Err e.
Proof.
  intros H C E. destruct (lengths_has b ls i H (proj1 C)) as (el & He).
  rewrite (locations_at_R b ls lc p i el H C He) in E. unfold locals_at in E.
  destruct (Reqb (nth i ls 0) 0) eqn:Z; [|discriminate].
  apply Reqb_true in Z. exists el. split; auto. split; auto.
  destruct (zero_length_positions el lc); [discriminate|]. cbn in E. congruence.
Qed.

Definition locs_at b ls lc p : res (list (location R)) :=
  let! tss := mapM (fun i => locations_at b lc p (Z.of_nat i)) (ids ls p) in Ok (List.concat tss).

Lemma mapM_map {A B C} (f : B -> res C) (g : A -> B) l : mapM f (map g l) = mapM (fun a => f (g a)) l.
Proof. induction l as [|a l IH]; cbn; auto. destruct (f (g a)); cbn; auto. now rewrite IH. Qed.

Lemma mapM_ext {A B} (f g : A -> res B) l : (forall a, In a l -> f a = g a) -> mapM f l = mapM g l.
Proof.
  induction l as [|a l IH]; cbn; intros H; auto. rewrite H by auto. rewrite IH by auto. reflexivity.
Qed.

Lemma locations_R b ls lc ps : has_lengths b ls ->
  locations b lc ps = (let! tss := mapM (locs_at b ls lc) ps in Ok (List.concat tss)).
Proof.
  intros H. unfold locations. f_equal. apply mapM_ext. intros p _.
  rewrite (in_elements_R b ls p H). cbn [bind]. rewrite mapM_map. reflexivity.
Qed.

Lemma locs_at_ok b ls lc p ts : has_lengths b ls -> locs_at b ls lc p = Ok ts -> triples_at ls p ts.
Proof.
  intros H. unfold locs_at. destruct (mapM _ _) as [tss|] eqn:E; [|discriminate].
  cbn. intros [= <-]. exists (ids ls p), tss. split; [apply ids_spec|]. split; auto.
  apply mapM_inv in E. 
  assert (G : forall l, incl l (ids ls p) -> forall r,
    Forall2 (fun i t => locations_at b lc p (Z.of_nat i) = Ok t) l r -> Forall2 (triples_in ls p) l r).
  { intros l I r F. revert I. induction F as [|i t l r Hi F IH]; intros I; constructor.
    - apply (locations_at_ok b ls lc); auto. apply in_ids, I. now left.
    - apply IH. intros x Hx. apply I. now right. }
  apply (G (ids ls p)); auto. apply incl_refl.
Qed.

Lemma locations_ok b ls lc ps locs : has_lengths b ls -> locations b lc ps = Ok locs ->
  exists tss, Forall2 (triples_at ls) ps tss /\ locs = List.concat tss.
Proof.
  intros H E. rewrite (locations_R b ls lc ps H) in E.
  destruct (mapM _ _) as [tss|] eqn:M; [|discriminate]. injection E as <-.
  exists tss. split; auto. apply mapM_inv in M.
  induction M; constructor; auto. now apply (locs_at_ok b ls lc).
Qed.

(** The triples at [p] have position [p], and there are some iff [p] is on the beam. *)
Lemma triples_at_pos ls p ts : triples_at ls p ts -> forall t, In t ts ->
  fst (fst t) = p /\ exists i, snd (fst t) = Z.of_nat i /\ covers ls i p /\
    (0 < nth i ls 0 -> snd t * nth i ls 0 = p - start_of ls i).
Proof.
  intros (is & tss & [_ I] & F & ->) t Ht. apply in_concat in Ht. destruct Ht as (tl & Htl & Ht).
  destruct (Forall2_In_r _ _ _ _ F Htl) as (i & Hi & [T1 T2]). apply I in Hi.
  destruct (Rlt_dec 0 (nth i ls 0)) as [P|P].
  - destruct (T1 P) as (l & -> & El). cbn in Ht. destruct Ht as [<-|[]]. cbn. split; eauto 10.
  - destruct (Req_dec (nth i ls 0) 0) as [Z|Z].
    + destruct (T2 Z) as (l0 & r & ->). apply in_map_iff in Ht. destruct Ht as (l & <- & _).
      cbn. split; auto. exists i. repeat split; auto; try apply Hi. lra.
    + destruct Hi as [Hi [H1 H2]]. rewrite end_length in H2 by auto. lra.
Qed.

Lemma triples_at_every ls p ts i : triples_at ls p ts -> covers ls i p ->
  exists l, In (p, Z.of_nat i, l) ts.
Proof.
  intros (is & tss & [_ I] & F & ->) C. apply I in C.
  destruct (Forall2_In_l _ _ _ _ F C) as (tl & Htl & [T1 T2]).
  assert (exists l, In (p, Z.of_nat i, l) tl) as (l & Hl).
  { destruct (Rlt_dec 0 (nth i ls 0)) as [P|P].
    - destruct (T1 P) as (l & -> & _). exists l. now left.
    - destruct (Req_dec (nth i ls 0) 0) as [Z|Z].
      + destruct (T2 Z) as (l0 & r & ->). exists l0. now left.
      + apply I in C. destruct C as [Hi [H1 H2]]. rewrite end_length in H2 by auto. lra. }
  exists l. apply in_concat. eauto.
Qed.

Lemma positions_concat tss : positions_of (List.concat tss) = List.concat (map positions_of tss).
Proof. unfold positions_of. now rewrite concat_map. Qed.

Lemma locations_positions ls ps tss : Forall (fun l => 0 <= l) ls -> Forall2 (triples_at ls) ps tss ->
  forall p, In p (positions_of (List.concat tss)) <-> (In p ps /\ exists i, covers ls i p).
Proof.
  intros N F p. rewrite positions_concat, in_concat. split.
  - intros (q & Hq & Hp). apply in_map_iff in Hq. destruct Hq as (ts & <- & Hts).
    destruct (Forall2_In_r _ _ _ _ F Hts) as (p' & Hp' & T).
    unfold positions_of in Hp. apply in_map_iff in Hp. destruct Hp as (t & <- & Ht).
    destruct (triples_at_pos ls p' ts T t Ht) as (-> & i & _ & C & _). eauto.
  - intros (Hp & i & C). destruct (Forall2_In_l _ _ _ _ F Hp) as (ts & Hts & T).
    destruct (triples_at_every ls p ts i T C) as (l & Hl).
    exists (positions_of ts). split; [apply in_map; auto|].
    apply in_map_iff. exists (p, Z.of_nat i, l). auto.
Qed.

Lemma concat_sorted ls ps tss : StronglySorted Rlt ps -> Forall2 (triples_at ls) ps tss ->
  StronglySorted Rle (positions_of (List.concat tss)).
Proof.
  intros S F. induction F as [|p ts ps tss T F IH]; [constructor|].
  apply StronglySorted_inv in S. destruct S as [S Fp]. specialize (IH S).
  cbn [List.concat]. unfold positions_of in *. rewrite map_app.
  assert (Hts : forall x, In x (map (fun t : location R => fst (fst t)) ts) -> x = p).
  { intros x Hx. apply in_map_iff in Hx. destruct Hx as (t & <- & Ht). now apply (triples_at_pos ls p ts T t). }
  assert (Hr : forall x, In x (map (fun t : location R => fst (fst t)) (List.concat tss)) -> p <= x).
  { intros x Hx. apply in_map_iff in Hx. destruct Hx as (t & <- & Ht).
    apply in_concat in Ht. destruct Ht as (tl & Htl & Ht).
    destruct (Forall2_In_r _ _ _ _ F Htl) as (p' & Hp' & T').
    destruct (triples_at_pos ls p' tl T' t Ht) as (-> & _).
    rewrite Forall_forall in Fp. specialize (Fp p' Hp'). lra. }
  clear T F Fp S. revert Hts. induction ts as [|t ts IHt]; intros Hts; cbn; auto.
  constructor.
  - apply IHt. intros x Hx. apply Hts. now right.
  - apply Forall_forall. intros x Hx. assert (fst (fst t) = p) as -> by (apply Hts; now left).
    apply in_app_iff in Hx. destruct Hx as [Hx|Hx]; [|auto].
    assert (x = p) by (apply Hts; now right). lra.
Qed.

(** Explicit positions. *)
Lemma check_on_beam_R b ls ps : has_lengths b ls ->
  check_on_beam b ps = Ok tt /\ (forall p, In p ps -> 0 <= p <= span ls) \/
  check_on_beam b ps = Err PositionNotInBeamError /\ (exists p, In p ps /\ (p < 0 \/ span ls < p)).
Proof.
  intros H. induction ps as [|p ps IH]; cbn [check_on_beam].
  - left. split; auto. intros p [].
  - rewrite (beam_length_R b ls H). cbn [bind nltb nint RNum].
    destruct (Rltb p 0) eqn:E1.
    + right. split; auto. exists p. split; [now left|]. left. now apply Rltb_true.
    + destruct (Rltb (span ls) p) eqn:E2.
      * right. split; auto. exists p. split; [now left|]. right. now apply Rltb_true.
      * apply Rltb_false in E1, E2. destruct IH as [[-> IH]|[-> (q & Hq & L)]].
        -- left. split; auto. intros q [<-|Hq]; auto.
        -- right. split; auto. exists q. split; auto. now right.
Qed.

Lemma explicit_R b position ps lc : requested position ps ->
  beam_list_positions b position None lc =
  (let! _ := check_on_beam b ps in locations b lc (py_sorted (py_set ps))).
Proof. intros []; reflexivity. Qed.

Lemma sorted_set_R (l : list R) : StronglySorted Rlt (py_sorted (py_set l)).
Proof.
  pose proof (sorted_set_ascending (ok := Rok) l (R_ok l)) as H. unfold ascending, OrdFacts.lt in H.
  induction H as [|x r H IH F]; constructor; auto. eapply Forall_impl; [|exact F].
  intros y. apply Rltb_true.
Qed.

(** C17. *)
Lemma list_positions_arranged b ls position mp lc locs : has_lengths b ls ->
  beam_list_positions b position mp lc = Ok locs ->
  exists at_ps tss, StronglySorted Rlt at_ps /\ Forall2 (triples_at ls) at_ps tss /\
    locs = List.concat tss /\
    (forall ps, requested position ps -> forall p, In p at_ps <-> In p ps).
Proof.
  intros H E.
  assert (X : exists at_ps, locations b lc (py_sorted (py_set at_ps)) = Ok locs /\
                            (forall ps, requested position ps -> at_ps = ps)).
  { unfold beam_list_positions in E. destruct position as [|x|l], mp as [n|]; try discriminate.
    - destruct (beam_length b); [|discriminate]. cbn [bind] in E.
      destruct (linspace _ _ _) as [lin|]; [|discriminate]. cbn [bind] in E.
      destruct (element_ends b) as [en|]; [|discriminate]. cbn [bind] in E.
      destruct (real_positions _ _ _ _) as [re|]; [|discriminate]. cbn [bind] in E.
      exists ((flatten_ends en ++ re) ++ lin). split; [|intros ps R; inversion R].
      unfold py_set, set_update in *. rewrite fold_left_app. exact E.
    - cbn [nisfloat RNum] in E. destruct (check_on_beam b [x]); [|discriminate]. exists [x].
      split; auto. intros ps R. inversion R; auto.
    - destruct (check_on_beam b l); [|discriminate]. exists l.
      split; auto. intros ps R. inversion R; auto. }
  destruct X as (at_ps & El & Er).
  destruct (locations_ok b ls lc _ locs H El) as (tss & F & ->).
  exists (py_sorted (py_set at_ps)), tss. split; [apply sorted_set_R|]. split; auto. split; auto.
  intros ps R p. rewrite (Er ps R). apply Rin_sorted_set.
Qed.

Lemma list_positions_triples b ls position mp lc locs : has_lengths b ls ->
  beam_list_positions b position mp lc = Ok locs ->
  (forall p e l, In (p, e, l) locs -> exists i, e = Z.of_nat i /\ covers ls i p /\
     (0 < nth i ls 0 -> l * nth i ls 0 = p - start_of ls i)) /\
  StronglySorted Rle (positions_of locs) /\
  (forall p i, In p (positions_of locs) -> covers ls i p -> exists l, In (p, Z.of_nat i, l) locs) /\
  (b <> [] -> forall ps, requested position ps -> forall p, In p (positions_of locs) <-> In p ps).
Proof.
  intros H E. pose proof (lengths_nonneg b ls H) as N.
  destruct (list_positions_arranged b ls position mp lc locs H E) as (at_ps & tss & S & F & -> & Rq).
  split; [|split; [|split]].
  - intros p e l Hin. apply in_concat in Hin. destruct Hin as (ts & Hts & Ht).
    destruct (Forall2_In_r _ _ _ _ F Hts) as (p' & Hp' & T).
    destruct (triples_at_pos ls p' ts T _ Ht) as (Ep & i & Ei & C & L). cbn in Ep, Ei, L. subst. eauto.
  - now apply concat_sorted with (ls := ls) (ps := at_ps).
  - intros p i Hp C. apply (locations_positions ls at_ps tss N F) in Hp. destruct Hp as [Hp _].
    destruct (Forall2_In_l _ _ _ _ F Hp) as (ts & Hts & T).
    destruct (triples_at_every ls p ts i T C) as (l & Hl). exists l. apply in_concat. eauto.
  - intros Nb ps Hps p. split; intros Hp.
    + apply (Rq ps Hps). apply (locations_positions ls at_ps tss N F) in Hp. tauto.
    + apply (locations_positions ls at_ps tss N F). split; [now apply (Rq ps Hps)|].
      apply some_cover; auto.
      * intros ->. inversion H. congruence.
      * assert (mp = None) as ->.
        { destruct mp; auto. destruct Hps; discriminate. }
        rewrite (explicit_R b position ps lc Hps) in E.
        destruct (check_on_beam_R b ls ps H) as [[_ G]|[G _]]; auto. rewrite G in E. discriminate.
Qed.
End B.
