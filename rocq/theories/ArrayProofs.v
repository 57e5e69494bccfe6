(** Sessions: queries answer as the pure models say, whatever is written into results. *)

From Coq Require Import ZArith List Bool String Lia.
From Verif Require Import Base Num Numpy LoadCase Beam Material Solvers AS4100 ArrayHeap
  ArrayFacts ArrayBeam ArraySpec.
Import ListNotations.
Open Scope Z_scope.

Section ArrayProofs.
Context {T : Type} {NT : Num T}.
Implicit Types h : heap T.

Lemma all_some_exists {A B} (f : A -> option B) l :
  (forall x, In x l -> exists y, f x = Some y) -> exists l', all_some f l = Some l'.
Proof.
  induction l as [|x l IH]; intros H; [now exists []|].
  destruct (H x) as [y E]; [now left|]. destruct IH as [l' E']; [intros; apply H; now right|].
  cbn. rewrite E, E'. now eexists.
Qed.

Lemma sound_below h m : sound_case h (Some m) -> (m < List.length h)%nat.
Proof.
  intros [lc E]. cbn in E. unfold table in E. apply nth_error_Some.
  now destruct (nth_error h m).
Qed.

Lemma sound_beam {S} h (b : beamH T S) :
  (forall e k c, In e b -> In (k, c) (h_loads e) -> sound_case h c) ->
  exists v, beam_of h b = Some v.
Proof.
  intros H. apply all_some_exists. intros e He. unfold elem_of.
  destruct (all_some_exists (fun kc : Z * caseH =>
    option_map (fun c => (fst kc, c)) (case_of h (snd kc))) (h_loads e)) as [l' E].
  - intros [k c] Hk. destruct (H _ _ _ He Hk) as [lc E]. cbn. rewrite E. now eexists.
  - rewrite E. now eexists.
Qed.

(** The buffers of the load cases other than [c] are as at the start. *)
Definition intact (c : caseH) h0 h : Prop :=
  (List.length h0 <= List.length h)%nat /\
  forall m, (m < List.length h0)%nat -> Some m <> c -> nth_error h m = nth_error h0 m.

Lemma intact_case c h0 h c' :
  intact c h0 h -> sound_case h0 c' -> c' <> c -> case_of h c' = case_of h0 c'.
Proof.
  intros [_ I] S N. destruct c' as [m|]; [|reflexivity]. cbn. unfold table.
  rewrite I; auto. now apply sound_below.
Qed.

Lemma intact_beam {S} c h0 h (b : beamH T S) :
  intact c h0 h -> (forall e k c', In e b -> In (k, c') (h_loads e) -> sound_case h0 c' /\ c' <> c) ->
  beam_of h b = beam_of h0 b.
Proof.
  intros I H. apply all_some_ext. intros e He. unfold elem_of.
  replace (all_some _ (h_loads e)) with
    (all_some (fun kc : Z * caseH => option_map (fun c => (fst kc, c)) (case_of h0 (snd kc)))
       (h_loads e)); [reflexivity|].
  apply all_some_ext. intros [k c'] Hk. cbn. destruct (H _ _ _ He Hk).
  now rewrite (intact_case c h0 h c').
Qed.

Lemma intact_keeps c h0 h h' : intact c h0 h -> keeps (List.length h0) h h' -> intact c h0 h'.
Proof.
  intros [L I] (_ & L' & K). split; [exact L'|]. intros m Hm N. rewrite K by exact Hm. auto.
Qed.

(** The array a step returns is new or the load case [c]'s. *)
Definition allowed (c : caseH) (n : nat) (o : outcome T) : Prop :=
  match returned o with Some a => (n <= a_buf a)%nat \/ Some (a_buf a) = c | None => True end.

Lemma intact_poke c h0 h a i j x :
  intact c h0 h -> (List.length h0 <= a_buf a)%nat \/ Some (a_buf a) = c ->
  intact c h0 (poke a i j x h).
Proof.
  intros [L I] H. unfold poke. destruct (nth_error h (a_buf a)); [|now split].
  split; [now rewrite hset_length|]. intros m Hm N. rewrite hset_other; [now apply I|].
  intros ->. destruct H as [H|H]; [lia|congruence].
Qed.

Lemma reads_rows h (w : option arr) rows n :
  fresh_opt n h w rows ->
  reads_as (mk_outcome (Ok (AArr w)) h) (Ok (VRows rows)) /\
  allowed None n (mk_outcome (Ok (AArr w)) h).
Proof.
  intros F. destruct w as [a|], rows as [rows|]; cbn in F; try contradiction.
  - destruct F as [L S]. split; [exact S|]. now left.
  - split; exact Logic.I.
Qed.

Lemma allowed_none c n o : allowed None n o -> allowed c n o.
Proof. unfold allowed. destruct (returned o); [|auto]. intros [H|H]; [now left|discriminate]. Qed.

Lemma ask_ok qs c h0 h q :
  intact c h0 h -> sound_query h0 q -> ~ in_query q c ->
  exists v, says qs h0 q = Some v /\
    keeps (List.length h0) h (snd (ask qs q h)) /\
    reads_as (mk_outcome (fst (ask qs q h)) (snd (ask qs q h))) v /\
    allowed c (List.length h0) (mk_outcome (fst (ask qs q h)) (snd (ask qs q h))).
Proof.
  intros I S N. set (n := List.length h0).
  assert (L : (n <= List.length h)%nat) by apply I.
  assert (Rows : forall (m : M T (option arr)) p,
    agrees n m p (fresh_opt n) h ->
    let r := mbind m (fun a => mret (AArr a)) h in
    keeps n h (snd r) /\ reads_as (mk_outcome (fst r) (snd r)) (res_map VRows p) /\
    allowed c n (mk_outcome (fst r) (snd r))).
  { intros m p [K P]. unfold mbind. destruct (m h) as [[w|e] h']; cbn [fst snd mret] in *.
    - destruct p as [rows|]; [|contradiction]. destruct (reads_rows _ _ _ _ P) as [A B].
      split; [exact K|]. split; [exact A|]. now apply allowed_none.
    - destruct p; [contradiction|]. split; [exact K|]. split; [exact P|exact Logic.I]. }
  assert (Beam : forall S (b : beamH T S),
    (forall e k c', In e b -> In (k, c') (h_loads e) -> sound_case h0 c' /\ c' <> c) ->
    exists v, beam_of h0 b = Some v /\ beam_of h b = Some v /\ stored_below n b).
  { intros S' b H. destruct (sound_beam h0 b) as [v E].
    { intros e k c' He Hk. now apply (H e k). }
    exists v. split; [exact E|]. split; [now rewrite (intact_beam c h0)|].
    intros e k m He Hk. apply sound_below. now apply (H e k). }
  assert (Check : forall a : as4100H T,
    (forall b, h_beam a = Some b ->
       forall e k c', In e b -> In (k, c') (h_loads e) -> sound_case h0 c' /\ c' <> c) ->
    exists v, check_of h0 a = Some v /\ check_of h a = Some v /\ check_below n a).
  { intros a H. unfold check_of, check_below. destruct (h_beam a) as [b|].
    - destruct (Beam _ b (H b eq_refl)) as (v & -> & -> & B). eexists. now repeat split.
    - eexists. now repeat split. }
  destruct q as [c' p m k|b l p m k|a l p m|a l p]; cbn [says ask].
  - destruct (S c' eq_refl) as [lc E]. rewrite E. eexists. split; [reflexivity|].
    apply Rows. apply agrees_weaken with (show := fresh_opt (List.length h)).
    + eapply agrees_le; [|exact L]. apply get_loadH_ok.
      rewrite (intact_case c h0 h c' I (S c' eq_refl)); [exact E|]. intros ->. now apply N.
    + intros h1 w rows _ F. destruct w, rows; cbn in *; auto. destruct F; split; [lia|auto].
  - destruct (Beam _ b) as (v & E & E' & B).
    { intros e k' c' He Hk. split; [apply S; cbn; eauto|]. intros ->. apply N. cbn. eauto. }
    rewrite E. eexists. split; [reflexivity|]. apply Rows. now apply beam_get_loadsH_ok.
  - destruct (Check a) as (v & E & E' & B).
    { intros b Eb e k' c' He Hk. unfold sound_query, in_query in *. cbn in *. rewrite Eb in *.
      split; [apply S; eauto|]. intros ->. apply N. eauto. }
    rewrite E. eexists. split; [reflexivity|].
    destruct (get_tensionH_ok qs a v l p m n h B L E') as [K P].
    unfold mbind. destruct (get_tensionH qs a l p m h) as [[w|e] h']; cbn [fst snd mret] in *.
    + destruct (get_tension qs v l p m) as [rows|]; [|contradiction]. destruct P as [P1 P2].
      split; [exact K|]. split; [exact P2|]. now left.
    + destruct (get_tension qs v l p m); [contradiction|]. split; [exact K|].
      split; [exact P|exact Logic.I].
  - destruct (Check a) as (v & E & E' & B).
    { intros b Eb e k' c' He Hk. unfold sound_query, in_query in *. cbn in *. rewrite Eb in *.
      split; [apply S; eauto|]. intros ->. apply N. eauto. }
    rewrite E. eexists. split; [reflexivity|].
    destruct (utilH_ok qs a v l p n h B L E') as [K P].
    unfold mbind. destruct (tension_utilisationH qs a l p h) as [[w|e] h']; cbn [fst snd mret] in *.
    + destruct (tension_utilisation qs v l p) as [u|]; [|contradiction].
      split; [exact K|]. split; [exact P|exact Logic.I].
    + destruct (tension_utilisation qs v l p); [contradiction|]. split; [exact K|].
      split; [exact P|exact Logic.I].
Qed.

Lemma step_ok qs c h0 s past h :
  intact c h0 h -> Forall (allowed c (List.length h0)) past -> takes_only c h0 s ->
  let r := do_step qs s past h in
  intact c h0 (snd r) /\ allowed c (List.length h0) (mk_outcome (fst r) (snd r)) /\
  forall q, s = Ask q ->
    exists v, says qs h0 q = Some v /\ reads_as (mk_outcome (fst r) (snd r)) v.
Proof.
  intros I P M. destruct s as [q|c'|c'|r i j x]; cbn [do_step takes_only] in *.
  - destruct M as [M N]. destruct (ask_ok qs c h0 h q I M N) as (v & E & K & R & A).
    split; [eapply intact_keeps; eauto|]. split; [exact A|].
    intros q' Eq. injection Eq as <-. eauto.
  - subst c'. split; [exact I|]. split; [|discriminate].
    destruct c as [m|]; cbn; [now right|exact Logic.I].
  - subst c'. destruct c as [m|]; cbn; (split; [exact I|]; split; [|discriminate]).
    + now right.
    + exact Logic.I.
  - destruct (nth_error past r) as [o|] eqn:Eo.
    2:{ split; [exact I|]. split; [exact Logic.I|discriminate]. }
    destruct (returned o) as [a|] eqn:Ea.
    2:{ split; [exact I|]. split; [exact Logic.I|discriminate]. }
    cbn [fst snd]. split; [|split; [exact Logic.I|discriminate]].
    apply intact_poke; [exact I|]. apply nth_error_In in Eo.
    eapply Forall_forall in P; [|exact Eo]. unfold allowed in P. now rewrite Ea in P.
Qed.

Lemma session_prefix qs ss : forall past h,
  exists rest, session qs ss past h = (past ++ rest)%list /\ List.length rest = List.length ss.
Proof.
  induction ss as [|s ss IH]; intros past h.
  - exists []. now rewrite app_nil_r.
  - cbn [session]. destruct (do_step qs s past h) as [a h'].
    destruct (IH (past ++ [mk_outcome a h'])%list h') as (rest & E & L).
    exists (mk_outcome a h' :: rest). rewrite E, <- app_assoc. cbn. now rewrite L.
Qed.

Lemma session_ok qs c h0 ss : Forall (takes_only c h0) ss ->
  forall past h, intact c h0 h -> Forall (allowed c (List.length h0)) past ->
  (forall i s, nth_error ss i = Some s ->
     exists o, nth_error (session qs ss past h) (List.length past + i) = Some o /\
       intact c h0 (memory o) /\
       forall q, s = Ask q -> exists v, says qs h0 q = Some v /\ reads_as o v).
Proof.
  induction 1 as [|s ss Hs _ IH]; intros past h I P i s' Ei.
  - now destruct i.
  - cbn [session]. destruct (step_ok qs c h0 s past h I P Hs) as (I' & A & Q).
    destruct (do_step qs s past h) as [a h']. cbn [fst snd] in *.
    set (past' := (past ++ [mk_outcome a h'])%list).
    assert (L' : List.length past' = Datatypes.S (List.length past))
      by (unfold past'; rewrite app_length; cbn; lia).
    destruct i as [|i].
    + cbn in Ei. injection Ei as <-. exists (mk_outcome a h').
      destruct (session_prefix qs ss past' h') as (rest & E & _).
      split; [|split; [exact I'|exact Q]].
      rewrite E. unfold past'. rewrite <- app_assoc, nth_error_app2 by lia.
      now replace (List.length past + 0 - List.length past)%nat with 0%nat by lia.
    + cbn in Ei.
      replace (List.length past + Datatypes.S i)%nat with (List.length past' + i)%nat by lia.
      apply IH; auto. apply Forall_app. split; [exact P|]. constructor; [exact A|constructor].
Qed.

Lemma intact_refl c h0 : intact c h0 h0.
Proof. split; [lia|auto]. Qed.

(** No load case at all is taken out: the case [c] is a buffer beyond the start. *)
Theorem asks_are_pure qs h0 ss :
  Forall (only_asks h0) ss ->
  forall i s, nth_error ss i = Some s ->
  exists o, nth_error (session qs ss [] h0) i = Some o /\
    (forall c, sound_case h0 c -> case_of (memory o) c = case_of h0 c) /\
    forall q, s = Ask q -> exists v, says qs h0 q = Some v /\ reads_as o v.
Proof.
  intros H i s Ei.
  assert (H' : Forall (takes_only (Some (List.length h0)) h0) ss).
  { eapply Forall_impl; [|exact H]. intros [q|c|c|r k j x]; cbn; try contradiction; auto.
    intros S. split; [exact S|]. intros B. apply S in B. apply sound_below in B. lia. }
  destruct (session_ok qs _ h0 ss H' [] h0 (intact_refl _ _) (Forall_nil _) i s Ei)
    as (o & E & I & Q).
  exists o. split; [exact E|]. split; [|exact Q].
  intros c S. apply (intact_case _ _ _ _ I S). intros ->. apply sound_below in S. lia.
Qed.

Theorem others_are_pure qs h0 c ss :
  Forall (takes_only c h0) ss ->
  forall i s, nth_error ss i = Some s ->
  exists o, nth_error (session qs ss [] h0) i = Some o /\
    (forall c', sound_case h0 c' -> c' <> c -> case_of (memory o) c' = case_of h0 c') /\
    forall q, s = Ask q -> exists v, says qs h0 q = Some v /\ reads_as o v.
Proof.
  intros H i s Ei.
  destruct (session_ok qs _ h0 ss H [] h0 (intact_refl _ _) (Forall_nil _) i s Ei)
    as (o & E & I & Q).
  exists o. split; [exact E|]. split; [|exact Q]. intros c' S N. eapply intact_case; eauto.
Qed.

(** The constructor puts the table into a buffer of its own. *)
Lemma load_caseH_ok inp h :
  match load_case inp with
  | Ok lc => exists c h', load_caseH inp h = (Ok c, h') /\ case_of h' c = Some lc /\
      (forall m, c = Some m -> nth_error h m = None) /\
      (forall m b, nth_error h m = Some b -> nth_error h' m = Some b)
  | Err e => load_caseH inp h = (Err e, h)
  end.
Proof.
  unfold load_caseH, mbind, mlift. destruct (load_case inp) as [[rows|]|e]; [| |reflexivity].
  - exists (Some (List.length h)), (h ++ [map lrow_cells rows])%list.
    split; [reflexivity|]. split; [|split].
    + cbn. unfold table. rewrite nth_error_app2, Nat.sub_diag by lia. cbn.
      now rewrite (all_some_map _ _ _ cells_lrow_cells).
    + intros m E. injection E as <-. now apply nth_error_None.
    + intros m b E. rewrite nth_error_app1; [exact E|]. apply nth_error_Some. congruence.
  - exists None, h. repeat split; [discriminate|auto].
Qed.

End ArrayProofs.

Section Tension.
Context {T : Type} {NT : Num T}.
Implicit Types h : heap T.

Lemma all_some_in {A B} (f : A -> option B) l l' x :
  all_some f l = Some l' -> In x l -> exists y, f x = Some y.
Proof.
  revert l'. induction l as [|z l IH]; intros l' E H; [destruct H|]. cbn in E.
  destruct (f z) eqn:Ez; [|discriminate]. destruct (all_some f l) eqn:El; [|discriminate].
  destruct H as [<-|H]; [eauto|]. now apply (IH _ eq_refl).
Qed.

Lemma beam_of_below {S} h (b : beamH T S) v :
  beam_of h b = Some v -> stored_below (List.length h) b.
Proof.
  intros E e k m He Hk. unfold beam_of in E. destruct (all_some_in _ _ _ e E He) as [el Ee].
  unfold elem_of in Ee. destruct (all_some _ (h_loads e)) as [l'|] eqn:El; [|discriminate].
  destruct (all_some_in _ _ _ _ El Hk) as [y Ey]. cbn [fst snd] in Ey.
  apply (sound_below h m). destruct (case_of h (Some m)) as [lc|] eqn:Ec; [now exists lc|].
  discriminate Ey.
Qed.
Lemma check_of_below h a v : check_of h a = Some v -> check_below (List.length h) a.
Proof.
  unfold check_of, check_below. destruct (h_beam a) as [b|]; [|auto].
  destruct (beam_of h b) eqn:E; [|discriminate]. intros _. eapply beam_of_below; eauto.
Qed.

Lemma tension_in_memory qs h a v lc position mp :
  check_of h a = Some v ->
  (forall m b, nth_error h m = Some b ->
     nth_error (snd (get_tensionH qs a lc position mp h)) m = Some b) /\
  match fst (get_tensionH qs a lc position mp h), get_tension qs v lc position mp with
  | Ok x, Ok rows =>
      content (snd (get_tensionH qs a lc position mp h)) x = Some (map orow_cells rows) /\
      nth_error h (a_buf x) = None
  | Err e, Err e' => e = e'
  | _, _ => False
  end.
Proof.
  intros E. destruct (get_tensionH_ok qs a v lc position mp _ h (check_of_below _ _ _ E)
    (le_n _) E) as [(_ & _ & K) P].
  split.
  - intros m b Em. rewrite K; [exact Em|]. apply nth_error_Some. congruence.
  - destruct (fst (get_tensionH qs a lc position mp h)), (get_tension qs v lc position mp);
      auto. destruct P as [L P]. split; [exact P|]. now apply nth_error_None.
Qed.
End Tension.
