(** Beams and code checks over the array model. *)

From Coq Require Import ZArith List Bool String Lia.
From Verif Require Import Base Num Numpy LoadCase Beam Material Solvers AS4100 ArrayHeap
  ArrayFacts.
Import ListNotations.
Open Scope Z_scope.

Lemma all_some_nth {A B} (f : A -> option B) l l' i :
  all_some f l = Some l' ->
  match nth_error l i, nth_error l' i with
  | Some x, Some y => f x = Some y
  | None, None => True
  | _, _ => False
  end.
Proof.
  revert l' i. induction l as [|x l IH]; intros l' i E; cbn in E.
  - injection E as <-. now destruct i.
  - destruct (f x) eqn:Ex; [|discriminate]. destruct (all_some f l) eqn:El; [|discriminate].
    injection E as <-. destruct i as [|i]; cbn; [exact Ex|]. now apply IH.
Qed.
Lemma all_some_length {A B} (f : A -> option B) l l' :
  all_some f l = Some l' -> List.length l' = List.length l.
Proof.
  revert l'. induction l as [|x l IH]; intros l' E; cbn in E; [now injection E as <-|].
  destruct (f x); [|discriminate]. destruct (all_some f l) eqn:El; [|discriminate].
  injection E as <-. cbn. now rewrite IH.
Qed.
Lemma all_some_index {A B} (f : A -> option B) l l' i :
  all_some f l = Some l' ->
  match py_index l i, py_index l' i with
  | Ok x, Ok y => f x = Some y
  | Err e, Err e' => e = e'
  | _, _ => False
  end.
Proof.
  intros E. unfold py_index. rewrite (all_some_length _ _ _ E).
  set (j := if i <? 0 then _ else _). destruct ((j <? 0) || _); [reflexivity|].
  pose proof (all_some_nth _ _ _ (Z.to_nat j) E) as P.
  destruct (nth_error l (Z.to_nat j)), (nth_error l' (Z.to_nat j)); auto.
Qed.
Lemma all_some_ext {A B} (f g : A -> option B) l :
  (forall x, In x l -> f x = g x) -> all_some f l = all_some g l.
Proof.
  induction l as [|x l IH]; cbn; intros H; [reflexivity|].
  rewrite H by auto. rewrite IH by auto. reflexivity.
Qed.

Section ArrayBeam.
Context {T : Type} {NT : Num T} {S : Type}.
Implicit Types h : heap T.

Lemma agrees_step {A B C} n (m : M T A) (f : A -> M T B) (p : res C) show h h1 x :
  m h = (Ok x, h1) -> keeps n h h1 -> agrees n (f x) p show h1 ->
  agrees n (mbind m f) p show h.
Proof.
  intros E K [G1 G2]. unfold agrees, mbind. rewrite E. split; [|exact G2].
  eapply keeps_trans; eauto.
Qed.
Lemma agrees_step_err {A B C} n (m : M T A) (f : A -> M T B) (show : heap T -> B -> C -> Prop)
  h h1 e :
  m h = (Err e, h1) -> keeps n h h1 -> agrees n (mbind m f) (Err e) show h.
Proof. intros E K. unfold agrees, mbind. rewrite E. split; [exact K|reflexivity]. Qed.

(** Every stored load case is in a buffer below [n]. *)
Definition stored_below (n : nat) (b : beamH T S) : Prop :=
  forall e k m, In e b -> In (k, Some m) (h_loads e) -> (m < n)%nat.

Lemma beam_of_keeps n h h' b : stored_below n b -> keeps n h h' -> beam_of h' b = beam_of h b.
Proof.
  intros L (_ & _ & C). unfold beam_of. apply all_some_ext. intros e He. unfold elem_of.
  replace (all_some _ (h_loads e)) with
    (all_some (fun kc : Z * caseH => option_map (fun c => (fst kc, c)) (case_of h (snd kc)))
       (h_loads e)); [reflexivity|].
  apply all_some_ext. intros [k [m|]] Hk; cbn; [|reflexivity].
  unfold table. now rewrite (C m (L _ _ _ He Hk)).
Qed.

Lemma dict_get_ok h l l' k :
  all_some (fun kc : Z * caseH => option_map (fun c => (fst kc, c)) (case_of h (snd kc))) l
  = Some l' ->
  match dict_get k l, dict_get k l' with
  | Ok c, Ok lc => case_of h c = Some lc
  | Err e, Err e' => e = e'
  | _, _ => False
  end.
Proof.
  revert l'. induction l as [|[k' c] l IH]; intros l' E; cbn [all_some fst snd] in E.
  - injection E as <-. reflexivity.
  - destruct (case_of h c) as [lc|] eqn:Ec; cbn [option_map] in E; [|discriminate].
    match type of E with match ?X with _ => _ end = _ => destruct X as [r|] eqn:Er end;
      [|discriminate].
    injection E as <-. cbn [dict_get]. destruct (k =? k'); [exact Ec|]. now apply IH.
Qed.

Lemma accumulateH_ok qs (bH : beamH T S) lc k n h0 v locs :
  stored_below n bH -> beam_of h0 bH = Some v ->
  forall acc accp h, keeps n h0 h -> fresh_opt n h acc accp ->
  agrees n (accumulateH qs bH lc k acc locs) (accumulate qs v lc k accp locs) (fresh_opt n) h.
Proof.
  intros HL HV. induction locs as [|[[p e] l] locs IH]; intros acc accp h K F.
  - apply agrees_ret; [apply K|exact F].
  - cbn [accumulateH accumulate].
    assert (HVh : beam_of h bH = Some v) by now rewrite (beam_of_keeps n h0).
    pose proof (all_some_index _ _ _ e HVh) as P.
    destruct (py_index bH e) as [el|er] eqn:Ee.
    2:{ destruct (py_index v e) as [?|er']; [contradiction|]. subst er'.
        split; [apply keeps_refl, K|reflexivity]. }
    destruct (py_index v e) as [elp|er'] eqn:Ee'; [|contradiction].
    assert (HE : all_some (fun kc : Z * caseH =>
               option_map (fun c => (fst kc, c)) (case_of h (snd kc))) (h_loads el)
               = Some (eloads elp)).
    { unfold elem_of in P. destruct (all_some _ (h_loads el)); [|discriminate].
      injection P as <-. reflexivity. }
    pose proof (dict_get_ok h _ _ lc HE) as PD.
    change (@mlift T _ (Ok el)) with (@mret T _ el).
    enough (G : agrees n
      (do c <- mlift (dict_get lc (h_loads el));
       do w <- get_loadH qs c (PosNum l) None k;
       match w with
       | None => mlift (Err TypeError)
       | Some a =>
          do rows <- read_rows a;
          do _ <- write_rows a (set_position p rows);
          do acc' <- match acc with
                     | None => mret a
                     | Some a0 =>
                         do x <- read_rows a0;
                         do y <- read_rows a;
                         do z <- mlift (vstack x y);
                         do n <- halloc (map orow_cells z);
                         mret (mk_arr n 0)
                     end;
          accumulateH qs bH lc k (Some acc') locs
       end)
      (let! w := el_get_loads qs elp lc (PosNum l) None k in
       match w with
       | None => Err TypeError
       | Some rows =>
          let w := set_position p rows in
          let! acc' := match accp with None => Ok w | Some a => vstack a w end in
          accumulate qs v lc k (Some acc') locs
       end) (fresh_opt n) h).
    { exact G. }
    unfold el_get_loads.
    destruct (dict_get lc (h_loads el)) as [c|er].
    2:{ destruct (dict_get lc (eloads elp)) as [?|er']; [contradiction|]. subst er'.
        split; [apply keeps_refl, K|reflexivity]. }
    destruct (dict_get lc (eloads elp)) as [lcv|er']; [|contradiction]. cbn [bind].
    eapply agrees_step; [reflexivity|apply keeps_refl, K|].
    pose proof (get_loadH_ok qs c lcv (PosNum l) None k h PD) as [K1 P1].
    destruct (get_loadH qs c (PosNum l) None k h) as [r h1] eqn:Eg. cbn [fst snd] in *.
    assert (Kn : keeps n h h1) by (eapply keeps_le; [apply K|exact K1]).
    destruct r as [w|er], (get_load qs lcv (PosNum l) None k) as [wp|er'];
      cbn [bind]; try contradiction.
    2:{ subst er'. eapply agrees_step_err; eassumption. }
    eapply agrees_step; [exact Eg|exact Kn|].
    destruct w as [a|], wp as [rows|]; cbn [fresh_opt] in P1; try contradiction.
    2:{ apply agrees_err, Kn. }
    destruct P1 as [La Sa]. cbv zeta.
    set (rest := fun acc' => accumulateH qs bH lc k (Some acc') locs) in *.
    assert (Ls : List.length (set_position p rows) = List.length rows)
      by apply map_length.
    destruct (write_rows_ok h1 a rows _ Sa Ls) as (h2 & Ew & Sw & Kw).
    pose proof (read_rows_ok _ _ _ Sa) as Er.
    assert (K2 : keeps (List.length h) h1 h2) by (apply Kw, La).
    assert (K2n : keeps n h1 h2) by (eapply keeps_le; [apply K|exact K2]).
    enough (G : agrees n
       (do acc' <- match acc with
                     | None => mret a
                     | Some a0 =>
                         do x <- read_rows a0;
                         do y <- read_rows a;
                         do z <- mlift (vstack x y);
                         do n <- halloc (map orow_cells z);
                         mret (mk_arr n 0)
                     end; rest acc')
       (let! acc' := match accp with None => Ok (set_position p rows)
                      | Some a0 => vstack a0 (set_position p rows) end in
         accumulate qs v lc k (Some acc') locs) (fresh_opt n) h2).
    { eapply agrees_step; [exact Er|apply keeps_refl, Kn|].
      eapply agrees_step; [exact Ew|exact K2n|]. exact G. }
    apply agrees_bind with (show := fresh_rows n).
    + destruct acc as [a0|], accp as [r0|]; cbn [fresh_opt] in F; try contradiction.
      2:{ apply agrees_ret; [apply K2n|]. split; [|exact Sw].
          destruct K as (_ & K & _). lia. }
      assert (S0 : shows_rows h2 a0 r0).
      { destruct F as [_ F]. pose proof (shows_buf _ _ _ F).
        eapply shows_keeps; [exact K2|assumption|].
        eapply shows_keeps; [exact K1|assumption|exact F]. }
      enough (G : agrees n (do z <- mlift (vstack r0 (set_position p rows));
                    do n <- halloc (map orow_cells z); mret (mk_arr n 0))
                  (vstack r0 (set_position p rows)) (fresh_rows n) h2).
      { eapply agrees_step; [exact (read_rows_ok _ _ _ S0)|apply keeps_refl, K2n|].
        eapply agrees_step; [exact (read_rows_ok _ _ _ Sw)|apply keeps_refl, K2n|]. exact G. }
      replace (vstack r0 (set_position p rows)) with
        (bind (vstack r0 (set_position p rows)) (fun z => Ok z)) at 2
        by (destruct (vstack _ _); reflexivity).
      eapply agrees_bind; [apply agrees_lift, K2n|]. intros h3 z ? K3 _ _ <-.
      eapply agrees_alloc with (off := 0%nat) (k := fun n => mk_arr n 0);
        [apply K3|apply skipn0|]. intros h' _ Fr. exact Fr.
    + intros h3 acc' accp' K3 _ _ F'. unfold rest. apply IH; [|exact F'].
      eapply keeps_trans; [exact K|]. eapply keeps_trans; [exact Kn|].
      eapply keeps_trans; [exact K2n|exact K3].
Qed.

Lemma view_beam_ok {A B} n (bH : beamH T S) v h (f : beam_t T S -> M T A) (p : res B) show :
  beam_of h bH = Some v -> agrees n (f v) p show h ->
  agrees n (mbind (view_beam bH) f) p show h.
Proof. intros E. unfold agrees, mbind, view_beam. now rewrite E. Qed.

Lemma beam_get_loadsH_ok qs (bH : beamH T S) v lc position mp k n h :
  stored_below n bH -> (n <= List.length h)%nat -> beam_of h bH = Some v ->
  agrees n (beam_get_loadsH qs bH lc position mp k) (beam_get_loads qs v lc position mp k)
    (fresh_opt n) h.
Proof.
  intros HL L HV. unfold beam_get_loadsH, beam_get_loads.
  eapply view_beam_ok; [exact HV|].
  eapply agrees_bind; [now apply agrees_lift|]. intros h1 locs ? K _ _ <-.
  eapply accumulateH_ok; eauto. exact Logic.I.
Qed.

Lemma mapM_length {A B} (f : A -> res B) l l' :
  mapM f l = Ok l' -> List.length l' = List.length l.
Proof.
  revert l'. induction l as [|x l IH]; cbn; intros l' E; [now injection E as <-|].
  destruct (f x); [|discriminate]. cbn in E. destruct (mapM f l); [|discriminate].
  cbn in E. injection E as <-. cbn. now rewrite IH.
Qed.

Lemma tensionH_ok qs (bH : beamH T S) v lc position mp n h :
  stored_below n bH -> (n <= List.length h)%nat -> beam_of h bH = Some v ->
  agrees n (tensionH qs bH lc position mp)
    (let! t := beam_get_loads qs v lc position mp (CStr "N") in
      match t with
      | None => Err TypeError
      | Some rows => mapM (clip_row (existsb row_has_float rows)) rows
      end) (fresh_rows n) h.
Proof.
  intros HL L HV. unfold tensionH.
  eapply agrees_bind; [now apply beam_get_loadsH_ok|].
  intros h1 a r K _ _ F. destruct a as [a|], r as [rows|]; cbn [fresh_opt] in F;
    try contradiction; [|apply agrees_err; apply K].
  destruct F as [La Sa].
  enough (G : agrees n (do rows' <- mlift (mapM (clip_row (existsb row_has_float rows)) rows);
      do _ <- write_rows a rows'; mret a)
     (let! x := mapM (clip_row (existsb row_has_float rows)) rows in Ok x) (fresh_rows n) h1).
  { eapply agrees_step; [exact (read_rows_ok _ _ _ Sa)|apply keeps_refl, K|].
    replace (mapM (clip_row (existsb row_has_float rows)) rows) with
      (let! x := mapM (clip_row (existsb row_has_float rows)) rows in Ok x) at 2
      by (destruct (mapM _ rows); reflexivity). exact G. }
  eapply agrees_bind; [apply agrees_lift, K|]. intros h2 rows' ? K2 E2 E <-.
  unfold mlift in E2. injection E2 as _ <-.
  destruct (write_rows_ok h1 a rows rows' Sa (mapM_length _ _ _ E)) as (h3 & Ew & Sw & Kw).
  unfold agrees, mbind. rewrite Ew. split; [now apply Kw|]. split; assumption.
Qed.

End ArrayBeam.

Section ArrayCheck.
Context {T : Type} {NT : Num T}.
Implicit Types h : heap T.

Definition check_below (n : nat) (a : as4100H T) : Prop :=
  match h_beam a with Some b => stored_below n b | None => True end.

Lemma check_of_keeps n h h' a : check_below n a -> keeps n h h' -> check_of h' a = check_of h a.
Proof.
  unfold check_below, check_of. destruct (h_beam a); [|reflexivity]. intros L K.
  now rewrite (beam_of_keeps n h h' _ L K).
Qed.

Lemma check_beam h a v : check_of h a = Some v ->
  match h_beam a, cc_beam v with
  | Some bH, Some b => beam_of h bH = Some b
  | None, None => True
  | _, _ => False
  end.
Proof.
  unfold check_of. destruct (h_beam a) as [bH|].
  - destruct (beam_of h bH) eqn:E; [|discriminate]. intros H; injection H as <-. reflexivity.
  - intros H; injection H as <-. exact Logic.I.
Qed.

Lemma get_tensionH_ok qs a v lc position mp n h :
  check_below n a -> (n <= List.length h)%nat -> check_of h a = Some v ->
  agrees n (get_tensionH qs a lc position mp) (get_tension qs v lc position mp) (fresh_rows n) h.
Proof.
  intros HL L HV. pose proof (check_beam _ _ _ HV) as P. unfold get_tensionH, get_tension.
  unfold check_below in HL.
  destruct (h_beam a) as [bH|], (cc_beam v) as [b|]; try contradiction.
  - now apply tensionH_ok.
  - now apply agrees_err.
Qed.

Local Notation same_val := (fun (_ : heap T) a b => a = b).

Lemma mmap_ok {A B} n (f : A -> M T B) g l h0 :
  (forall x h, keeps n h0 h -> agrees n (f x) (g x) same_val h) ->
  forall h, keeps n h0 h -> agrees n (mmap f l) (mapM g l) same_val h.
Proof.
  intros H. induction l as [|x l IH]; intros h K.
  - apply agrees_ret; [apply K|reflexivity].
  - cbn [mmap mapM]. eapply agrees_bind; [now apply H|]. intros h1 y ? K1 _ _ <-.
    eapply agrees_bind; [apply IH; eapply keeps_trans; eauto|]. intros h2 ys ? K2 _ _ <-.
    apply agrees_ret; [apply K2|reflexivity].
Qed.

Lemma view_check_ok {A B} n a v h (f : as4100 T -> M T A) (p : res B) show :
  check_of h a = Some v -> agrees n (f v) p show h ->
  agrees n (mbind (view_check a) f) p show h.
Proof. intros E. unfold agrees, mbind, view_check. now rewrite E. Qed.

Lemma utils_atH_ok qs a v l p n h :
  check_below n a -> (n <= List.length h)%nat -> check_of h a = Some v ->
  agrees n (utils_atH qs a l p) (utils_at qs v l p) same_val h.
Proof.
  intros HL L HV. unfold utils_atH, utils_at. eapply view_check_ok; [exact HV|].
  eapply agrees_bind; [now apply agrees_lift|]. intros h1 cap ? K1 _ _ <-.
  eapply agrees_bind.
  { apply get_tensionH_ok; [exact HL|apply K1|now rewrite (check_of_keeps n h)]. }
  intros h2 t rows K2 _ _ [_ F].
  match goal with |- agrees n (mbind _ (fun r => mlift (@?G r))) _ _ _ =>
    enough (Y : agrees n (mlift (G rows)) (G rows) same_val h2) end.
  { eapply agrees_step; [exact (read_rows_ok _ _ _ F)|apply keeps_refl, K2|]. exact Y. }
  apply agrees_lift, K2.
Qed.

Lemma util_loopH_ok qs a bH v b n h0 ls :
  check_below n a -> (n <= List.length h0)%nat -> check_of h0 a = Some v ->
  h_beam a = Some bH -> cc_beam v = Some b ->
  forall pos h, keeps n h0 h ->
  agrees n (util_loopH qs a bH pos ls) (util_loop qs v b pos ls) same_val h.
Proof.
  intros HL L HV Eb Eb'.
  assert (HB : beam_of h0 bH = Some b).
  { pose proof (check_beam _ _ _ HV) as P. now rewrite Eb, Eb' in P. }
  assert (HLb : stored_below n bH) by (unfold check_below in HL; now rewrite Eb in HL).
  assert (Ep : h_points a = assessment_points v).
  { unfold check_of in HV. rewrite Eb in HV. destruct (beam_of h0 bH); [|discriminate].
    now injection HV as <-. }
  induction ls as [|l ls IH]; intros pos h K.
  - apply agrees_ret; [apply K|reflexivity].
  - cbn [util_loopH util_loop].
    apply agrees_bind with (show := same_val).
    { destruct pos as [ps|]; [apply agrees_ret; [apply K|reflexivity]|].
      eapply view_beam_ok; [rewrite (beam_of_keeps n h0 h); eauto|]. rewrite Ep.
      eapply agrees_bind; [apply agrees_lift, K|]. intros h1 x ? K1 _ _ <-.
      apply agrees_ret; [apply K1|reflexivity]. }
    intros h1 ps ? K1 _ _ <-.
    assert (K01 : keeps n h0 h1) by (eapply keeps_trans; eauto).
    eapply agrees_bind.
    { apply mmap_ok with (h0 := h0); [|exact K01]. intros x h2 K2.
      apply utils_atH_ok; [exact HL|apply K2|now rewrite (check_of_keeps n h0 h2)]. }
    intros h2 us ? K2 _ _ <-.
    eapply agrees_bind; [apply IH; eapply keeps_trans; eauto|].
    intros h3 rest ? K3 _ _ <-. apply agrees_ret; [apply K3|reflexivity].
Qed.

Lemma utilH_ok qs a v lc position n h :
  check_below n a -> (n <= List.length h)%nat -> check_of h a = Some v ->
  agrees n (tension_utilisationH qs a lc position) (tension_utilisation qs v lc position)
    same_val h.
Proof.
  intros HL L HV. unfold tension_utilisationH, tension_utilisation.
  eapply view_check_ok; [exact HV|].
  eapply agrees_bind; [now apply agrees_lift|]. intros h1 ls ? K1 _ _ <-.
  eapply agrees_bind; [apply agrees_lift, K1|]. intros h2 pos ? K2 _ _ <-.
  pose proof (check_beam _ _ _ HV) as P.
  apply agrees_bind with (show := same_val).
  - destruct (h_beam a) as [bH|] eqn:Ea, (cc_beam v) as [b|] eqn:Ev; try contradiction.
    + eapply util_loopH_ok; eauto. eapply keeps_trans; eauto.
    + apply agrees_lift, K2.
  - intros h3 us ? K3 _ _ <-. apply agrees_lift, K3.
Qed.

End ArrayCheck.
