(** The array model computes the numbers of the pure models and leaves every array that
    existed before a query unchanged. *)

From Coq Require Import ZArith List Bool String Lia.
From Verif Require Import Base Num Numpy LoadCase Beam Material Solvers AS4100 ArrayHeap.
Import ListNotations.
Open Scope Z_scope.

Section Heap.
Context {T : Type} {NT : Num T}.
Implicit Types h : heap T.

(** Buffers below [n] are the same, and none disappears. *)
Definition keeps (n : nat) (h h' : heap T) : Prop :=
  (n <= List.length h)%nat /\ (n <= List.length h')%nat
  /\ forall i, (i < n)%nat -> nth_error h' i = nth_error h i.

Lemma keeps_refl n h : (n <= List.length h)%nat -> keeps n h h.
Proof. unfold keeps; auto. Qed.
Lemma keeps_trans n h h1 h2 : keeps n h h1 -> keeps n h1 h2 -> keeps n h h2.
Proof.
  intros (A & B & C) (A' & B' & C'). split; [exact A|]. split; [exact B'|]. intros i Hi.
  now rewrite C', C.
Qed.
Lemma keeps_app n h e : (n <= List.length h)%nat -> keeps n h (h ++ e).
Proof.
  intros H. split; [exact H|]. split; [rewrite app_length; lia|].
  intros i Hi. apply nth_error_app1. lia.
Qed.
Lemma keeps_le n m h h' : (m <= n)%nat -> keeps n h h' -> keeps m h h'.
Proof.
  intros L (A & B & C). split; [lia|]. split; [lia|]. intros i Hi. apply C. lia.
Qed.

Lemma hset_length n b h : List.length (hset n b h) = List.length h.
Proof. revert n; induction h; intros [|n]; cbn; auto. Qed.
Lemma hset_other n b h i : i <> n -> nth_error (hset n b h) i = nth_error h i.
Proof.
  revert n i; induction h as [|x r IH]; intros [|n] [|i] H; cbn; auto; congruence.
Qed.
Lemma hset_same n b h : (n < List.length h)%nat -> nth_error (hset n b h) n = Some b.
Proof.
  revert n; induction h as [|x r IH]; intros [|n] H; cbn in *; try lia; auto.
  apply IH; lia.
Qed.
Lemma keeps_hset n k b h : (n <= k)%nat -> (n <= List.length h)%nat -> keeps n h (hset k b h).
Proof.
  intros L L'. split; [exact L'|]. split; [now rewrite hset_length|].
  intros i Hi. apply hset_other. lia.
Qed.

Lemma all_some_map {A B} (f : A -> option B) (g : B -> A) l :
  (forall x, f (g x) = Some x) -> all_some f (map g l) = Some l.
Proof. intros H. induction l; cbn; auto. now rewrite H, IHl. Qed.
Lemma cells_orow_cells (r : orow T) : cells_orow (orow_cells r) = Some r.
Proof. now destruct r. Qed.
Lemma cells_lrow_cells (r : lrow T) : cells_lrow (lrow_cells r) = Some r.
Proof. now destruct r. Qed.

(** The array shows these rows. *)
Definition shows_rows (h : heap T) (a : arr) (rows : list (orow T)) : Prop :=
  content h a = Some (map orow_cells rows).

Lemma shows_buf h a rows : shows_rows h a rows -> (a_buf a < List.length h)%nat.
Proof.
  unfold shows_rows, content. destruct (nth_error h (a_buf a)) eqn:E; [|discriminate].
  intros _. apply nth_error_Some. congruence.
Qed.
Lemma shows_keeps n h h' a rows :
  keeps n h h' -> (a_buf a < n)%nat -> shows_rows h a rows -> shows_rows h' a rows.
Proof. intros (_ & _ & C) L. unfold shows_rows, content. now rewrite C. Qed.
Lemma shows_inj h a r1 r2 : shows_rows h a r1 -> shows_rows h a r2 -> r1 = r2.
Proof.
  unfold shows_rows. intros -> E. injection E as E.
  assert (X : forall l : list (orow T), all_some cells_orow (map orow_cells l) = Some l)
    by (intros; apply all_some_map, cells_orow_cells).
  pose proof (X r1) as A. rewrite E, X in A. congruence.
Qed.

Lemma read_rows_ok h a rows : shows_rows h a rows -> read_rows a h = (Ok rows, h).
Proof.
  unfold shows_rows, read_rows. intros ->.
  now rewrite (all_some_map _ _ _ cells_orow_cells).
Qed.

Lemma put_rows_shows off (b : buffer T) rows rows' :
  map (skipn off) b = map orow_cells rows -> List.length rows' = List.length rows ->
  map (skipn off) (put_rows off b (map orow_cells rows')) = map orow_cells rows'.
Proof.
  revert rows rows'. induction b as [|o b IH]; intros [|r rows] [|r' rows'] E L;
    try discriminate; try reflexivity.
  assert (E1 : skipn off o = orow_cells r) by (cbn [map] in E; congruence).
  assert (E2 : map (skipn off) b = map orow_cells rows) by (cbn [map] in E; congruence).
  change (map (skipn off) (put_rows off (o :: b) (map orow_cells (r' :: rows'))))
    with (skipn off (firstn off o ++ orow_cells r')
          :: map (skipn off) (put_rows off b (map orow_cells rows'))).
  rewrite (IH _ _ E2) by (cbn in L; lia).
  assert (off < List.length o)%nat.
  { pose proof (skipn_length off o) as X. rewrite E1 in X. cbn in X. lia. }
  rewrite skipn_app, firstn_length, Nat.min_l by lia. rewrite Nat.sub_diag. cbn [skipn].
  rewrite skipn_all2 by (rewrite firstn_length; lia). reflexivity.
Qed.

Lemma write_rows_ok h a rows rows' :
  shows_rows h a rows -> List.length rows' = List.length rows ->
  exists h', write_rows a rows' h = (Ok tt, h') /\ shows_rows h' a rows'
    /\ forall n, (n <= a_buf a)%nat -> keeps n h h'.
Proof.
  intros E L. pose proof (shows_buf _ _ _ E) as Hb. unfold shows_rows, content in E.
  unfold write_rows, mbind, hread.
  destruct (nth_error h (a_buf a)) as [b|] eqn:Eb; [|discriminate].
  injection E as E. eexists. split; [reflexivity|]. split.
  - unfold shows_rows, content. rewrite hset_same by exact Hb. cbn [option_map].
    f_equal. eapply put_rows_shows; eauto.
  - intros n Hn. apply keeps_hset; lia.
Qed.

(** Running [m] agrees with the pure result [p] and keeps the buffers below [n]. *)
Definition agrees {A B} (n : nat) (m : M T A) (p : res B) (show : heap T -> A -> B -> Prop)
  (h : heap T) : Prop :=
  keeps n h (snd (m h))
  /\ match fst (m h), p with
     | Ok a, Ok b => show (snd (m h)) a b
     | Err e, Err e' => e = e'
     | _, _ => False
     end.

Lemma agrees_bind {A B A' B'} n (m : M T A) (p : res B) show (f : A -> M T A') (g : B -> res B')
  show' h :
  agrees n m p show h ->
  (forall h1 a b, keeps n h h1 -> m h = (Ok a, h1) -> p = Ok b -> show h1 a b ->
     agrees n (f a) (g b) show' h1) ->
  agrees n (mbind m f) (bind p g) show' h.
Proof.
  unfold agrees, mbind. intros [K P] H. destruct (m h) as [r h1] eqn:E. cbn [fst snd] in *.
  destruct r as [a|e], p as [b|e']; cbn [bind]; try contradiction.
  - destruct (H h1 a b K eq_refl eq_refl P) as [K2 P2]. split; [|exact P2].
    eapply keeps_trans; eauto.
  - subst. split; [exact K|reflexivity].
Qed.
Lemma agrees_ret {A B} n (a : A) (b : B) (show : heap T -> A -> B -> Prop) h :
  (n <= List.length h)%nat -> show h a b -> agrees n (mret a) (Ok b) show h.
Proof. intros L S. split; [now apply keeps_refl|exact S]. Qed.
Lemma agrees_lift {A} n (r : res A) h :
  (n <= List.length h)%nat -> agrees n (mlift r) r (fun _ a b => a = b) h.
Proof.
  intros L. split; [now apply keeps_refl|]. unfold mlift. cbn [fst snd].
  destruct r; reflexivity.
Qed.
Lemma agrees_err {A B} n e (show : heap T -> A -> B -> Prop) h :
  (n <= List.length h)%nat -> agrees n (mlift (Err e)) (Err e) show h.
Proof. intros L. split; [now apply keeps_refl|reflexivity]. Qed.
Lemma agrees_weaken {A B} n m (p : res B) (show show' : heap T -> A -> B -> Prop) h :
  agrees n m p show h -> (forall h' a b, keeps n h h' -> show h' a b -> show' h' a b) ->
  agrees n m p show' h.
Proof.
  intros [K P] H. split; [exact K|]. destruct (m h) as [[a|e] h1], p; cbn in *; auto.
Qed.
Lemma agrees_le {A B} n k m (p : res B) (show : heap T -> A -> B -> Prop) h :
  agrees n m p show h -> (k <= n)%nat -> agrees k m p show h.
Proof. intros [K P] L. split; [eapply keeps_le; eauto|exact P]. Qed.

(** A freshly made array showing rows. *)
Definition fresh_rows (n : nat) (h : heap T) (a : arr) (rows : list (orow T)) : Prop :=
  (n <= a_buf a)%nat /\ shows_rows h a rows.
Definition fresh_opt (n : nat) (h : heap T) (a : option arr) (r : option (list (orow T)))
  : Prop :=
  match a, r with
  | Some a, Some rows => fresh_rows n h a rows
  | None, None => True
  | _, _ => False
  end.

Lemma alloc_shows h (b : buffer T) off rows :
  map (skipn off) b = map orow_cells rows ->
  shows_rows (h ++ [b]) (mk_arr (List.length h) off) rows.
Proof.
  intros E. unfold shows_rows, content. cbn [a_buf a_off].
  rewrite nth_error_app2, Nat.sub_diag by lia. cbn. now rewrite E.
Qed.
Lemma skipn0 (b : buffer T) : map (skipn 0) b = b.
Proof. apply (map_id b). Qed.

Lemma agrees_alloc {A B} n (b : buffer T) off rows h (k : nat -> A)
  (show : heap T -> A -> B -> Prop) (y : B) :
  (n <= List.length h)%nat -> map (skipn off) b = map orow_cells rows ->
  (forall h', keeps n h h' -> fresh_rows n h' (mk_arr (List.length h) off) rows ->
    show h' (k (List.length h)) y) ->
  agrees n (mbind (halloc b) (fun m => mret (k m))) (Ok y) show h.
Proof.
  intros L E H. unfold agrees, mbind, halloc, mret. cbn [fst snd]. split; [now apply keeps_app|].
  apply H; [now apply keeps_app|]. split; [exact L|]. now apply alloc_shows.
Qed.

Lemma case_of_keeps n h h' c lc :
  keeps n h h' -> (forall b, c = Some b -> (b < n)%nat) -> case_of h c = Some lc ->
  case_of h' c = Some lc.
Proof.
  intros (_ & _ & C) L. destruct c as [b|]; [|auto]. unfold case_of, table.
  rewrite C by auto. auto.
Qed.

Lemma get_loadH_ok qs c lc position mp k h :
  case_of h c = Some lc ->
  agrees (List.length h) (get_loadH qs c position mp k) (get_load qs lc position mp k)
    (fresh_opt (List.length h)) h.
Proof.
  intros Hc. destruct c as [b|]; cbn [case_of] in Hc.
  2:{ injection Hc as <-. unfold get_loadH, get_load.
      eapply agrees_bind; [apply agrees_lift; lia|]. intros h1 ps ? K _ _ <-.
      apply agrees_le with (n := List.length h1); [|apply K].
      eapply agrees_alloc with (off := 0%nat) (k := fun n => Some (mk_arr n 0)); [lia| |].
      2:{ intros h' K' [L F]. cbn [fresh_opt]. split; [|exact F].
          cbn [a_buf] in *. destruct K as (_ & K & _). lia. }
      rewrite skipn0, map_map. reflexivity. }
  destruct (table h b) as [rows|] eqn:Et; [|discriminate]. injection Hc as <-.
  unfold get_loadH, get_load.
  assert (Er : read_table b h = (Ok rows, h)) by (unfold read_table; now rewrite Et).
  assert (X : forall A B (f : list (lrow T) -> M T A) (p : res B) show,
    agrees (List.length h) (f rows) p show h ->
    agrees (List.length h) (mbind (read_table b) f) p show h).
  { intros A B f p show. unfold agrees, mbind. now rewrite Er. }
  apply X. clear X.
  eapply agrees_bind; [apply agrees_lift; lia|]. intros h1 ps ? K1 _ _ <-.
  eapply agrees_bind; [apply agrees_lift; apply K1|]. intros h2 cs ? K2 _ _ <-.
  destruct (array_equal ps (np_unique (map lpos rows))).
  - apply agrees_alloc with (off := 0%nat) (rows := map (pick cs) rows)
      (k := fun n => Some (mk_arr n 0)); [apply K2|now rewrite skipn0, map_map|].
    intros h' K' F. exact F.
  - set (pd := filter _ ps). set (pi := filter _ ps).
    set (N0 := List.length h) in *.
    set (direct := match pd with
                   | [] => None
                   | _ => Some (map (pick cs)
                            (filter (fun r => py_in (lpos r) pd) rows))
                   end).
    assert (D : agrees N0 match pd with
                | [] => mret None
                | _ => do n <- halloc (map orow_cells (map (pick cs)
                              (filter (fun r => py_in (lpos r) pd) rows)));
                       mret (Some (mk_arr n 0))
                end (Ok direct) (fresh_opt N0) h2).
    { unfold direct. destruct pd as [|p0 pd'].
      - apply agrees_ret; [apply K2|exact Logic.I].
      - eapply agrees_alloc with (off := 0%nat) (k := fun n => Some (mk_arr n 0));
          [apply K2|apply skipn0|]. intros h' _ F. exact F. }
    match goal with |- agrees _ (mbind ?m ?F) _ _ _ =>
      apply (agrees_bind N0 m (Ok direct) (fresh_opt N0) F (fun direct =>

        let! loads_interp := match pi with
          | [] => Ok None
          | _ =>
              let! cols := multi_interp (XArr pi) (map lpos rows)
                  (Fp2 (map (fun c => map (lcomp c) rows) cs)) None None in
              Ok (Some (map (fun pv => (nfloat (fst pv), map Some (snd pv)))
                    (combine pi (transpose (List.length pi) cols))))
          end in
        match direct, loads_interp with
        | Some d, Some i =>
            let d := map orow_float d in
            let all := (combine (seq 0 (List.length d)) d
                       ++ combine (seq 0 (List.length i)) i)%list in
            Ok (Some (map snd (sort_by (fun r => fst (snd r)) (qs all))))
        | Some d, None => Ok (Some d)
        | None, li => Ok li
        end) (fresh_opt N0) h2 D)
    end. clear D. intros h3 a d K3 _ _ Ha.
    apply agrees_bind with (show := fresh_opt N0).
    { destruct pi as [|p0 pi']; [apply agrees_ret; [apply K3|exact Logic.I]|].
      eapply agrees_bind; [apply agrees_lift; apply K3|]. intros h4 cols ? K4 _ _ <-.
      eapply agrees_alloc with (off := 0%nat) (k := fun n => Some (mk_arr n 0));
        [apply K4|apply skipn0|]. intros h' _ F. exact F. }
    intros h4 a' i K4 E4 _ Ha'.
    destruct a as [a|], d as [d|]; cbn [fresh_opt] in Ha; try contradiction.
    2:{ destruct a', i; cbn in Ha'; try contradiction;
          (apply agrees_ret; [apply K4|exact Ha']). }
    assert (Sa : shows_rows h4 a d).
    { destruct Ha as [_ Ha]. clear - E4 Ha K3. pose proof (shows_buf _ _ _ Ha) as B.
      destruct pi as [|p0 pi'].
      - unfold mret in E4. injection E4 as _ <-. exact Ha.
      - unfold mbind, mlift, halloc, mret in E4.
        destruct (multi_interp _ _ _ _ _); [|discriminate E4].
        apply (f_equal snd) in E4. cbn [snd] in E4. subst h4.
        eapply shows_keeps; [apply keeps_app, le_n|exact B|exact Ha]. }
    destruct a' as [a'|], i as [i|]; cbn [fresh_opt] in Ha'; try contradiction.
    2:{ apply agrees_ret; [apply K4|]. split; [apply Ha|exact Sa]. }
    assert (R1 : read_rows a h4 = (Ok d, h4)) by (apply read_rows_ok, Sa).
    assert (R2 : read_rows a' h4 = (Ok i, h4)) by (apply read_rows_ok, Ha').
    set (by_pos := sort_by (fun r : nat * orow T => fst (snd r))
       (qs (combine (seq 0 (List.length (map orow_float d))) (map orow_float d) ++
            combine (seq 0 (List.length i)) i)%list)).
    enough (Y : agrees N0 (do n <- halloc (map (fun r : nat * orow T =>
               Some (nfloat (nint (Z.of_nat (fst r)))) :: orow_cells (snd r)) by_pos);
              mret (Some (mk_arr n 1))) (Ok (Some (map snd by_pos))) (fresh_opt N0) h4).
    { unfold agrees, mbind in *. rewrite R1, R2. exact Y. }
    eapply agrees_alloc with (off := 1%nat) (rows := map snd by_pos)
      (k := fun n => Some (mk_arr n 1)); [apply K4|now rewrite !map_map|].
    intros h' _ F. exact F.
Qed.

End Heap.
