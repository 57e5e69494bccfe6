(** Lemmas behind P_Beam.v. *)

From Coq Require Import ZArith Reals List Bool Sorted Lra Lia.
From Verif Require Import Base Num RNum Numpy LoadCase OrdFacts LoadFacts LoadSpec LoadProofs
  Beam BeamSpec BeamFacts BeamPositions.
Import ListNotations.
Open Scope R_scope.

(** ** min_positions *)

Lemma linspace_R len n : (0 <= n)%Z ->
  linspace (T := R) (nflt 0 1) len n = Ok (map (fun i => even_point n i * len) (seq 0 (Z.to_nat n))).
Proof.
  intros Hn. unfold linspace, even_point. destruct (n <? 0)%Z eqn:E0; [apply Z.ltb_lt in E0; lia|].
  f_equal. destruct (1 <? n)%Z eqn:E1.
  - apply Z.ltb_lt in E1.
    assert (N1 : (n =? 1)%Z = false) by (apply Z.eqb_neq; lia). rewrite N1.
    assert (Hp : 0 < IZR n - 1) by (apply IZR_lt in E1; lra).
    assert (L : seq 0 (Z.to_nat n) = seq 0 (Z.to_nat n - 1) ++ [(Z.to_nat n - 1)%nat]).
    { replace (Z.to_nat n) with (S (Z.to_nat n - 1)) at 1 by lia. rewrite seq_S. reflexivity. }
    rewrite L, map_app. f_equal.
    + apply map_ext. intros i. unfold lin_entry. rewrite (proj2 (Z.ltb_lt 1 n) E1).
      cbn [nadd nmul ndiv nsub nfloat nint nflt neqb RNum].
      rewrite minus_IZR, <- INR_IZR_INZ.
      destruct (Reqb _ _) eqn:E; field; lra.
    + cbn. f_equal. rewrite INR_IZR_INZ. rewrite Nat2Z.inj_sub by lia.
      rewrite Z2Nat.id by lia. change (Z.of_nat 1) with 1%Z. rewrite minus_IZR. field. lra.
  - apply Z.ltb_ge in E1. assert (n = 0 \/ n = 1)%Z as [->| ->] by lia; [reflexivity|].
    change (Z.to_nat 1) with 1%nat. cbn [seq map]. f_equal. unfold lin_entry. cbn. field.
Qed.

Lemma linspace_negative {T} {NT : Num T} (a z : T) n : (n < 0)%Z -> linspace a z n = Err ValueError.
Proof. intros H. unfold linspace. now rewrite (proj2 (Z.ltb_lt n 0) H). Qed.

Section B.
Context {Sec : Type}.
Implicit Types b : beam_t R Sec.

(** The local positions considered in an element. *)
Definition considered (e : elem R Sec) (lc : option Z) (xs : list R) : Prop :=
  match lc with None => xs = [0 / 1; 1 / 1] | Some c => el_load_positions e c = Ok xs end.

Lemma real_positions_R b ls lc : has_lengths b ls -> forall es k,
  (forall j e, nth_error es j = Some e -> nth_error b (k + j) = Some e) ->
  (forall e, In e es -> exists xs, considered e lc xs /\ Forall (fun x => 0 <= x <= 1) xs) ->
  exists real, real_positions b lc (Z.of_nat k) es = Ok real /\
    forall p, In p real <-> exists j e xs x, nth_error es j = Some e /\ considered e lc xs /\ In x xs /\
                              p = start_of ls (k + j) + x * nth (k + j) ls 0.
Proof.
  intros H es. induction es as [|e es IH]; intros k Hb Hc.
  - exists []. split; auto. intros p. split; [intros []|]. intros (j & e & ? & ? & E & _).
    destruct j; discriminate.
  - destruct (Hc e) as (xs & Cx & Fx); [now left|].
    destruct (IH (S k)) as (real & Er & Ir).
    { intros j e' Hj. specialize (Hb (S j) e' Hj). now replace (S k + j)%nat with (k + S j)%nat by lia. }
    { intros e' He'. apply Hc. now right. }
    cbn [real_positions].
    assert ((match lc with None => Ok [nflt 0 1; nflt 1 1] | Some c => el_load_positions e c end) = Ok xs) as ->.
    { destruct lc; cbn in Cx |- *; auto. now subst. }
    cbn [bind].
    assert (Hk : (k < List.length b)%nat).
    { apply nth_error_Some. specialize (Hb 0%nat e eq_refl). rewrite Nat.add_0_r in Hb. congruence. }
    rewrite (mapM_ok _ (fun x => start_of ls k + x * nth k ls 0)).
    2:{ intros x Hx. rewrite (local_to_beam_R b ls x (Z.of_nat k) k H) by now apply designated_nat.
        rewrite Forall_forall in Fx. specialize (Fx x Hx).
        assert (Rltb x 0 = false) as -> by (apply Rltb_false; lra).
        assert (Rltb 1 x = false) as -> by (apply Rltb_false; lra). reflexivity. }
    cbn [bind]. replace (Z.of_nat k + 1)%Z with (Z.of_nat (S k)) by lia. rewrite Er. cbn [bind].
    eexists. split; [reflexivity|]. intros p. rewrite in_app_iff, in_map_iff, Ir. split.
    + intros [(x & <- & Hx)|(j & e' & xs' & x & E' & C' & Hx & ->)].
      * exists 0%nat, e, xs, x. rewrite Nat.add_0_r. auto.
      * exists (S j), e', xs', x. replace (k + S j)%nat with (S k + j)%nat by lia. auto.
    + intros (j & e' & xs' & x & E' & C' & Hx & ->). destruct j as [|j].
      * left. rewrite Nat.add_0_r. cbn in E'. injection E' as <-. exists x. split; auto.
        destruct lc; cbn in *; congruence.
      * right. exists j, e', xs', x. replace (S k + j)%nat with (k + S j)%nat by lia. auto.
Qed.

Lemma flatten_ends_R ls p : In p (flatten_ends (ends ls)) <->
  exists i, (i < List.length ls)%nat /\ (p = start_of ls i \/ p = end_of ls i).
Proof.
  unfold flatten_ends, ends. rewrite in_flat_map. split.
  - intros (se & Hse & Hp). apply in_map_iff in Hse. destruct Hse as (i & <- & Hi).
    apply in_seq in Hi. cbn in Hp. exists i. split; [lia|]. intuition.
  - intros (i & Hi & Hp). exists (start_of ls i, Some (end_of ls i)). split.
    + apply in_map_iff. exists i. split; auto. apply in_seq. lia.
    + cbn. intuition.
Qed.

(** Zero-length elements: which failures are possible. *)
Lemma zero_length_ok (e : elem R Sec) lc :
  (lc = None \/ exists c x xs, lc = Some c /\ el_load_positions e c = Ok (x :: xs)) ->
  exists locals, zero_length_positions e lc = Ok locals.
Proof.
  intros [->|(c & x & xs & -> & E)]; cbn; eauto. rewrite E. cbn [bind]. eauto.
Qed.

Lemma locations_total b ls lc ps : has_lengths b ls ->
  (forall i e, nth_error b i = Some e -> nth i ls 0 = 0 ->
     lc = None \/ exists c x xs, lc = Some c /\ el_load_positions e c = Ok (x :: xs)) ->
  exists locs, locations b lc ps = Ok locs.
Proof.
  intros H Z. rewrite (locations_R b ls lc ps H).
  destruct (mapM_total (locs_at b ls lc) ps) as (r & ->); cbn; eauto.
  intros p _. unfold locs_at.
  destruct (mapM_total (fun i => locations_at b lc p (Z.of_nat i)) (ids ls p)) as (r & ->); cbn; eauto.
  intros i Hi. apply in_ids in Hi.
  destruct (locations_at b lc p (Z.of_nat i)) as [ts|e] eqn:E; eauto. exfalso.
  destruct (locations_at_err b ls lc p i e H Hi E) as (el & He & Z0 & Ez).
  destruct (zero_length_ok el lc (Z i el He Z0)) as (l & El). congruence.
Qed.

Lemma locations_err b ls lc ps e : has_lengths b ls -> locations b lc ps = Err e ->
  exists el, In el b /\ elength el = Some 0 /\ zero_length_positions el lc = Err e.
Proof.
  intros H. rewrite (locations_R b ls lc ps H). destruct (mapM (locs_at b ls lc) ps) as [|e'] eqn:E; cbn; [discriminate|].
  intros [= ->]. apply mapM_err in E. destruct E as (p & _ & E). unfold locs_at in E.
  destruct (mapM _ (ids ls p)) as [|e''] eqn:E2; cbn in E; [discriminate|]. injection E as ->.
  apply mapM_err in E2. destruct E2 as (i & Hi & E2). apply in_ids in Hi.
  destruct (locations_at_err b ls lc p i e H Hi E2) as (el & He & Z0 & Ez).
  exists el. split; [eapply nth_error_In; eauto|].
  destruct (lengths_nth b ls i el H He) as (L & _). rewrite L. split; auto. now rewrite Z0.
Qed.

Lemma zero_length_err (e : elem R Sec) lc x : zero_length_positions e lc = Err x ->
  x = KeyError \/ x = TypeError \/ x = IndexError.
Proof.
  destruct lc as [c|]; [|discriminate]. cbn. unfold el_load_positions.
  assert (G : forall d, dict_get (V := lcase R) c d = Err KeyError \/ exists v, dict_get c d = Ok v).
  { clear. induction d as [|[k v] d IH]; cbn; auto. destruct (c =? k)%Z; eauto. }
  destruct (G (eloads e)) as [->|(v & ->)]; cbn [bind]; [intros [= <-]; auto|].
  destruct v as [rows|]; cbn [load_positions bind]; [|intros [= <-]; auto].
  destruct (map lpos rows); [intros [= <-]; auto|discriminate].
Qed.

Lemma even_points_distinct n len : (0 <= n)%Z -> 0 < len ->
  NoDup (map (fun i => even_point n i * len) (seq 0 (Z.to_nat n))).
Proof.
  intros Hn Hl. pose proof (even_points_NoDup n Hn) as H.
  rewrite <- (map_map (even_point n) (fun x => x * len)).
  apply FinFun.Injective_map_NoDup; auto. intros x y E.
  apply Rmult_eq_reg_r with len; lra.
Qed.

Lemma min_positions_gen b ls lc n : has_lengths b ls -> b <> [] -> (0 <= n)%Z ->
  (forall e, In e b -> exists x xs, considered e lc (x :: xs) /\ Forall (fun x => 0 <= x <= 1) (x :: xs)) ->
  exists locs, beam_list_positions b PosNone (Some n) lc = Ok locs /\
    (forall p, In p (positions_of locs) <->
       (exists i, (i < List.length b)%nat /\ (p = start_of ls i \/ p = end_of ls i)) \/
       (exists i e xs x, nth_error b i = Some e /\ considered e lc xs /\ In x xs /\
                         p = start_of ls i + x * nth i ls 0) \/
       (exists k, (Z.of_nat k < n)%Z /\ p = even_point n k * span ls)) /\
    (0 < span ls -> exists ps, NoDup ps /\ incl ps (positions_of locs) /\ (n <= Z.of_nat (List.length ps))%Z).
Proof.
  intros H Nb Hn Hc. pose proof (lengths_nonneg b ls H) as Nn. pose proof (lengths_len b ls H) as Hlen.
  unfold beam_list_positions. rewrite (beam_length_R b ls H). cbn [bind].
  rewrite (linspace_R _ n Hn). cbn [bind]. rewrite (element_ends_R b ls H). cbn [bind].
  destruct (real_positions_R b ls lc H b 0) as (real & Er & Ir); auto.
  { intros e He. destruct (Hc e He) as (x & xs & A & B). eauto. }
  change (Z.of_nat 0) with 0%Z in Er. rewrite Er. cbn [bind].
  set (lin := map (fun i => even_point n i * span ls) (seq 0 (Z.to_nat n))).
  set (all := (flatten_ends (ends ls) ++ real) ++ lin).
  replace (set_update (py_set (flatten_ends (ends ls) ++ real)) lin) with (py_set all)
    by (unfold all, py_set, set_update; now rewrite fold_left_app).
  destruct (locations_total b ls lc (py_sorted (py_set all)) H) as (locs & El).
  { intros i e He _. destruct (Hc e (nth_error_In _ _ He)) as (x & xs & A & _). destruct lc; auto.
    right. eauto. }
  exists locs. split; auto.
  destruct (locations_ok b ls lc _ locs H El) as (tss & F & ->).
  assert (Hall : forall p, In p (positions_of (List.concat tss)) <-> In p all).
  { intros p. rewrite (locations_positions ls _ tss Nn F), Rin_sorted_set. split; [tauto|].
    intros Hp. split; auto. apply some_cover; auto.
    - intros ->. destruct b; [congruence|discriminate].
    - unfold all in Hp. rewrite !in_app_iff in Hp. destruct Hp as [[Hp|Hp]|Hp].
      + apply flatten_ends_R in Hp. destruct Hp as (i & Hi & [->| ->]).
        * split; [now apply start_nonneg|now apply start_le_span].
        * rewrite end_start. split; [now apply start_nonneg|now apply start_le_span].
      + apply Ir in Hp. destruct Hp as (j & e & xs & x & He & Cx & Hx & ->). cbn [Nat.add].
        destruct (lengths_nth b ls j e H He) as (_ & L & Hj).
        destruct (Hc e (nth_error_In _ _ He)) as (x' & xs' & A & B).
        assert (xs = x' :: xs') by (destruct lc; cbn in *; congruence). subst xs.
        rewrite Forall_forall in B. specialize (B x Hx).
        pose proof (start_nonneg ls j Nn). pose proof (start_le_span ls (S j) Nn) as G.
        rewrite <- end_start, end_length in G by auto. nra.
      + apply in_map_iff in Hp. destruct Hp as (i & <- & Hi). apply in_seq in Hi.
        pose proof (even_point_range n i ltac:(lia)). pose proof (span_nonneg ls Nn). nra. }
  split.
  - intros p. rewrite Hall. unfold all. rewrite !in_app_iff, flatten_ends_R, Ir. unfold lin. rewrite in_map_iff, Hlen.
    assert (X : (exists k, (Z.of_nat k < n)%Z /\ p = even_point n k * span ls) <->
                (exists x, even_point n x * span ls = p /\ In x (seq 0 (Z.to_nat n)))).
    { split; intros (k & A & B); exists k; rewrite in_seq in *; split; auto; lia. }
    rewrite X. cbn [Nat.add]. tauto.
  - intros P. exists lin. split; [now apply even_points_distinct|]. split.
    + intros p Hp. apply Hall. unfold all. rewrite in_app_iff. auto.
    + unfold lin. rewrite map_length, seq_length. lia.
Qed.

Lemma C18_loads b ls c n : has_lengths b ls -> b <> [] -> loaded b c -> (0 <= n)%Z ->
  exists locs, beam_list_positions b PosNone (Some n) (Some c) = Ok locs /\
    (forall p, In p (positions_of locs) <->
       (exists i, (i < List.length b)%nat /\ (p = start_of ls i \/ p = end_of ls i)) \/
       (exists i rows r, stored_table b c i rows /\ In r rows /\
                         p = start_of ls i + lpos r * nth i ls 0) \/
       (exists k, (Z.of_nat k < n)%Z /\ p = even_point n k * span ls)) /\
    (0 < span ls -> exists ps, NoDup ps /\ incl ps (positions_of locs) /\ (n <= Z.of_nat (List.length ps))%Z).
Proof.
  intros H Nb Hl Hn.
  destruct (min_positions_gen b ls (Some c) n H Nb Hn) as (locs & E & I & D).
  { intros e He. destruct (Hl e He) as (rows & Er & A & N).
    destruct rows as [|r rows]; [congruence|]. exists (lpos r), (map lpos rows).
    cbn [considered]. unfold el_load_positions. rewrite Er. split; auto.
    apply accepted_rows in A. destruct A as [_ A].
    change (lpos r :: map lpos rows) with (map lpos (r :: rows)). apply Forall_map. exact A. }
  exists locs. split; auto. split; auto. intros p. rewrite I.
  assert (X : (exists i e xs x, nth_error b i = Some e /\ considered e (Some c) xs /\ In x xs /\
                p = start_of ls i + x * nth i ls 0) <->
              (exists i rows r, stored_table b c i rows /\ In r rows /\
                p = start_of ls i + lpos r * nth i ls 0)).
  { split.
    - intros (i & e & xs & x & He & C & Hx & ->). cbn in C. unfold el_load_positions in C.
      destruct (Hl e (nth_error_In _ _ He)) as (rows & Er & _). rewrite Er in C. cbn in C. injection C as <-.
      apply in_map_iff in Hx. destruct Hx as (r & <- & Hr). exists i, rows, r. split; [exists e; auto|]. auto.
    - intros (i & rows & r & (e & He & Er) & Hr & ->). exists i, e, (map lpos rows), (lpos r).
      cbn. unfold el_load_positions. rewrite Er. split; auto. split; auto. split; auto. now apply in_map. }
  tauto.
Qed.

Lemma C18_ends b ls n : has_lengths b ls -> b <> [] -> (0 <= n)%Z ->
  exists locs, beam_list_positions b PosNone (Some n) None = Ok locs /\
    (forall p, In p (positions_of locs) <->
       (exists i, (i < List.length b)%nat /\ (p = start_of ls i \/ p = end_of ls i)) \/
       (exists k, (Z.of_nat k < n)%Z /\ p = even_point n k * span ls)) /\
    (0 < span ls -> exists ps, NoDup ps /\ incl ps (positions_of locs) /\ (n <= Z.of_nat (List.length ps))%Z).
Proof.
  intros H Nb Hn.
  destruct (min_positions_gen b ls None n H Nb Hn) as (locs & E & I & D).
  { intros e He. exists (0/1), [1/1]. split; [reflexivity|]. repeat constructor; lra. }
  exists locs. split; auto. split; auto. intros p. rewrite I. split; [|tauto].
  intros [A|[A|A]]; auto. left. destruct A as (i & e & xs & x & He & C & Hx & ->). cbn in C. subst xs.
  destruct (lengths_nth b ls i e H He) as (_ & _ & Hi).
  exists i. split; [apply nth_error_Some; congruence|]. destruct Hx as [<-|[<-|[]]].
  - left. lra.
  - right. rewrite end_length by auto. lra.
Qed.

Lemma C18_negative b ls lc n : has_lengths b ls -> (n < 0)%Z ->
  beam_list_positions b PosNone (Some n) lc = Err ValueError.
Proof.
  intros H Hn. unfold beam_list_positions. rewrite (beam_length_R b ls H). cbn [bind].
  now rewrite linspace_negative.
Qed.

(** ** Off the beam *)

Lemma C19_list b ls position ps lc : has_lengths b ls -> requested position ps ->
  beam_list_positions b position None lc = Err PositionNotInBeamError <->
  exists p, In p ps /\ (p < 0 \/ span ls < p).
Proof.
  intros H Rq. rewrite (explicit_R b position ps lc Rq).
  destruct (check_on_beam_R b ls ps H) as [[-> G]|[-> G]]; cbn [bind]; [|tauto].
  split.
  - intros E. exfalso. destruct (locations_err b ls lc _ _ H E) as (el & _ & _ & Z).
    apply zero_length_err in Z. intuition discriminate.
  - intros (p & Hp & L). specialize (G p Hp). lra.
Qed.

Lemma list_positions_errors b ls position mp lc e : has_lengths b ls ->
  (forall el c v, In el b -> dict_get c (eloads el) = Ok v -> accepted v) ->
  beam_list_positions b position mp lc = Err e ->
  e = InvalidPositionError /\ (position = PosNone <-> mp = None) \/
  e = PositionNotInBeamError /\ mp = None /\ (exists ps p, requested position ps /\ In p ps /\ (p < 0 \/ span ls < p)) \/
  e = KeyError \/ e = TypeError \/ e = IndexError \/ e = ValueError.
Proof.
  intros H Ha E.
  assert (Hz : forall ps, locations b lc ps = Err e -> e = KeyError \/ e = TypeError \/ e = IndexError).
  { intros ps El. destruct (locations_err b ls lc ps e H El) as (el & _ & _ & Z). now apply zero_length_err in Z. }
  destruct position as [|x|l] eqn:Ep, mp as [n|].
  - right. right. unfold beam_list_positions in E. rewrite (beam_length_R b ls H) in E. cbn [bind] in E.
    destruct (linspace _ _ n) as [lin|e'] eqn:El.
    2:{ cbn in E. unfold linspace in El. destruct (n <? 0)%Z; [|discriminate]. intuition congruence. }
    cbn [bind] in E. rewrite (element_ends_R b ls H) in E. cbn [bind] in E.
    destruct (real_positions b lc 0 b) as [re|e'] eqn:Er; cbn [bind] in E; [destruct (Hz _ E); intuition|].
    injection E as ->.
    assert (G : forall es k, (forall j e, nth_error es j = Some e -> nth_error b (k + j) = Some e) ->
       real_positions b lc (Z.of_nat k) es = Err e -> e = KeyError \/ e = TypeError).
    { clear Er. induction es as [|el es IH]; intros k Hb; cbn [real_positions]; [discriminate|].
      assert (Hel : nth_error b k = Some el) by (specialize (Hb 0%nat el eq_refl); now rewrite Nat.add_0_r in Hb).
      assert (Hk : (k < List.length b)%nat) by (apply nth_error_Some; congruence).
      assert (K : forall d, dict_get (V := lcase R) (match lc with Some c => c | None => 0%Z end) d = Err KeyError
                   \/ exists v, dict_get (match lc with Some c => c | None => 0%Z end) d = Ok v).
      { clear. induction d as [|[k v] d IH]; cbn; auto. destruct (_ =? k)%Z; eauto. }
      assert (X : exists xs, (match lc with None => Ok [nflt 0 1; nflt 1 1] | Some c => el_load_positions el c end) = Ok xs
                 /\ Forall (fun x => 0 <= x <= 1) xs \/
               (match lc with None => Ok [nflt 0 1; nflt 1 1] | Some c => el_load_positions el c end) = Err KeyError \/
               (match lc with None => Ok [nflt 0 1; nflt 1 1] | Some c => el_load_positions el c end) = Err TypeError).
      { destruct lc as [c|]; [|exists [0/1; 1/1]; left; split; [reflexivity|repeat constructor; lra]].
        unfold el_load_positions. destruct (K (eloads el)) as [->|(v & Ev)]; [exists []; cbn; auto|].
        rewrite Ev. cbn [bind]. pose proof (Ha el c v (nth_error_In _ _ Hel) Ev) as A.
        destruct v as [rows|]; cbn [load_positions]; [|exists []; auto]. exists (map lpos rows). left. split; auto.
        apply Forall_map. apply accepted_rows in A. apply A. }
      destruct X as (xs & [[-> Fx]|[->| ->]]); cbn [bind]; [|intros [= <-]; auto|intros [= <-]; auto].
      rewrite (mapM_ok _ (fun x => start_of ls k + x * nth k ls 0)).
      2:{ intros x Hx. rewrite (local_to_beam_R b ls x (Z.of_nat k) k H) by now apply designated_nat.
          rewrite Forall_forall in Fx. specialize (Fx x Hx).
          assert (Rltb x 0 = false) as -> by (apply Rltb_false; lra).
          assert (Rltb 1 x = false) as -> by (apply Rltb_false; lra). reflexivity. }
      cbn [bind]. replace (Z.of_nat k + 1)%Z with (Z.of_nat (S k)) by lia.
      destruct (real_positions b lc (Z.of_nat (S k)) es) eqn:Er; cbn [bind]; [discriminate|].
      intros [= ->]. apply (IH (S k)); auto. intros j e' Hj. specialize (Hb (S j) e' Hj).
      now replace (S k + j)%nat with (k + S j)%nat by lia. }
    destruct (G b 0%nat (fun j e H => H) Er); auto.
  - left. cbn in E. injection E as <-. split; auto. tauto.
  - left. cbn in E. injection E as <-. split; auto. split; discriminate.
  - rewrite (explicit_R b (PosNum x) [x] lc (r_num x)) in E.
    destruct (check_on_beam_R b ls [x] H) as [[G _]|[G (p & Hp & L)]]; rewrite G in E; cbn [bind] in E.
    + right. right. destruct (Hz _ E); intuition.
    + right. left. injection E as <-. repeat split; auto. exists [x], p. split; [constructor|]. auto.
  - left. cbn in E. injection E as <-. split; auto. split; discriminate.
  - rewrite (explicit_R b (PosList l) l lc (r_list l)) in E.
    destruct (check_on_beam_R b ls l H) as [[G _]|[G (p & Hp & L)]]; rewrite G in E; cbn [bind] in E.
    + right. right. destruct (Hz _ E); intuition.
    + right. left. injection E as <-. repeat split; auto. exists l, p. split; [constructor|]. auto.
Qed.
End B.
