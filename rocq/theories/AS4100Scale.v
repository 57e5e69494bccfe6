(** Proofs about the utilisation: beams that agree on their positions, all load cases
    together (C32), scaled loads (C33). *)

From Coq Require Import ZArith Reals List Bool String Lra Lia.
From Verif Require Import Base Num RNum PyNum Numpy LoadCase LoadSpec LoadFacts LoadProofs
  Beam BeamSpec BeamFacts BeamPositions BeamProofs BeamLoads BeamMisc BeamFloat
  Solvers SolverSpec SolverFacts Material AS4100 AS4100Spec AS4100Facts AS4100Util.
Import ListNotations.
Open Scope R_scope.

(** ** list_positions only sees lengths and stored positions *)
Section Same.
Context {T : Type} {NT : Num T} {Sec : Type}.
Implicit Types b : beam_t T Sec.

Lemma same_sum b b' : map elength b' = map elength b -> forall s, sum_lengths s b' = sum_lengths s b.
Proof.
  revert b'. induction b as [|e b IH]; intros [|e' b'] H s; try discriminate; auto.
  cbn in H. injection H as H1 H2. cbn [sum_lengths]. rewrite H1. destruct (add_opt s (elength e)); cbn; auto.
Qed.
Lemma same_ends_from b b' : map elength b' = map elength b -> forall p, ends_from p b' = ends_from p b.
Proof.
  revert b'. induction b as [|e b IH]; intros [|e' b'] H p; try discriminate; auto.
  cbn in H. injection H as H1 H2. cbn [ends_from]. destruct p as [p|]; auto. rewrite H1.
  destruct (add_opt p (elength e)); cbn; auto. now rewrite (IH b' H2).
Qed.
Lemma same_ends b b' : map elength b' = map elength b -> element_ends b' = element_ends b.
Proof.
  destruct b as [|e b], b' as [|e' b']; try discriminate; auto. intros H. cbn in H. injection H as H1 H2.
  cbn [element_ends]. rewrite H1. now rewrite (same_ends_from b b' H2).
Qed.
Lemma py_index_map {A B} (f : A -> B) l i : py_index (map f l) i = rmap f (py_index l i).
Proof.
  unfold py_index. rewrite map_length. destruct (_ || _); auto. rewrite nth_error_map.
  destruct (nth_error l _); reflexivity.
Qed.
Lemma same_index b b' : map elength b' = map elength b -> forall i,
  rmap elength (py_index b' i) = rmap elength (py_index b i).
Proof. intros H i. rewrite <- !py_index_map. now rewrite H. Qed.
Lemma same_to_local b b' p i : map elength b' = map elength b -> beam_to_local b' p i = beam_to_local b p i.
Proof.
  intros H. unfold beam_to_local, element_start_end. rewrite (same_ends b b' H).
  destruct (let! ends := element_ends b in py_index ends i) as [se|]; [|reflexivity]. cbn [bind].
  pose proof (same_index b b' H i) as K. destruct (py_index b' i), (py_index b i); cbn in K |- *; try discriminate; try congruence.
  injection K as ->. reflexivity.
Qed.
Lemma same_to_beam b b' p i : map elength b' = map elength b -> local_to_beam b' p i = local_to_beam b p i.
Proof.
  intros H. unfold local_to_beam, element_start_end. rewrite (same_ends b b' H).
  destruct (_ || _); auto.
  destruct (let! ends := element_ends b in py_index ends i) as [se|]; [|reflexivity]. cbn [bind].
  pose proof (same_index b b' H i) as K. destruct (py_index b' i), (py_index b i); cbn in K |- *; try discriminate; try congruence.
  injection K as ->. reflexivity.
Qed.
Lemma same_in_elements b b' p : map elength b' = map elength b -> in_elements b' p = in_elements b p.
Proof. intros H. unfold in_elements. now rewrite (same_ends b b' H). Qed.
Lemma same_check b b' ps : map elength b' = map elength b -> check_on_beam b' ps = check_on_beam b ps.
Proof.
  intros H. induction ps as [|p ps IH]; auto. cbn [check_on_beam]. unfold beam_length.
  rewrite (same_sum b b' H), IH. reflexivity.
Qed.

(** [e'] in load case [c'] offers the positions of [e] in [c]. *)
Definition same_elem (c c' : Z) (e e' : elem T Sec) : Prop :=
  elength e' = elength e /\ el_load_positions e' c' = el_load_positions e c.

Lemma same_lengths c c' b b' : Forall2 (same_elem c c') b b' -> map elength b' = map elength b.
Proof. induction 1 as [|e e' b b' [H _] F IH]; cbn; congruence. Qed.

Lemma same_real c c' b b' : map elength b' = map elength b -> forall es es', Forall2 (same_elem c c') es es' ->
  forall i, real_positions b' (Some c') i es' = real_positions b (Some c) i es.
Proof.
  intros H es es' F. induction F as [|e e' es es' [_ H2] F IH]; intros i; auto. cbn [real_positions]. rewrite H2.
  destruct (el_load_positions e c) as [ps|]; [|reflexivity]. cbn [bind].
  rewrite (mapM_ext (fun p => local_to_beam b' p i) (fun p => local_to_beam b p i)) by (intros; now apply same_to_beam).
  destruct (mapM _ ps); [|reflexivity]. cbn [bind]. now rewrite IH.
Qed.

Lemma same_locations_at c c' b b' p i : Forall2 (same_elem c c') b b' ->
  locations_at b' (Some c') p i = locations_at b (Some c) p i.
Proof.
  intros F. pose proof (same_lengths c c' b b' F) as H. unfold locations_at.
  pose proof (py_index_Forall2 (same_elem c c') b b' i F) as K.
  destruct (py_index b i) as [e|], (py_index b' i) as [e'|]; cbn [bind]; try contradiction; [|congruence].
  destruct K as [K1 K2]. rewrite K1. destruct (elength e) as [len|]; [|now rewrite (same_to_local b b' p i H)].
  destruct (neqb len (nint 0)); [|now rewrite (same_to_local b b' p i H)].
  unfold zero_length_positions. now rewrite K2.
Qed.

Lemma same_list_positions c c' b b' position mp : Forall2 (same_elem c c') b b' ->
  beam_list_positions b' position mp (Some c') = beam_list_positions b position mp (Some c).
Proof.
  intros F. pose proof (same_lengths c c' b b' F) as H.
  assert (L : forall ps, locations b' (Some c') ps = locations b (Some c) ps).
  { intros ps. unfold locations. f_equal. apply mapM_ext. intros p _. rewrite (same_in_elements b b' p H).
    destruct (in_elements b p); [|reflexivity]. cbn [bind]. f_equal. apply mapM_ext. intros i _.
    now apply same_locations_at. }
  unfold beam_list_positions, beam_length.
  rewrite (same_sum b b' H), (same_ends b b' H), (same_real c c' b b' H b b' F).
  destruct position as [|x|l], mp as [n|]; auto.
  - destruct (sum_lengths _ b); [|reflexivity]. cbn [bind]. destruct (linspace _ _ _); [|reflexivity]. cbn [bind].
    destruct (element_ends b); [|reflexivity]. cbn [bind]. destruct (real_positions _ _ _ _); [|reflexivity]. cbn [bind]. apply L.
  - destruct (nisfloat x); auto. rewrite (same_check b b' [x] H), L. reflexivity.
  - rewrite (same_check b b' l H), L. reflexivity.
Qed.
End Same.

(** ** C32 *)

(** What is computed without a position: the positions of the first load case count. *)
Lemma util_first {T} {NT : Num T} qs (a : as4100 T) b lc l ls locs : cc_beam a = Some b -> wanted b lc (l :: ls) ->
  beam_list_positions b PosNone (Some (assessment_points a)) (Some l) = Ok locs ->
  tension_utilisation qs a lc PosNone
  = tension_utilisation qs a lc (PosList (map (fun t => fst (fst t)) locs)).
Proof.
  intros Eb Hw El. unfold tension_utilisation. rewrite Eb.
  inversion Hw as [z Ez E1|l' El' E1|l' E Ez E1]; subst; try rewrite E; cbn [bind util_loop]; rewrite El; reflexivity.
Qed.

Section All.
Variables (qs : argsort_oracle R) (phi au kt : R) (b : beam_t R (section R)) (s : option (section R)) (a : as4100 R).
Variables (ls : list R) (cap : R -> R) (cs : list Z).
Hypothesis Hq : any_argsort qs.
Hypothesis Hm : make_as4100 phi au kt (Some b) s = Ok a.
Hypothesis Hl : has_lengths b ls.
Hypothesis Nb : b <> [].
Hypothesis Hcs : beam_load_cases b = Ok cs.
Hypothesis Hld : Forall (loaded b) cs.

Lemma combine_cases position ps : looked_at b (assessment_points a) position cs ps ->
  (forall c, In c cs -> looked_at b (assessment_points a) position [c] ps) ->
  Forall (sound_position a ls cap) ps ->
  forall u, tension_utilisation qs a LCNone position = Ok u <->
  exists us, Forall2 (fun c v => tension_utilisation qs a (LCInt c) position = Ok v) cs us /\ greatest u (fun v => In v us).
Proof.
  intros Ha Hc Hp.
  destruct (util_iff qs phi au kt b s a ls cap Hq Hm Hl Nb LCNone cs position ps (w_all b cs Hcs) Ha Hld Hp) as (U & _ & _).
  assert (V : forall c, In c cs -> forall v, tension_utilisation qs a (LCInt c) position = Ok v <->
     greatest v (ratios qs b cap [c] ps) /\ forall x, ratios qs b cap [c] ps x -> 0 < x -> smallest_ratio < x).
  { intros c Ic. apply (util_iff qs phi au kt b s a ls cap Hq Hm Hl Nb (LCInt c) [c] position ps (w_int b c) (Hc c Ic)); auto.
    constructor; auto. rewrite Forall_forall in Hld. auto. }
  assert (Rs : forall x, ratios qs b cap cs ps x <-> exists c, In c cs /\ ratios qs b cap [c] ps x).
  { intros x. split.
    - intros (l & p & n & Il & H). exists l. split; auto. exists l, p, n. split; auto. now left.
    - intros (c & Ic & l & p & n & [<-|[]] & H). exists c, p, n. auto. }
  intros u. rewrite U. split.
  - intros [G Sm].
    assert (X : forall c, In c cs -> exists v, tension_utilisation qs a (LCInt c) position = Ok v).
    { intros c Ic.
      destruct (util_iff qs phi au kt b s a ls cap Hq Hm Hl Nb (LCInt c) [c] position ps (w_int b c) (Hc c Ic)) as (_ & W1 & W2); auto.
      { constructor; auto. rewrite Forall_forall in Hld. auto. }
      destruct (tension_utilisation qs a (LCInt c) position) as [v|e]; [eauto|exfalso].
      assert (e = ValueError) by auto. subst e. destruct (proj1 W1 eq_refl) as [?|[->|(x & Hx & Px)]].
      - discriminate.
      - destruct G as [(l & p & n & _ & [] & _) _].
      - assert (smallest_ratio < x); [|lra]. apply Sm; [|lra]. apply Rs. eauto. }
    assert (Y : exists us, Forall2 (fun c v => tension_utilisation qs a (LCInt c) position = Ok v) cs us).
    { clear - X. induction cs as [|c cs' IH]; [exists []; constructor|].
      destruct (X c) as (v & Ev); [now left|]. destruct IH as (us & F); [intros; apply X; now right|].
      exists (v :: us). now constructor. }
    destruct Y as (us & F). exists us. split; auto. destruct G as [Gu Gm]. split.
    + apply Rs in Gu. destruct Gu as (c & Ic & Hx). destruct (Forall2_In_l _ _ _ _ F Ic) as (v & Iv & Ev).
      apply V in Ev; auto. destruct Ev as [[Gv Gvm] _]. replace u with v; auto.
      apply Rle_antisym; [apply Gm, Rs; eauto|auto].
    + intros v Iv. destruct (Forall2_In_r _ _ _ _ F Iv) as (c & Ic & Ev). apply V in Ev; auto. apply Gm, Rs. exists c. split; auto. apply Ev.
  - intros (us & F & Gu & Gm). split; [split|].
    + destruct (Forall2_In_r _ _ _ _ F Gu) as (c & Ic & Ev). apply V in Ev; auto. apply Rs. exists c. split; auto. apply Ev.
    + intros x Hx. apply Rs in Hx. destruct Hx as (c & Ic & Hx). destruct (Forall2_In_l _ _ _ _ F Ic) as (v & Iv & Ev).
      apply V in Ev; auto. apply Rle_trans with v; auto. now apply Ev.
    + intros x Hx. apply Rs in Hx. destruct Hx as (c & Ic & Hx). destruct (Forall2_In_l _ _ _ _ F Ic) as (v & Iv & Ev).
      apply V in Ev; auto. now apply Ev.
Qed.

Lemma C32_explicit position ps : requested position ps -> Forall (sound_position a ls cap) ps ->
  forall u, tension_utilisation qs a LCNone position = Ok u <->
  exists us, Forall2 (fun c v => tension_utilisation qs a (LCInt c) position = Ok v) cs us /\ greatest u (fun v => In v us).
Proof. intros Rq Hp. apply combine_cases with (ps := ps); auto; intros; now constructor. Qed.

Lemma positions_sound mp lc locs : beam_list_positions b PosNone mp lc = Ok locs ->
  (forall p, 0 <= p <= span ls -> phiNt a (PosNum p) = Ok (cap p) /\ 0 < cap p) ->
  Forall (sound_position a ls cap) (positions_of locs).
Proof.
  intros El Hp. apply Forall_forall. intros p Ip.
  destruct (list_positions_triples b ls PosNone mp lc locs Hl El) as (H1 & _).
  unfold positions_of in Ip. apply in_map_iff in Ip. destruct Ip as ([[q z] l] & Eq & Hin). cbn in Eq. subst q.
  destruct (H1 _ _ _ Hin) as (i & _ & C & _).
  assert (P : 0 <= p <= span ls) by (eapply covers_on_beam; eauto; eapply lengths_nonneg; eauto).
  split; auto.
Qed.

Lemma C32_same_positions : (forall e c c', In e b -> In c cs -> In c' cs -> el_load_positions e c = el_load_positions e c') ->
  (forall p, 0 <= p <= span ls -> phiNt a (PosNum p) = Ok (cap p) /\ 0 < cap p) ->
  forall u, tension_utilisation qs a LCNone PosNone = Ok u <->
  exists us, Forall2 (fun c v => tension_utilisation qs a (LCInt c) PosNone = Ok v) cs us /\ greatest u (fun v => In v us).
Proof.
  intros Hs Hp u. destruct cs as [|c0 cs'] eqn:Ecs.
  - split.
    + intros H. exfalso. unfold tension_utilisation in H. rewrite (make_beam _ _ _ _ _ _ Hm), Hcs in H. discriminate H.
    + intros (us & F & G). inversion F. subst. destruct G as [[] _].
  - rewrite <- Ecs in *.
    assert (P : (0 <= assessment_points a)%Z).
    { apply make_ok in Hm. destruct Hm as (_ & ws & _ & ->). cbn. lia. }
    assert (Ld0 : loaded b c0). { rewrite Forall_forall in Hld. apply Hld. rewrite Ecs. now left. }
    destruct (C18_loads b ls c0 (assessment_points a) Hl Nb Ld0 P) as (locs & El & _).
    apply combine_cases with (ps := positions_of locs).
    + rewrite Ecs. now apply at_first.
    + intros c Ic. apply at_first. rewrite <- El. apply same_list_positions.
      assert (K : forall e, In e b -> el_load_positions e c = el_load_positions e c0).
      { intros e He. apply Hs; auto. rewrite Ecs. now left. }
      clear - K. induction b as [|e b' IH]; constructor; [split; auto; apply K; now left|apply IH; intros; apply K; now right].
    + eapply positions_sound; eauto.
Qed.
End All.

(** ** C33 *)
Lemma block_N_ext (rows rows' : list (lrow R)) p :
  Forall2 (fun r r' => lpos r' = lpos r /\ lN r' = lN r) rows rows' -> block rows' [N] p = block rows [N] p.
Proof.
  intros F.
  assert (E : map lpos rows' = map lpos rows) by (induction F as [|r r' l l' [H _] F IH]; cbn; congruence).
  unfold block. rewrite E. destruct (py_in p (map lpos rows)).
  - clear E. induction F as [|r r' l l' [H1 H2] F IH]; auto. cbn [filter]. rewrite H1.
    destruct (neqb (lpos r) p); auto. cbn [map]. rewrite IH. f_equal. unfold pick. cbn [map lcomp]. now rewrite H1, H2.
  - cbn [map]. do 3 f_equal. f_equal. destruct F as [|r r' l l' [H1 H2] F]; auto. cbn [interp_val lcomp].
    rewrite H1, H2. destruct (nltb p (lpos r)); auto. f_equal. clear - F.
    induction F as [|r r' l l' [H1 H2] F IH]; auto. cbn [map]. rewrite IH, H1. cbn [lcomp]. now rewrite H2.
Qed.

Lemma block_scaled k rows rows' p : rows <> [] -> axial_scaled_table k (Some rows) (Some rows') ->
  block rows' [N] p = map (scale_orow k) (block rows [N] p).
Proof.
  intros Nr H. rewrite <- scale_block by auto. apply block_N_ext. cbn in H. clear Nr.
  induction H as [|r r' l l' [H1 H2] F IH]; constructor; auto.
Qed.

Section Scaled.
Variables (k : R) (b b' : beam_t R (section R)).
Hypothesis Hs : axial_scaled k b b'.

Lemma scaled_lengths ls : has_lengths b ls -> has_lengths b' ls.
Proof.
  unfold has_lengths. clear - Hs. intros H. revert b' Hs. induction H as [|e l b ls He H IH]; intros b' Hs; inversion Hs as [|? e' ? b1 (E1 & _) F]; subst; constructor; auto.
  now rewrite E1.
Qed.

Lemma scaled_elem i e : nth_error b i = Some e -> exists e', nth_error b' i = Some e' /\
  elength e' = elength e /\ esection e' = esection e /\
  Forall2 (fun d d' => fst d' = fst d /\ axial_scaled_table k (snd d) (snd d')) (eloads e) (eloads e').
Proof.
  pose proof Hs as G0. unfold axial_scaled in G0. clear - G0. revert i. induction G0 as [|x y l r Hx F IH]; intros [|i] H; try discriminate.
  - injection H as ->. exists y. split; [reflexivity|exact Hx].
  - exact (IH i H).
Qed.
Lemma scaled_elem' i e' : nth_error b' i = Some e' -> exists e, nth_error b i = Some e /\
  elength e' = elength e /\ esection e' = esection e /\
  Forall2 (fun d d' => fst d' = fst d /\ axial_scaled_table k (snd d) (snd d')) (eloads e) (eloads e').
Proof.
  pose proof Hs as G0. unfold axial_scaled in G0. clear - G0. revert i. induction G0 as [|x y l r Hx F IH]; intros [|i] H; try discriminate.
  - injection H as ->. exists x. split; [reflexivity|exact Hx].
  - exact (IH i H).
Qed.

Lemma scaled_dict c (d d' : list (Z * lcase R)) rows :
  Forall2 (fun x y => fst y = fst x /\ axial_scaled_table k (snd x) (snd y)) d d' ->
  dict_get c d = Ok (Some rows) ->
  exists rows', dict_get c d' = Ok (Some rows') /\ axial_scaled_table k (Some rows) (Some rows').
Proof.
  induction 1 as [|[i t] [j t'] d d' [H1 H2] F IH]; [discriminate|]. cbn in H1, H2. subst j.
  cbn [dict_get]. destruct (Z.eqb c i); auto. intros [= ->]. destruct t' as [rows'|]; [|destruct H2].
  exists rows'. auto.
Qed.

Lemma scaled_accepted rows rows' : axial_scaled_table k (Some rows) (Some rows') -> accepted (Some rows) -> accepted (Some rows').
Proof.
  intros H A. apply accepted_rows. apply accepted_rows in A. cbn in H. destruct A as [A1 A2]. split.
  - clear A2. revert A1. induction H as [|r r' l l' [H1 _] F IH]; intros A1; [constructor|].
    apply Sorted.StronglySorted_inv in A1. destruct A1 as [A1 A3]. constructor; auto.
    rewrite H1. clear - F A3. induction F as [|x y l l' [H _] F IH]; [constructor|].
    apply Forall_cons_iff in A3. constructor; [rewrite H|]; tauto.
  - clear A1. induction H as [|r r' l l' [H1 _] F IH]; [constructor|].
    apply Forall_cons_iff in A2. constructor; [rewrite H1|]; tauto.
Qed.

Lemma scaled_loaded c : loaded b c -> loaded b' c.
Proof.
  intros H e' He'. apply In_nth_error in He'. destruct He' as (i & He'). destruct (scaled_elem' i e' He') as (e & He & _ & _ & F).
  destruct (H e (nth_error_In _ _ He)) as (rows & Ed & Ha & Nr). destruct (scaled_dict c _ _ rows F Ed) as (rows' & Ed' & S).
  exists rows'. split; auto. split; [eapply scaled_accepted; eauto|]. intros ->. cbn in S. inversion S. congruence.
Qed.

Lemma scaled_same c : loaded b c -> Forall2 (same_elem c c) b b'.
Proof.
  intros H. assert (K : forall e, In e b -> exists rows, dict_get c (eloads e) = Ok (Some rows)).
  { intros e He. destruct (H e He) as (rows & E & _). eauto. }
  pose proof Hs as G0. unfold axial_scaled in G0. clear - G0 K. induction G0 as [|e e' l r (E1 & _ & F) G IH]; constructor.
  - split; auto. destruct (K e) as (rows & Ed); [now left|]. destruct (scaled_dict c _ _ rows F Ed) as (rows' & Ed' & S).
    unfold el_load_positions. rewrite Ed, Ed'. cbn [bind]. cbn in S.
    assert (E : map lpos rows' = map lpos rows) by (clear - S; induction S as [|x y l l' [H _] S IH]; cbn; congruence).
    unfold load_positions. now rewrite E.
  - apply IH. intros; apply K; now right.
Qed.

Lemma scaled_axial qs ls l p n' : any_argsort qs -> has_lengths b ls -> loaded b l ->
  axial qs b' l p n' <-> exists n, axial qs b l p n /\ n' = k * n.
Proof.
  intros Hq Hl Ld.
  assert (D : designates (CStr "N") [N]) by apply (d_name N).
  assert (Dn : [N] <> []) by discriminate.
  pose proof (same_list_positions l l b b' (PosNum p) None (scaled_same l Ld)) as El.
  destruct (beam_list_positions b (PosNum p) None (Some l)) as [locs|e] eqn:E.
  2:{ split; [intros (rows & x & G & _)|intros (n & (rows & x & G & _) & _)]; exfalso; unfold beam_get_loads in G.
      - rewrite El in G. discriminate G.
      - rewrite E in G. discriminate G. }
  destruct (C21_total qs b ls l (PosNum p) None (CStr "N") [N] locs Hq Hl Ld D Dn E) as (bl & F & G).
  destruct (C21_total qs b' ls l (PosNum p) None (CStr "N") [N] locs Hq (scaled_lengths ls Hl) (scaled_loaded l Ld) D Dn El) as (bl' & F' & G').
  assert (K : bl' = map (map (scale_orow k)) bl).
  { clear - F F' Hs Ld Hq D Dn. revert bl' F'. induction F as [|[[q z] x] o locs bl H F IH]; intros bl' F'; inversion F' as [|? o' ? bl1 H' F1]; subst; auto.
    cbn [map]. f_equal; auto. destruct H as (el & rs & He & _ & Eg & ->). destruct H' as (el' & rs' & He' & _ & Eg' & ->).
    destruct (scaled_elem _ _ He) as (el2 & He2 & _ & _ & Fd). assert (el2 = el') by congruence. subst el2.
    destruct (Ld el (nth_error_In _ _ He)) as (tab & Ed & Ha & Hn). destruct (scaled_dict l _ _ tab Fd Ed) as (tab' & Ed' & S).
    rewrite (el_get_loads_block qs el l x (CStr "N") [N] tab) in Eg by auto.
    rewrite (el_get_loads_block qs el' l x (CStr "N") [N] tab') in Eg'; auto.
    - assert (rs = block tab [N] x) by congruence. assert (rs' = block tab' [N] x) by congruence. subst.
      rewrite (block_scaled k tab tab' x Hn S). unfold at_position. rewrite !map_map. apply map_ext. intros r. reflexivity.
    - eapply scaled_accepted; eauto.
    - intros ->. cbn in S. inversion S. congruence. }
  destruct locs as [|t0 locs0].
  { split; [intros (rows & x & G1 & _)|intros (n & (rows & x & G1 & _) & _)]; congruence. }
  subst bl'. rewrite <- concat_map in G'.
  split.
  - intros (rows & x & G1 & Hin). assert (rows = map (scale_orow k) (List.concat bl)) by congruence. subst rows.
    apply in_map_iff in Hin. destruct Hin as ([y c] & Eq & Hin). unfold scale_orow in Eq. cbn [fst snd] in Eq.
    destruct c as [|[n|] [|]]; cbn in Eq; try discriminate Eq. injection Eq as -> <-.
    exists n. split; auto. exists (List.concat bl), x. auto.
  - intros (n & (rows & x & G1 & Hin) & ->). assert (rows = List.concat bl) by congruence. subst rows.
    exists (map (scale_orow k) (List.concat bl)), x. split; auto. apply (in_map (scale_orow k)) in Hin. exact Hin.
Qed.

Lemma scaled_capacity kt au i c : element_capacity kt au b' i c <-> element_capacity kt au b i c.
Proof.
  split; intros (e & r & m & He & Es & V).
  - destruct (scaled_elem' i e He) as (e0 & He0 & _ & E & _). exists e0, r, m. rewrite <- E. auto.
  - destruct (scaled_elem i e He) as (e0 & He0 & _ & E & _). exists e0, r, m. rewrite E. auto.
Qed.

Lemma scaled_nonempty : b <> [] -> b' <> [].
Proof. pose proof Hs as G0. unfold axial_scaled in G0. destruct G0; congruence. Qed.

Lemma scaled_make phi au kt s a : make_as4100 phi au kt (Some b) s = Ok a ->
  exists a', make_as4100 phi au kt (Some b') s = Ok a' /\ assessment_points a' = assessment_points a.
Proof.
  intros H. apply make_ok in H. destruct H as (_ & ws & F & ->).
  exists (mk_as4100 (Some b') s 20 ws phi au kt). split; auto. apply make_ok. split; [intros [X _]; discriminate X|].
  exists ws. split; auto. cbn [checked_sections] in *.
  replace (map esection b') with (map esection b); auto.
  pose proof Hs as G0. unfold axial_scaled in G0. clear - G0. induction G0 as [|e e' l r (_ & E & _) G IH]; cbn; congruence.
Qed.

Lemma scaled_phiNt phi au kt s a a' ls p c : make_as4100 phi au kt (Some b) s = Ok a ->
  make_as4100 phi au kt (Some b') s = Ok a' -> has_lengths b ls -> b <> [] ->
  phiNt a (PosNum p) = Ok c -> phiNt a' (PosNum p) = Ok c.
Proof.
  intros Hm Hm' Hl Nb E. apply (C28_phi _ _ _ _ _ _ _ _ Hm) in E. destruct E as (n & En & ->).
  apply (C28_phi _ _ _ _ _ _ _ _ Hm'). exists n. split; auto.
  apply (C28_explicit _ _ _ b s a ls (PosNum p) [p] n Hm Hl Nb (r_num p)) in En.
  apply (C28_explicit _ _ _ b' s a' ls (PosNum p) [p] n Hm' (scaled_lengths ls Hl) (scaled_nonempty Nb) (r_num p)).
  destruct En as (H1 & H2 & H3). split; auto. split.
  - intros q i Hq C. destruct (H2 q i Hq C) as (c & V). exists c. now apply scaled_capacity.
  - eapply least_ext; [|exact H3]. intros c. unfold capacities_at.
    split; intros (q & i & Hq & C & V); exists q, i; (split; [auto|]); (split; [auto|]); now apply scaled_capacity.
Qed.

Lemma scaled_cases cs : beam_load_cases b = Ok cs -> beam_load_cases b' = Ok cs.
Proof.
  pose proof Hs as G0. unfold axial_scaled in G0. destruct G0 as [|e e' l r (_ & _ & F) G]; auto. cbn. intros [= <-]. f_equal.
  unfold el_load_cases. clear - F. induction F as [|x y d d' [H _] F IH]; cbn; congruence.
Qed.
End Scaled.

Lemma C33_scale qs phi au kt b b' s a ls cap lc cs position ps k u : any_argsort qs ->
  make_as4100 phi au kt (Some b) s = Ok a -> has_lengths b ls -> b <> [] ->
  wanted b lc cs -> looked_at b (assessment_points a) position cs ps ->
  Forall (loaded b) cs -> Forall (sound_position a ls cap) ps ->
  0 < k -> axial_scaled k b b' -> tension_utilisation qs a lc position = Ok u ->
  (forall x, ratios qs b cap cs ps x -> 0 < x -> smallest_ratio < k * x) ->
  exists a', make_as4100 phi au kt (Some b') s = Ok a' /\ tension_utilisation qs a' lc position = Ok (k * u).
Proof.
  intros Hq Hm Hl Nb Hw Ha Hld Hp Hk Hs Eu Hsm.
  destruct (scaled_make k b b' Hs phi au kt s a Hm) as (a' & Hm' & Ep). exists a'. split; auto.
  assert (Hw' : wanted b' lc cs) by (destruct Hw; constructor; eapply scaled_cases; eauto).
  assert (Ha' : looked_at b' (assessment_points a') position cs ps).
  { destruct Ha as [position cs ps Rq|l cs locs El]; [now constructor|]. apply at_first. rewrite Ep, <- El.
    apply same_list_positions. apply (scaled_same k); auto. now apply Forall_inv in Hld. }
  assert (Hld' : Forall (loaded b') cs) by (eapply Forall_impl; [|exact Hld]; intros; eapply scaled_loaded; eauto).
  assert (Hp' : Forall (sound_position a' ls cap) ps).
  { eapply Forall_impl; [|exact Hp]. intros p (P1 & P2 & P3). split; auto. split; auto.
    eapply (scaled_phiNt k b b'); eauto. }
  apply (util_iff qs phi au kt b s a ls cap Hq Hm Hl Nb lc cs position ps Hw Ha Hld Hp) in Eu.
  apply (util_iff qs phi au kt b' s a' ls cap Hq Hm' (scaled_lengths k b b' Hs ls Hl) (scaled_nonempty k b b' Hs Nb)
           lc cs position ps Hw' Ha' Hld' Hp').
  assert (Km : forall n, Rmax (k * n) 0 = k * Rmax n 0).
  { intros n. rewrite <- RmaxRmult by lra. now rewrite Rmult_0_r. }
  assert (Rs : forall x, ratios qs b' cap cs ps x <-> exists y, ratios qs b cap cs ps y /\ x = k * y).
  { rewrite Forall_forall in Hld. intros x. split.
    - intros (l & p & n' & Il & Ip & An & ->). apply (scaled_axial k b b' Hs qs ls l p n' Hq Hl (Hld l Il)) in An.
      destruct An as (n & An & ->). exists (Rmax n 0 / cap p). split; [exists l, p, n; auto|].
      rewrite Km. unfold Rdiv. ring.
    - intros (y & (l & p & n & Il & Ip & An & ->) & ->). exists l, p, (k * n). split; auto. split; auto.
      split; [apply (scaled_axial k b b' Hs qs ls l p (k * n) Hq Hl (Hld l Il)); eauto|].
      rewrite Km. unfold Rdiv. ring. }
  destruct Eu as [[G1 G2] _]. split; [split|].
  - apply Rs. eauto.
  - intros x Hx. apply Rs in Hx. destruct Hx as (y & Hy & ->). apply Rmult_le_compat_l; [lra|auto].
  - intros x Hx Px. apply Rs in Hx. destruct Hx as (y & Hy & ->). apply Hsm; auto.
    apply (Rmult_lt_reg_l k); auto. rewrite Rmult_0_r. exact Px.
Qed.

Lemma C33_safe qs phi au kt b s a ls cap lc cs position ps u : any_argsort qs ->
  make_as4100 phi au kt (Some b) s = Ok a -> has_lengths b ls -> b <> [] ->
  wanted b lc cs -> looked_at b (assessment_points a) position cs ps ->
  Forall (loaded b) cs -> Forall (sound_position a ls cap) ps ->
  tension_utilisation qs a lc position = Ok u ->
  u <= 1 <-> (forall l p n, In l cs -> In p ps -> axial qs b l p n -> n <= cap p).
Proof.
  intros Hq Hm Hl Nb Hw Ha Hld Hp Eu.
  apply (util_iff qs phi au kt b s a ls cap Hq Hm Hl Nb lc cs position ps Hw Ha Hld Hp) in Eu.
  destruct Eu as [[G1 G2] _]. rewrite Forall_forall in Hp. split.
  - intros L l p n Il Ip An. destruct (Hp p Ip) as (_ & _ & Pc).
    assert (X : Rmax n 0 / cap p <= 1). { apply Rle_trans with u; auto. apply G2. exists l, p, n. auto. }
    apply (Rmult_le_compat_r (cap p)) in X; [|lra]. unfold Rdiv in X. rewrite Rmult_assoc, Rinv_l in X by lra.
    pose proof (Rmax_l n 0). lra.
  - intros H. destruct G1 as (l & p & n & Il & Ip & An & ->). destruct (Hp p Ip) as (_ & _ & Pc).
    apply (Rmult_le_reg_r (cap p)); auto. unfold Rdiv. rewrite Rmult_assoc, Rinv_l by lra.
    specialize (H l p n Il Ip An). rewrite Rmult_1_r, Rmult_1_l. apply Rmax_lub; lra.
Qed.
