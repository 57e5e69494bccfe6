(** Beams joined end to end, and beams measured in another unit of length. *)

From Coq Require Import ZArith Reals Lra Lia List Bool Sorted.
From Verif Require Import Base Num RNum Numpy LoadCase LoadSpec LoadProofs Beam BeamSpec BeamFacts
  BeamPositions BeamProofs BeamLoads TransformSpec.
Import ListNotations.
Open Scope R_scope.

(** ** Extents of joined elements *)

Lemma start_app_l la lb i : (i <= List.length la)%nat -> start_of (la ++ lb) i = start_of la i.
Proof.
  intros H. unfold start_of. rewrite firstn_app. replace (i - List.length la)%nat with 0%nat by lia.
  cbn. now rewrite app_nil_r.
Qed.

Lemma start_app_r la lb j : start_of (la ++ lb) (List.length la + j) = span la + start_of lb j.
Proof. unfold start_of. rewrite firstn_app_2. apply span_app. Qed.

Lemma ids_app la lb p :
  ids (la ++ lb) p = ids la p ++ map (fun j => (List.length la + j)%nat) (ids lb (p - span la)).
Proof.
  unfold ids, in_ext. rewrite app_length, seq_app, filter_app. f_equal.
  - apply filter_ext_in. intros i Hi. apply in_seq in Hi.
    rewrite !end_start, !start_app_l by lia. reflexivity.
  - rewrite Nat.add_0_l.
    assert (G : forall n m, filter (fun i => Rleb (start_of (la ++ lb) i) p && Rleb p (end_of (la ++ lb) i))
                            (seq (List.length la + m) n) =
              map (fun j => (List.length la + j)%nat)
                (filter (fun i => Rleb (start_of lb i) (p - span la) && Rleb (p - span la) (end_of lb i)) (seq m n))).
    { induction n as [|n IH]; intros m; [reflexivity|]. cbn [seq filter].
      replace (S (List.length la + m)) with (List.length la + S m)%nat by lia. rewrite IH.
      rewrite !end_start. replace (S (List.length la + m)) with (List.length la + S m)%nat by lia.
      rewrite !start_app_r.
      assert (E : Rleb (span la + start_of lb m) p = Rleb (start_of lb m) (p - span la)).
      { apply eq_true_iff_eq. rewrite !Rleb_true. split; lra. }
      assert (E2 : Rleb p (span la + start_of lb (S m)) = Rleb (p - span la) (start_of lb (S m))).
      { apply eq_true_iff_eq. rewrite !Rleb_true. split; lra. }
      rewrite E, E2. destruct (_ && _); reflexivity. }
    rewrite <- (G (List.length lb) 0%nat). now rewrite Nat.add_0_r.
Qed.

(** A triple of the second part, in terms of the whole. *)
Definition moved (n : nat) (x : R) (t : location R) : location R :=
  (fst (fst t) + x, (snd (fst t) + Z.of_nat n)%Z, snd t).

Section B.
Context {Sec : Type}.
Implicit Types b : beam_t R Sec.

Lemma has_lengths_app a b la lb : has_lengths a la -> has_lengths b lb -> has_lengths (a ++ b) (la ++ lb).
Proof. apply Forall2_app. Qed.

Lemma mapM_app {A B} (f : A -> res B) l1 l2 :
  mapM f (l1 ++ l2) = (let! r1 := mapM f l1 in let! r2 := mapM f l2 in Ok (r1 ++ r2)).
Proof.
  induction l1 as [|x l1 IH]; cbn; [destruct (mapM f l2); reflexivity|].
  destruct (f x); cbn; auto. rewrite IH. destruct (mapM f l1); cbn; auto. destruct (mapM f l2); reflexivity.
Qed.

Lemma mapM_rmap {A B C} (f : A -> res B) (g : B -> C) l :
  mapM (fun x => rmap g (f x)) l = rmap (map g) (mapM f l).
Proof.
  induction l as [|x l IH]; cbn; auto. destruct (f x); cbn; auto. rewrite IH. destruct (mapM f l); reflexivity.
Qed.

Lemma covers_app_l la lb i p : covers la i p -> covers (la ++ lb) i p.
Proof.
  intros [H1 H2]. split; [rewrite app_length; lia|]. rewrite end_start in *.
  rewrite !start_app_l by lia. exact H2.
Qed.

Lemma covers_app_r la lb j p : covers lb j (p - span la) -> covers (la ++ lb) (List.length la + j) p.
Proof.
  intros [H1 H2]. split; [rewrite app_length; lia|]. rewrite end_start in *.
  replace (S (List.length la + j)) with (List.length la + S j)%nat by lia.
  rewrite !start_app_r. lra.
Qed.

Lemma locations_at_l a b la lb lc p i : has_lengths a la -> has_lengths b lb -> covers la i p ->
  locations_at (a ++ b) lc p (Z.of_nat i) = locations_at a lc p (Z.of_nat i).
Proof.
  intros Ha Hb C. destruct (lengths_has a la i Ha (proj1 C)) as (e & E).
  assert (E' : nth_error (a ++ b) i = Some e).
  { rewrite nth_error_app1; auto. rewrite (lengths_len a la Ha). apply C. }
  rewrite (locations_at_R a la lc p i e Ha C E).
  rewrite (locations_at_R (a ++ b) (la ++ lb) lc p i e (has_lengths_app a b la lb Ha Hb) (covers_app_l la lb i p C) E').
  unfold locals_at. rewrite app_nth1 by apply C. rewrite start_app_l by (destruct C; lia). reflexivity.
Qed.

Lemma locations_at_r a b la lb lc p j : has_lengths a la -> has_lengths b lb -> covers lb j (p - span la) ->
  locations_at (a ++ b) lc p (Z.of_nat (List.length la + j)) =
  rmap (map (moved (List.length a) (span la))) (locations_at b lc (p - span la) (Z.of_nat j)).
Proof.
  intros Ha Hb C. destruct (lengths_has b lb j Hb (proj1 C)) as (e & E).
  pose proof (lengths_len a la Ha) as La.
  assert (E' : nth_error (a ++ b) (List.length la + j) = Some e).
  { rewrite nth_error_app2 by lia. rewrite La. now replace (List.length la + j - List.length la)%nat with j by lia. }
  rewrite (locations_at_R b lb lc (p - span la) j e Hb C E).
  rewrite (locations_at_R (a ++ b) (la ++ lb) lc p _ e (has_lengths_app a b la lb Ha Hb) (covers_app_r la lb j p C) E').
  unfold locals_at. rewrite app_nth2_plus, start_app_r.
  replace (p - (span la + start_of lb j)) with (p - span la - start_of lb j) by ring.
  set (R := if Reqb _ _ then _ else _). destruct R as [l|e']; cbn [rmap bind]; [|reflexivity].
  rewrite map_map. apply f_equal. apply map_ext. intros x. unfold moved. cbn [fst snd].
  f_equal. f_equal; [ring|lia].
Qed.

Lemma locs_at_app a b la lb lc p : has_lengths a la -> has_lengths b lb ->
  locs_at (a ++ b) (la ++ lb) lc p =
  (let! ta := locs_at a la lc p in
   let! tb := locs_at b lb lc (p - span la) in
   Ok (ta ++ map (moved (List.length a) (span la)) tb)).
Proof.
  intros Ha Hb. unfold locs_at. rewrite ids_app, mapM_app, mapM_map.
  rewrite (mapM_ext _ (fun i => locations_at a lc p (Z.of_nat i)) (ids la p)).
  2:{ intros i Hi. apply in_ids in Hi. now apply (locations_at_l a b la lb). }
  rewrite (mapM_ext _ (fun j => rmap (map (moved (List.length a) (span la)))
                                 (locations_at b lc (p - span la) (Z.of_nat j))) (ids lb (p - span la))).
  2:{ intros j Hj. apply in_ids in Hj. now apply (locations_at_r a b la lb). }
  rewrite mapM_rmap.
  destruct (mapM _ (ids la p)) as [ra|]; cbn [bind]; auto.
  destruct (mapM _ (ids lb _)) as [rb|]; cbn [bind rmap]; auto.
  f_equal. rewrite concat_app. now rewrite concat_map.
Qed.

(** ** Queries at one position *)

Lemma list_positions_one b ls lc p : has_lengths b ls -> 0 <= p <= span ls ->
  beam_list_positions b (PosNum p) None lc = locs_at b ls lc p.
Proof.
  intros H P. unfold beam_list_positions. cbn [nisfloat RNum check_on_beam].
  rewrite (beam_length_R b ls H). cbn [bind nltb nint RNum].
  destruct (Rltb p 0) eqn:E1; [apply Rltb_true in E1; lra|].
  destruct (Rltb (span ls) p) eqn:E2; [apply Rltb_true in E2; lra|].
  change (py_sorted (py_set [p])) with [p]. rewrite (locations_R b ls lc [p] H). cbn [mapM bind].
  destruct (locs_at b ls lc p); cbn [bind List.concat]; auto. now rewrite app_nil_r.
Qed.

Lemma locs_off b ls lc p : has_lengths b ls -> ~ 0 <= p <= span ls -> locs_at b ls lc p = Ok [].
Proof.
  intros H P. unfold locs_at. destruct (ids ls p) as [|i r] eqn:E; [reflexivity|]. exfalso. apply P.
  apply (covers_on_beam ls i p (lengths_nonneg b ls H)). apply in_ids. rewrite E. now left.
Qed.

Lemma on_beam_some b ls lc p ts : b <> [] -> has_lengths b ls -> 0 <= p <= span ls ->
  locs_at b ls lc p = Ok ts -> ts <> [].
Proof.
  intros N H P E Z. subst ts. apply (locs_at_ok b ls lc p [] H) in E.
  assert (N' : ls <> []) by (intros ->; inversion H; congruence).
  destruct (some_cover ls p N' (lengths_nonneg b ls H) P) as (i & C).
  destruct (triples_at_every ls p [] i E C) as (l & []).
Qed.

Lemma locs_total b ls c p : has_lengths b ls -> loaded b c -> exists ts, locs_at b ls (Some c) p = Ok ts.
Proof.
  intros H L. destruct (locations_total b ls (Some c) [p] H) as (r & E).
  - intros i e He _. right. apply nth_error_In in He. destruct (L e He) as (rows & Hd & _ & N).
    destruct rows as [|r0 rows]; [congruence|].
    exists c, (lpos r0), (map lpos rows). split; auto. unfold el_load_positions. rewrite Hd. reflexivity.
  - rewrite (locations_R b ls (Some c) [p] H) in E. cbn [mapM bind] in E.
    destruct (locs_at b ls (Some c) p) as [ts|]; [exists ts; reflexivity|discriminate E].
Qed.

Lemma rows_of_l qs a b c comp ts blocks : Forall (indexed a) ts ->
  Forall2 (rows_of_triple qs a c comp) ts blocks -> Forall2 (rows_of_triple qs (a ++ b) c comp) ts blocks.
Proof.
  intros I F. induction F as [|[[p e] l] o ts blocks H F IH]; constructor; inversion I; subst; auto.
  destruct H as (el & rows & E1 & E2 & E3 & E4). exists el, rows. repeat split; auto.
  rewrite nth_error_app1; auto. apply nth_error_Some. congruence.
Qed.

Lemma rows_of_r qs a b c comp x ts blocks :
  Forall2 (rows_of_triple qs b c comp) ts blocks ->
  Forall2 (rows_of_triple qs (a ++ b) c comp) (map (moved (List.length a) x) ts)
    (map (map (fun r => (fst r + x, snd r))) blocks).
Proof.
  intros F. induction F as [|[[p e] l] o ts blocks H F IH]; cbn [map]; constructor; auto.
  destruct H as (el & rows & E1 & E2 & E3 & E4). exists el, rows. cbn [fst snd].
  repeat split; auto; try lia.
  - rewrite nth_error_app2 by lia. rewrite <- E1. f_equal. lia.
  - subst o. unfold at_position. rewrite map_map. reflexivity.
Qed.

Lemma rows_functional qs b c comp ts : forall x y, Forall2 (rows_of_triple qs b c comp) ts x ->
  Forall2 (rows_of_triple qs b c comp) ts y -> x = y.
Proof.
  induction ts as [|[[p e] l] ts IH]; intros x y Fx Fy; inversion Fx; inversion Fy; subst; auto.
  f_equal; auto. destruct H1 as (el & rows & E1 & _ & E2 & ->). destruct H6 as (el' & rows' & E1' & _ & E2' & ->).
  congruence.
Qed.

Theorem join_loads qs a b la lb c comp cs p : any_argsort qs ->
  has_lengths a la -> has_lengths b lb -> a <> [] -> b <> [] -> loaded (a ++ b) c ->
  designates comp cs -> cs <> [] -> 0 <= p <= span la + span lb ->
  exists rows, beam_get_loads qs (a ++ b) c (PosNum p) None comp = Ok (Some rows) /\
    (p < span la -> beam_get_loads qs a c (PosNum p) None comp = Ok (Some rows)) /\
    (span la < p -> exists rb, beam_get_loads qs b c (PosNum (p - span la)) None comp = Ok (Some rb) /\
                               rows = shifted (span la) rb) /\
    (p = span la -> exists ra rb, beam_get_loads qs a c (PosNum (span la)) None comp = Ok (Some ra) /\
                               beam_get_loads qs b c (PosNum 0) None comp = Ok (Some rb) /\
                               rows = ra ++ shifted (span la) rb).
Proof.
  intros Hq Ha Hb Na Nb Hl Hc C P.
  pose proof (has_lengths_app a b la lb Ha Hb) as Hab.
  assert (La : loaded a c) by (intros e He; apply Hl, in_app_iff; auto).
  assert (Lb : loaded b c) by (intros e He; apply Hl, in_app_iff; auto).
  pose proof (span_nonneg la (lengths_nonneg a la Ha)) as Sa.
  pose proof (span_nonneg lb (lengths_nonneg b lb Hb)) as Sb.
  destruct (locs_total a la c p Ha La) as (ta & Ea).
  destruct (locs_total b lb c (p - span la) Hb Lb) as (tb & Eb).
  pose proof (locs_at_app a b la lb (Some c) p Ha Hb) as Eab. rewrite Ea, Eb in Eab. cbn [bind] in Eab.
  assert (Pab : 0 <= p <= span (la ++ lb)) by (rewrite span_app; lra).
  assert (Nab : a ++ b <> []) by (intros Z; apply app_eq_nil in Z; tauto).
  pose proof (list_positions_one (a ++ b) (la ++ lb) (Some c) p Hab Pab) as Q. rewrite Eab in Q.
  destruct (C21_total qs (a ++ b) (la ++ lb) c (PosNum p) None comp cs _ Hq Hab Hl Hc C Q) as (blocks & F & G).
  assert (Ga : 0 <= p <= span la -> exists ba, Forall2 (rows_of_triple qs (a ++ b) c comp) ta ba /\
             beam_get_loads qs a c (PosNum p) None comp = Ok (Some (List.concat ba))).
  { intros Pa. pose proof (list_positions_one a la (Some c) p Ha Pa) as Qa. rewrite Ea in Qa.
    destruct (C21_total qs a la c (PosNum p) None comp cs _ Hq Ha La Hc C Qa) as (ba & Fa & Ga).
    exists ba. split; [apply rows_of_l; auto; eapply locs_indexed; eauto|].
    rewrite Ga. pose proof (on_beam_some a la (Some c) p ta Na Ha Pa Ea). destruct ta; [congruence|reflexivity]. }
  assert (Gb : 0 <= p - span la <= span lb -> exists bb,
             Forall2 (rows_of_triple qs (a ++ b) c comp) (map (moved (List.length a) (span la)) tb)
               (map (shifted (span la)) bb) /\
             beam_get_loads qs b c (PosNum (p - span la)) None comp = Ok (Some (List.concat bb))).
  { intros Pb. pose proof (list_positions_one b lb (Some c) _ Hb Pb) as Qb. rewrite Eb in Qb.
    destruct (C21_total qs b lb c (PosNum (p - span la)) None comp cs _ Hq Hb Lb Hc C Qb) as (bb & Fb & Gb).
    exists bb. split; [now apply rows_of_r|].
    rewrite Gb. pose proof (on_beam_some b lb (Some c) _ tb Nb Hb Pb Eb). destruct tb; [congruence|reflexivity]. }
  assert (Gab : beam_get_loads qs (a ++ b) c (PosNum p) None comp = Ok (Some (List.concat blocks))).
  { rewrite G. pose proof (on_beam_some (a ++ b) (la ++ lb) (Some c) p _ Nab Hab Pab Eab).
    destruct (ta ++ _); [congruence|reflexivity]. }
  exists (List.concat blocks). split; [exact Gab|]. split; [|split].
  - intros L. rewrite (locs_off b lb (Some c) (p - span la) Hb) in Eb by lra. injection Eb as <-.
    cbn [map] in F. rewrite app_nil_r in F. destruct Ga as (ba & Fa & ->); [lra|].
    now rewrite (rows_functional _ _ _ _ _ _ _ F Fa).
  - intros L. rewrite (locs_off a la (Some c) p Ha) in Ea by lra. injection Ea as <-.
    cbn [app] in F. destruct Gb as (bb & Fb & ->); [lra|]. exists (List.concat bb). split; auto.
    rewrite (rows_functional _ _ _ _ _ _ _ F Fb). unfold shifted. now rewrite concat_map.
  - intros E. destruct Ga as (ba & Fa & Ga); [lra|]. destruct Gb as (bb & Fb & Gb); [lra|].
    rewrite E in Ga. replace (p - span la) with 0 in Gb by lra.
    exists (List.concat ba), (List.concat bb). split; auto. split; auto.
    rewrite (rows_functional _ _ _ _ _ _ _ F (Forall2_app Fa Fb)).
    unfold shifted. now rewrite concat_app, concat_map.
Qed.

(** ** Sections *)

Lemma locs_total_none b ls p : has_lengths b ls -> exists ts, locs_at b ls None p = Ok ts.
Proof.
  intros H. destruct (locations_total b ls None [p] H) as (r & E); [auto|].
  rewrite (locations_R b ls None [p] H) in E. cbn [mapM bind] in E.
  destruct (locs_at b ls None p) as [ts|]; [exists ts; reflexivity|discriminate E].
Qed.

Definition section_of b (t : R * Z * R) : res (option Sec) := let! e := py_index b (snd (fst t)) in Ok (esection e).

Lemma get_section_locs b ls p ts : has_lengths b ls -> 0 <= p <= span ls -> locs_at b ls None p = Ok ts ->
  beam_get_section b (PosNum p) None None = (let! secs := mapM (section_of b) ts in Ok (map (fun l => fst (fst l)) ts, secs)).
Proof.
  intros H P E. unfold beam_get_section. rewrite (list_positions_one b ls None p H P), E. reflexivity.
Qed.

Lemma section_of_l a b t : indexed a t -> section_of (a ++ b) t = section_of a t.
Proof.
  intros (i & E & L). unfold section_of. rewrite E. destruct (nth_error a i) as [e|] eqn:En.
  - rewrite (py_index_nat a i e En). rewrite (py_index_nat (a ++ b) i e); auto. now rewrite nth_error_app1.
  - apply nth_error_None in En. lia.
Qed.

Lemma section_of_r a b x t : indexed b t -> section_of (a ++ b) (moved (List.length a) x t) = section_of b t.
Proof.
  intros (i & E & L). unfold section_of. cbn [moved fst snd]. rewrite E.
  destruct (nth_error b i) as [e|] eqn:En; [|apply nth_error_None in En; lia].
  rewrite (py_index_nat b i e En).
  replace (Z.of_nat i + Z.of_nat (List.length a))%Z with (Z.of_nat (List.length a + i)) by lia.
  rewrite (py_index_nat (a ++ b) _ e); auto. rewrite nth_error_app2 by lia. rewrite <- En. f_equal. lia.
Qed.

Lemma locs_at_indexed b ls lc p ts : has_lengths b ls -> locs_at b ls lc p = Ok ts -> Forall (indexed b) ts.
Proof.
  intros H E. apply (locs_at_ok b ls lc p ts H) in E. apply Forall_forall. intros t Ht.
  destruct (triples_at_pos ls p ts E t Ht) as (_ & i & E1 & [L _] & _). exists i. split; auto.
  now rewrite (lengths_len b ls H).
Qed.

Lemma sections_total b ts : Forall (indexed b) ts -> exists secs, mapM (section_of b) ts = Ok secs.
Proof.
  induction 1 as [|t ts (i & E & L) F (s & IH)]; cbn [mapM]; [exists []; reflexivity|].
  unfold section_of at 1. rewrite E. destruct (nth_error b i) as [e|] eqn:En; [|apply nth_error_None in En; lia].
  rewrite (py_index_nat b i e En). cbn [bind]. rewrite IH. cbn [bind]. eauto.
Qed.

Theorem join_sections a b la lb p :
  has_lengths a la -> has_lengths b lb -> a <> [] -> b <> [] -> 0 <= p <= span la + span lb ->
  exists ps secs, beam_get_section (a ++ b) (PosNum p) None None = Ok (ps, secs) /\
    (p < span la -> beam_get_section a (PosNum p) None None = Ok (ps, secs)) /\
    (span la < p -> beam_get_section b (PosNum (p - span la)) None None = Ok (map (fun x => x - span la) ps, secs)) /\
    (p = span la -> exists pa sa pb sb, beam_get_section a (PosNum (span la)) None None = Ok (pa, sa) /\
        beam_get_section b (PosNum 0) None None = Ok (pb, sb) /\
        ps = pa ++ map (fun x => x + span la) pb /\ secs = sa ++ sb).
Proof.
  intros Ha Hb Na Nb P. pose proof (has_lengths_app a b la lb Ha Hb) as Hab.
  pose proof (span_nonneg la (lengths_nonneg a la Ha)) as Sa.
  pose proof (span_nonneg lb (lengths_nonneg b lb Hb)) as Sb.
  destruct (locs_total_none a la p Ha) as (ta & Ea).
  destruct (locs_total_none b lb (p - span la) Hb) as (tb & Eb).
  pose proof (locs_at_app a b la lb None p Ha Hb) as Eab. rewrite Ea, Eb in Eab. cbn [bind] in Eab.
  assert (Pab : 0 <= p <= span (la ++ lb)) by (rewrite span_app; lra).
  pose proof (locs_at_indexed a la None p ta Ha Ea) as Ia.
  pose proof (locs_at_indexed b lb None _ tb Hb Eb) as Ib.
  destruct (sections_total a ta Ia) as (sa & Fa). destruct (sections_total b tb Ib) as (sb & Fb).
  assert (Ma : mapM (section_of (a ++ b)) ta = Ok sa).
  { rewrite <- Fa. apply mapM_ext. intros t Ht. apply section_of_l. rewrite Forall_forall in Ia. auto. }
  assert (Mb : mapM (section_of (a ++ b)) (map (moved (List.length a) (span la)) tb) = Ok sb).
  { rewrite mapM_map, <- Fb. apply mapM_ext. intros t Ht. apply section_of_r. rewrite Forall_forall in Ib. auto. }
  pose proof (get_section_locs (a ++ b) (la ++ lb) p _ Hab Pab Eab) as G.
  rewrite mapM_app, Ma, Mb in G. cbn [bind] in G. rewrite map_app, map_map in G. cbn [moved fst] in G.
  eexists _, _. split; [exact G|]. split; [|split].
  - intros L. rewrite (locs_off b lb None (p - span la) Hb) in Eb by lra. injection Eb as <-.
    cbn in Fb. injection Fb as <-. cbn [map]. rewrite !app_nil_r.
    rewrite (get_section_locs a la p ta Ha) by (auto; lra). now rewrite Fa.
  - intros L. rewrite (locs_off a la None p Ha) in Ea by lra. injection Ea as <-.
    cbn in Fa. injection Fa as <-. cbn [map app].
    rewrite (get_section_locs b lb (p - span la) tb Hb) by (auto; lra). rewrite Fb. cbn [bind].
    rewrite map_map. apply f_equal. apply f_equal2; auto. apply map_ext. intros t. ring.
  - intros E. exists (map (fun l => fst (fst l)) ta), sa, (map (fun l => fst (fst l)) tb), sb.
    rewrite <- E at 1. rewrite (get_section_locs a la p ta Ha) by (auto; lra). rewrite Fa.
    replace 0 with (p - span la) by lra. rewrite (get_section_locs b lb (p - span la) tb Hb) by (auto; lra). rewrite Fb.
    rewrite map_map. repeat split; auto.
Qed.
End B.
