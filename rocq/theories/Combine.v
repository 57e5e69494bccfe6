(** Load cases that are combinations of others; beams whose tables are replaced. *)

From Coq Require Import ZArith Reals List Bool String Sorted Lra Lia.
From Verif Require Import Base Num RNum OrdFacts Numpy LoadCase LoadSpec LoadFacts LoadProofs Beam BeamSpec BeamFacts
  BeamPositions BeamLoads BeamProofs BeamMisc BeamFloat TableCut BeamCut BeamMirror BeamJoin BeamCutAt TransformSpec
  Material AS4100 AS4100Spec AS4100Facts AS4100Util AS4100Scale PeakSpec Peak SameUtil TabulateSpec Tabulate.
Import ListNotations.
Open Scope R_scope.

(** ** Replaced tables *)
Section Replaced.
Context {Sec : Type}.
Variables (qs : argsort_oracle R) (c : Z) (a : comp_arg) (cs : list comp) (b b' : beam_t R Sec) (ls : list R).
Hypothesis Hq : any_argsort qs.
Hypothesis Hd : designates a cs.
Hypothesis C0 : cs <> [].
Hypothesis Hr : Forall2 (retabulated c) b b'.
Hypothesis Hl : has_lengths b ls.

Lemma replaced_lengths : has_lengths b' ls.
Proof using Hr Hl.
  clear C0 Hd Hq. revert ls Hl. induction Hr as [|e e' l l' (E & _) F IH]; intros ls0 H; inversion H; subst; constructor.
  - now rewrite E.
  - now apply IH.
Qed.

Lemma replaced_nth i e : nth_error b i = Some e -> exists e', nth_error b' i = Some e' /\ retabulated c e e'.
Proof using Hr.
  clear Hl C0 Hd Hq. revert i. induction Hr as [|x x' l l' R F IH]; intros [|i] E; try discriminate; [|now apply IH].
  cbn in E. injection E as ->. exists x'. auto.
Qed.

Lemma replaced_at p i : covers ls i p ->
  rres (Forall2 (same_loads qs c a b b')) (locations_at b (Some c) p (Z.of_nat i)) (locations_at b' (Some c) p (Z.of_nat i)).
Proof using Hq Hd C0 Hr Hl.
  intros Cv. pose proof replaced_lengths as Hl'. destruct (lengths_has b ls i Hl (proj1 Cv)) as (e & Ee).
  destruct (replaced_nth i e Ee) as (e' & Ee' & (El & Es & rows & rows' & D & D' & Ac & Nr & Sa & Z)).
  rewrite (locations_at_R b ls (Some c) p i e Hl Cv Ee), (locations_at_R b' ls (Some c) p i e' Hl' Cv Ee').
  assert (G : locals_at e' ls (Some c) p i = locals_at e ls (Some c) p i).
  { unfold locals_at. destruct (Reqb (nth i ls 0) 0) eqn:E0; auto. apply Reqb_true in E0.
    destruct (lengths_nth b ls i e Hl Ee) as (L & _). rewrite E0 in L. rewrite (Z L) in D'.
    unfold zero_length_positions, el_load_positions. now rewrite D, D'. }
  rewrite G. clear G. destruct (locals_at e ls (Some c) p i) as [xs|]; cbn [rmap]; constructor.
  induction xs as [|x xs IH]; cbn [map]; constructor; auto. split; auto. exists e, e'. cbn [fst snd].
  rewrite (py_index_nat b i e Ee), (py_index_nat b' i e' Ee'). split; auto. split; auto. left.
  unfold el_get_loads. rewrite D, D'. cbn [bind]. now apply (Sa qs (PosNum x) a cs).
Qed.

Lemma C138_explicit position ps : requested position ps ->
  beam_get_loads qs b' c position None a = beam_get_loads qs b c position None a.
Proof using Hq Hd C0 Hr Hl.
  intros Rq. pose proof replaced_lengths as Hl'. unfold beam_get_loads.
  rewrite (explicit_R b position ps (Some c) Rq), (explicit_R b' position ps (Some c) Rq).
  rewrite (check_same b' b) by (rewrite (beam_length_R b ls Hl), (beam_length_R b' ls Hl'); auto).
  destruct (check_on_beam b ps); cbn [bind]; auto. symmetry.
  assert (G : rres (Forall2 (same_loads qs c a b b')) (locations b (Some c) (py_sorted (py_set ps)))
                   (locations b' (Some c) (py_sorted (py_set ps)))).
  { apply (locations_alike qs c a b b' ls ls); auto. intros p Hp.
    assert (K : forall i, In i (ids ls p) -> covers ls i p) by (intros i Hi; now apply in_ids).
    induction (ids ls p) as [|i r IH]; constructor; [|apply IH; intros; apply K; now right].
    apply replaced_at. apply K. now left. }
  destruct G as [x|x y G]; cbn [bind]; auto. now apply accumulate_alike.
Qed.
End Replaced.

Section ReplacedUtil.
Variables (qs : argsort_oracle R) (phi au kt : R) (c : Z).
Hypothesis Hq : any_argsort qs.
Hypothesis Hphi : 0 < phi.

Lemma replaced_loaded {Sec} (b b' : beam_t R Sec) : Forall2 (retabulated c) b b' -> loaded b' c.
Proof using.
  intros F e' He. induction F as [|x x' l l' R F IH]; [contradiction|]. destruct He as [<-|He]; auto.
  destruct R as (_ & _ & rows & rows' & _ & D & A & N & _). exists rows'. auto.
Qed.

Lemma replaced_sections (b b' : beam_t R (section R)) : Forall2 (retabulated c) b b' -> map esection b' = map esection b.
Proof using. induction 1 as [|x x' l l' R F IH]; cbn; auto. destruct R as (_ & -> & _). now rewrite IH. Qed.

Lemma same_sections_bars (b b' : beam_t R (section R)) : map esection b' = map esection b -> sound_bars kt au b -> sound_bars kt au b'.
Proof using.
  intros E H e' He. apply (in_map esection) in He. rewrite E in He. apply in_map_iff in He. destruct He as (e & <- & He). now apply H.
Qed.

Lemma same_sections_here (b b' : beam_t R (section R)) ls p s : map esection b' = map esection b -> here b ls p s -> here b' ls p s.
Proof using.
  intros E (i & e & C & Ee & Es). apply (map_nth_error esection) in Ee. rewrite <- E in Ee.
  destruct (nth_error b' i) as [e'|] eqn:E'.
  - exists i, e'. split; auto. split; auto. rewrite (map_nth_error esection i b' E') in Ee. congruence.
  - exfalso. apply nth_error_None in E'. assert (K : nth_error (map esection b') i = None).
    { apply nth_error_None. now rewrite map_length. } congruence.
Qed.

Theorem C138_util b b' s s' a a' ls : Forall2 (retabulated c) b b' -> has_lengths b ls -> b <> [] -> loaded b c ->
  sound_bars kt au b -> make_as4100 phi au kt (Some b) s = Ok a -> make_as4100 phi au kt (Some b') s' = Ok a' ->
  forall n n' u u', answer qs c a n u -> answer qs c a' n' u' -> u = u'.
Proof using Hq Hphi.
  intros Hr Hl Nb Ld Hs Hm Hm' n n' u u' A A'.
  pose proof (replaced_lengths c b b' ls Hr Hl) as Hl'. pose proof (replaced_sections b b' Hr) as Es.
  assert (Nb' : b' <> []) by (destruct Hr; [congruence|discriminate]).
  assert (C1 : case_of phi au kt c b s a ls) by (repeat split; auto).
  assert (C2 : case_of phi au kt c b' s' a' ls).
  { repeat split; auto; [now apply (replaced_loaded b)|now apply (same_sections_bars b)]. }
  assert (Ax : forall p x, axial qs b c p x <-> axial qs b' c p x).
  { intros p x. unfold axial.
    now rewrite (C138_explicit qs c (CStr "N") [N] b b' ls Hq (d_name N) ltac:(discriminate) Hr Hl (PosNum p) [p] (r_num p)). }
  apply Rle_antisym.
  - apply (compare qs phi au kt c Hq Hphi _ _ _ _ n u _ _ _ _ n' u' (fun p => p) C1 C2 A A').
    + intros p x P X. split; auto. now apply Ax.
    + intros p x P. apply capacities_here. intros sec. now apply same_sections_here.
  - apply (compare qs phi au kt c Hq Hphi _ _ _ _ n' u' _ _ _ _ n u (fun p => p) C2 C1 A' A).
    + intros p x P X. split; auto. now apply Ax.
    + intros p x P. apply capacities_here. intros sec. now apply same_sections_here.
Qed.
End ReplacedUtil.

(** ** Combinations *)

Lemma comb_pos k1 k2 rows1 rows2 : map lpos rows1 = map lpos rows2 ->
  map lpos (map (scale_row k1) rows1) = map lpos (map (scale_row k2) rows2).
Proof. intros E. now rewrite !scale_pos. Qed.

Lemma comb_block k1 k2 rows1 rows2 cs x : map lpos rows1 = map lpos rows2 -> rows1 <> [] ->
  map fst (block rows1 cs x) = map fst (block rows2 cs x) /\
  block (add_rows (map (scale_row k1) rows1) (map (scale_row k2) rows2)) cs x =
  combine_results k1 k2 (block rows1 cs x) (block rows2 cs x).
Proof.
  intros E N. assert (N2 : rows2 <> []) by (intros ->; destruct rows1; [congruence|discriminate]).
  assert (N' : map (scale_row k1) rows1 <> []) by (intros X; now apply map_eq_nil in X).
  destruct (add_block rows1 rows2 cs x E N) as (_ & P & _).
  destruct (add_block _ _ cs x (comb_pos k1 k2 rows1 rows2 E) N') as (_ & _ & B).
  split; auto. rewrite B, !scale_block by auto. unfold add_orows, combine_results. clear.
  generalize (block rows1 cs x) (block rows2 cs x). induction l as [|o l IH]; intros [|o' l']; auto.
  cbn. f_equal. apply IH.
Qed.

Lemma combine_results_app k1 k2 x1 x2 y1 y2 : List.length x1 = List.length x2 ->
  combine_results k1 k2 (x1 ++ y1) (x2 ++ y2) = combine_results k1 k2 x1 x2 ++ combine_results k1 k2 y1 y2.
Proof.
  revert x2. induction x1 as [|o x1 IH]; intros [|o' x2] E; try discriminate; auto. cbn in *. f_equal. apply IH. lia.
Qed.

Lemma combine_at k1 k2 p x1 x2 : combine_results k1 k2 (at_position p x1) (at_position p x2) =
  at_position p (combine_results k1 k2 x1 x2).
Proof. revert x2. induction x1 as [|o x1 IH]; intros [|o' x2]; auto. cbn. f_equal. apply IH. Qed.

Section Combined.
Context {Sec : Type}.
Variables (qs : argsort_oracle R) (k1 k2 : R) (c1 c2 c3 : Z) (b : beam_t R Sec) (ls : list R).
Hypothesis Hq : any_argsort qs.
Hypothesis Hb : Forall (combined k1 k2 c1 c2 c3) b.
Hypothesis Hl : has_lengths b ls.

Lemma combined_loaded : loaded b c1 /\ loaded b c2 /\ loaded b c3.
Proof using Hb.
  assert (K : forall rows1 rows2 : list (lrow R), map lpos rows1 = map lpos rows2 -> well_formed rows1 -> well_formed rows2).
  { intros l1 l2 E [S F]. split.
    - revert l2 E. induction S as [|x l S IH Fx]; intros [|y l2] E; try discriminate; constructor.
      + injection E as _ E. apply IH; auto. now apply Forall_inv_tail in F.
      + injection E as E1 E. rewrite Forall_forall in *. intros q Hq0. rewrite <- E1.
        assert (H : In (lpos q) (map lpos l)) by (rewrite E; now apply in_map).
        apply in_map_iff in H. destruct H as (z & <- & Hz). now apply Fx.
    - rewrite Forall_forall in *. intros q Hq0. assert (H : In (lpos q) (map lpos l1)) by (rewrite E; now apply in_map).
      apply in_map_iff in H. destruct H as (z & <- & Hz). now apply F. }
  rewrite Forall_forall in Hb. repeat split; intros e He; destruct (Hb e He) as (r1 & r2 & D1 & D2 & A & N & E & D3).
  - exists r1. auto.
  - exists r2. split; auto. split; [|intros ->; destruct r1; [congruence|discriminate]].
    apply accepted_rows. apply accepted_rows in A. now apply (K r1).
  - eexists. split; [exact D3|]. apply accepted_rows in A. split.
    + apply accepted_rows. apply add_wf; [now apply comb_pos|now apply scale_wf].
    + destruct r1; [congruence|]. destruct r2; discriminate.
Qed.

Lemma combined_positions position mp :
  beam_list_positions b position mp (Some c2) = beam_list_positions b position mp (Some c1) /\
  beam_list_positions b position mp (Some c3) = beam_list_positions b position mp (Some c1).
Proof using Hb.
  split; apply same_list_positions; clear Hl; induction Hb as [|e l (r1 & r2 & D1 & D2 & A & N & E & D3) F IH]; constructor; auto;
    (split; auto; unfold el_load_positions); [rewrite D1, D2|rewrite D1, D3]; cbn [bind load_positions].
  - now rewrite E.
  - now rewrite add_pos, scale_pos by now apply comb_pos.
Qed.

Lemma C139_sum position mp a cs : designates a cs -> cs <> [] ->
  (exists e, beam_get_loads qs b c1 position mp a = Err e /\ beam_get_loads qs b c2 position mp a = Err e /\
     beam_get_loads qs b c3 position mp a = Err e) \/
  (beam_get_loads qs b c1 position mp a = Ok None /\ beam_get_loads qs b c2 position mp a = Ok None /\
     beam_get_loads qs b c3 position mp a = Ok None) \/
  (exists out1 out2, beam_get_loads qs b c1 position mp a = Ok (Some out1) /\
     beam_get_loads qs b c2 position mp a = Ok (Some out2) /\ map fst out1 = map fst out2 /\
     beam_get_loads qs b c3 position mp a = Ok (Some (combine_results k1 k2 out1 out2))).
Proof using Hq Hb Hl.
  intros Hd C. destruct combined_loaded as (L1 & L2 & L3). destruct (combined_positions position mp) as (P2 & P3).
  destruct (beam_list_positions b position mp (Some c1)) as [locs|e] eqn:E.
  2:{ left. exists e. unfold beam_get_loads. now rewrite P2, P3, E. }
  destruct (C21_total qs b ls c1 position mp a cs locs Hq Hl L1 Hd C E) as (bl1 & F1 & ->).
  destruct (C21_total qs b ls c2 position mp a cs locs Hq Hl L2 Hd C P2) as (bl2 & F2 & ->).
  destruct (C21_total qs b ls c3 position mp a cs locs Hq Hl L3 Hd C P3) as (bl3 & F3 & ->).
  right. destruct locs as [|t locs]; [now left|right]. exists (List.concat bl1), (List.concat bl2). split; auto. split; auto.
  assert (G : map fst (List.concat bl1) = map fst (List.concat bl2) /\ List.concat bl3 = combine_results k1 k2 (List.concat bl1) (List.concat bl2)).
  { clear E P2 P3. revert bl1 bl2 bl3 F1 F2 F3.
    induction (t :: locs) as [|[[p z] x] r IH]; intros bl1 bl2 bl3 F1 F2 F3; inversion F1; inversion F2; inversion F3; subst; auto.
    destruct (IH l' l'0 l'1) as [Q1 Q2]; auto.
    destruct H1 as (e1 & o1 & N1 & _ & G1 & ->). destruct H6 as (e2 & o2 & N2 & _ & G2 & ->). destruct H11 as (e3 & o3 & N3 & _ & G3 & ->).
    assert (e2 = e1) by congruence. assert (e3 = e1) by congruence. subst e2 e3.
    assert (He : In e1 b) by (eapply nth_error_In; eauto). rewrite Forall_forall in Hb.
    destruct (Hb e1 He) as (r1 & r2 & D1 & D2 & A & N & Ep & D3).
    assert (R2 : accepted (Some r2) /\ r2 <> []).
    { destruct (L2 e1 He) as (rr & Dr & Ar & Nr). rewrite D2 in Dr. injection Dr as <-. auto. }
    destruct (L3 e1 He) as (r3 & Dr & Ar & Nr). rewrite D3 in Dr. injection Dr as <-.
    rewrite (el_get_loads_block qs e1 c1 x a cs r1) in G1 by auto. rewrite (el_get_loads_block qs e1 c2 x a cs r2) in G2 by tauto.
    rewrite (el_get_loads_block qs e1 c3 x a cs _) in G3 by eauto. injection G1 as <-. injection G2 as <-. injection G3 as <-.
    destruct (comb_block k1 k2 r1 r2 cs x Ep N) as [Pb Bb]. rewrite Bb. cbn [List.concat]. rewrite !map_app, Q2.
    assert (Len : List.length (block r1 cs x) = List.length (block r2 cs x)) by (apply (f_equal (@List.length _)) in Pb; now rewrite !map_length in Pb).
    split.
    - etransitivity; [exact (f_equal (app _) Q1)|]. apply (f_equal (fun l => l ++ _)). unfold at_position. rewrite !map_map. cbn [fst]. clear - Len. revert Len. generalize (block r1 cs x) (block r2 cs x).
      induction l as [|o l IH]; intros [|o' l'] Len; try discriminate; auto. cbn in *. f_equal. apply IH. lia.
    - rewrite combine_results_app, combine_at; auto. unfold at_position. now rewrite !map_length. }
  destruct G as [G1 G2]. split; auto. now rewrite G2.
Qed.
End Combined.

Section CombinedUtil.
Variables (qs : argsort_oracle R) (phi au kt k1 k2 : R) (c1 c2 c3 : Z) (b : beam_t R (section R)) (s : option (section R)).
Variables (a : as4100 R) (ls : list R) (cap : R -> R).
Hypothesis Hq : any_argsort qs.
Hypothesis Hm : make_as4100 phi au kt (Some b) s = Ok a.
Hypothesis Hphi : 0 <= phi.
Hypothesis Hl : has_lengths b ls.
Hypothesis Nb : b <> [].
Hypothesis Hb : Forall (combined k1 k2 c1 c2 c3) b.
Hypothesis Hk1 : 0 <= k1.
Hypothesis Hk2 : 0 <= k2.
Hypothesis Hc : forall p, 0 <= p <= span ls -> phiNt a (PosNum p) = Ok (cap p) /\ 0 < cap p.

Lemma combined_axial p x : 0 <= p <= span ls -> axial qs b c3 p x ->
  exists y z, axial qs b c1 p y /\ axial qs b c2 p z /\ x = k1 * y + k2 * z.
Proof using Hq Hl Nb Hb.
  intros P (rows & q & E & I). destruct (combined_loaded k1 k2 c1 c2 c3 b Hb) as (L1 & L2 & L3).
  destruct (axial_rows qs b ls c1 p Hq Hl Nb L1 P) as (rows1 & _ & E1 & W1).
  destruct (axial_rows qs b ls c2 p Hq Hl Nb L2 P) as (rows2 & _ & E2 & W2).
  destruct (C139_sum qs k1 k2 c1 c2 c3 b ls Hq Hb Hl (PosNum p) None (CStr "N") [N] (d_name N) ltac:(discriminate))
    as [(e & X & _)|[(X & _)|(o1 & o2 & X1 & X2 & _ & X3)]]; try congruence.
  assert (o1 = rows1) by congruence. assert (o2 = rows2) by congruence. subst o1 o2.
  assert (rows = combine_results k1 k2 rows1 rows2) by congruence. subst rows.
  unfold combine_results in I. apply in_map_iff in I. destruct I as ([o1 o2] & Eo & I). cbn [fst snd] in Eo.
  pose proof (in_combine_l _ _ _ _ I) as I1. pose proof (in_combine_r _ _ _ _ I) as I2.
  destruct (W1 o1 I1) as (y & Ey). destruct (W2 o2 I2) as (z & Ez). destruct o1 as [q1 l1], o2 as [q2 l2]. cbn [snd] in Ey, Ez. subst l1 l2.
  exists y, z. split; [exists rows1, q1; auto|]. split; [exists rows2, q2; auto|].
  unfold add_orow, scale_orow in Eo. cbn in Eo. congruence.
Qed.

Lemma max_sum y z : Rmax (k1 * y + k2 * z) 0 <= k1 * Rmax y 0 + k2 * Rmax z 0.
Proof using Hk1 Hk2.
  assert (M : forall t, t <= Rmax t 0 /\ 0 <= Rmax t 0) by (intros t; split; [apply Rmax_l|apply Rmax_r]).
  destruct (M y), (M z). apply Rmax_lub.
  - apply Rplus_le_compat; apply Rmult_le_compat_l; auto.
  - assert (0 <= k1 * Rmax y 0) by now apply Rmult_le_pos. assert (0 <= k2 * Rmax z 0) by now apply Rmult_le_pos. lra.
Qed.

Lemma ratio_sum p y z u1 u2 : 0 < cap p -> Rmax y 0 / cap p <= u1 -> Rmax z 0 / cap p <= u2 ->
  Rmax (k1 * y + k2 * z) 0 / cap p <= k1 * u1 + k2 * u2.
Proof using Hk1 Hk2.
  intros Pc H1 H2. apply Rle_trans with (k1 * (Rmax y 0 / cap p) + k2 * (Rmax z 0 / cap p)).
  - replace (k1 * (Rmax y 0 / cap p) + k2 * (Rmax z 0 / cap p)) with ((k1 * Rmax y 0 + k2 * Rmax z 0) / cap p) by (field; lra).
    apply Rmult_le_compat_r; [apply Rlt_le, Rinv_0_lt_compat; auto|apply max_sum].
  - apply Rplus_le_compat; apply Rmult_le_compat_l; auto.
Qed.

Theorem C139_everywhere n1 n2 n3 u1 u2 u3 : (0 <= n1)%Z -> (0 <= n2)%Z -> (0 <= n3)%Z ->
  tension_utilisation qs (set_assessment_points a n1) (LCInt c1) PosNone = Ok u1 ->
  tension_utilisation qs (set_assessment_points a n2) (LCInt c2) PosNone = Ok u2 ->
  tension_utilisation qs (set_assessment_points a n3) (LCInt c3) PosNone = Ok u3 -> u3 <= k1 * u1 + k2 * u2.
Proof using Hq Hm Hphi Hl Nb Hb Hk1 Hk2 Hc.
  intros P1 P2 P3 U1 U2 U3. destruct (combined_loaded k1 k2 c1 c2 c3 b Hb) as (L1 & L2 & L3).
  destruct (C103_worst qs phi au kt b s a ls cap c1 Hq Hm Hphi Hl Nb L1 Hc n1 u1 P1 U1) as [W1 _].
  destruct (C103_worst qs phi au kt b s a ls cap c2 Hq Hm Hphi Hl Nb L2 Hc n2 u2 P2 U2) as [W2 _].
  destruct (C103_worst qs phi au kt b s a ls cap c3 Hq Hm Hphi Hl Nb L3 Hc n3 u3 P3 U3) as [_ (p & t & P & Ht & ->)].
  apply (tension_axial qs phi au kt b s a ls c3 Hq Hm Hl Nb L3 p t P) in Ht. destruct Ht as (x & Ax & ->).
  destruct (combined_axial p x P Ax) as (y & z & Ay & Az & ->). destruct (Hc p P) as [_ Pc].
  apply ratio_sum; auto.
  - apply W1; auto. apply (tension_axial qs phi au kt b s a ls c1 Hq Hm Hl Nb L1 p _ P). eauto.
  - apply W2; auto. apply (tension_axial qs phi au kt b s a ls c2 Hq Hm Hl Nb L2 p _ P). eauto.
Qed.

Theorem C139_at position ps u1 u2 u3 : requested position ps -> Forall (fun p => 0 <= p <= span ls) ps ->
  tension_utilisation qs a (LCInt c1) position = Ok u1 -> tension_utilisation qs a (LCInt c2) position = Ok u2 ->
  tension_utilisation qs a (LCInt c3) position = Ok u3 -> u3 <= k1 * u1 + k2 * u2.
Proof using Hq Hm Hphi Hl Nb Hb Hk1 Hk2 Hc.
  intros Rq F U1 U2 U3. destruct (combined_loaded k1 k2 c1 c2 c3 b Hb) as (L1 & L2 & L3).
  assert (Sp : Forall (sound_position a ls cap) ps).
  { rewrite Forall_forall in *. intros p Hp. split; [now apply F|apply Hc; now apply F]. }
  destruct (util_iff qs phi au kt b s a ls cap Hq Hm Hl Nb (LCInt c1) [c1] position ps (w_int b c1) (at_given _ _ _ _ _ Rq) (Forall_cons _ L1 (Forall_nil _)) Sp) as (V1 & _).
  destruct (util_iff qs phi au kt b s a ls cap Hq Hm Hl Nb (LCInt c2) [c2] position ps (w_int b c2) (at_given _ _ _ _ _ Rq) (Forall_cons _ L2 (Forall_nil _)) Sp) as (V2 & _).
  destruct (util_iff qs phi au kt b s a ls cap Hq Hm Hl Nb (LCInt c3) [c3] position ps (w_int b c3) (at_given _ _ _ _ _ Rq) (Forall_cons _ L3 (Forall_nil _)) Sp) as (V3 & _).
  apply V1 in U1. apply V2 in U2. apply V3 in U3. destruct U1 as [[_ G1] _]. destruct U2 as [[_ G2] _].
  destruct U3 as [[(c & p & x & Ic & Ip & Ax & ->) _] _]. destruct Ic as [<-|[]]. rewrite Forall_forall in F.
  destruct (combined_axial p x (F p Ip) Ax) as (y & z & Ay & Az & ->). destruct (Hc p (F p Ip)) as [_ Pc].
  apply ratio_sum; auto.
  - apply G1. exists c1, p, y. cbn. auto.
  - apply G2. exists c2, p, z. cbn. auto.
Qed.
End CombinedUtil.
