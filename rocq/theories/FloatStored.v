(** Stored loads are among the reported ones, on doubles. *)

From Coq Require Import ZArith Reals List Bool String Sorted Lia Lra Floats.SpecFloat.
From Verif Require Import Base Num RNum PyNum OrdFacts Numpy LoadCase LoadSpec LoadFacts LoadProofs TableCut Beam BeamSpec BeamFacts BeamPositions BeamFloat
  Material AS4100 AS4100Spec FloatSpec FloatValSpec FloatPlaceSpec FloatUtilSpec FloatStoredSpec FloatRound FloatOps FloatFacts FloatInterp FloatError FloatBeam
  FloatLocs FloatQueries FloatPlaces FloatLoads FloatUtil FloatCheck FloatCapacity FloatDesign FloatEnd.
Import ListNotations.
Open Scope R_scope.

(** ** Lines without jumps *)
Lemma table_pos Y rows : ordinary_table Y rows -> 0 <= Y.
Proof.
  intros (N & F & _). destruct rows as [|r rows]; [now contradiction N|]. rewrite Forall_forall in F.
  destruct (F r (or_introl eq_refl)) as (_ & V). destruct (V VX) as (_ & B). pose proof (Rabs_pos (val (load_of VX r))). lra.
Qed.

Lemma sorted_app {A} (P : A -> A -> Prop) l m : StronglySorted P (l ++ m) -> StronglySorted P m /\ forall x y, In x l -> In y m -> P x y.
Proof.
  induction l as [|a l IH]; cbn [app]; [intros H; split; [exact H|contradiction]|].
  inversion 1 as [|? ? S F]; subst. destruct (IH S) as (I1 & I2). split; auto. rewrite Forall_forall in F.
  intros x y [<-|Hx] Hy; auto. apply F. apply in_or_app. now right.
Qed.

Lemma slope_bound Y g x1 x2 y1 y2 d : 0 < g -> g <= x2 - x1 -> Rabs y1 <= Y -> Rabs y2 <= Y ->
  Rabs ((y2 - y1) / (x2 - x1) * d) <= 2 * Y / g * Rabs d.
Proof.
  intros G W B1 B2. rewrite Rabs_mult. apply Rmult_le_compat_r; [apply Rabs_pos|]. unfold Rdiv. rewrite Rabs_mult.
  assert (0 < x2 - x1) by lra. rewrite (Rabs_right (/ _)) by (apply Rle_ge, Rlt_le, Rinv_0_lt_compat; lra).
  assert (Rabs (y2 - y1) <= 2 * Y).
  { apply Rle_trans with (1 := Rabs_triang _ _). rewrite Rabs_Ropp. lra. }
  apply Rmult_le_compat; [apply Rabs_pos|apply Rlt_le, Rinv_0_lt_compat; lra|lra|]. apply Rinv_le_contravar; lra.
Qed.

Lemma line_near Y g rows k r x y : ordinary_table Y rows -> 0 < g -> spread g rows -> In r rows ->
  exact_load (map exact_row rows) k x y -> Rabs (y - val (load_of k r)) <= 2 * Y / g * Rabs (x - val (lpos r)).
Proof.
  intros T G S Hr E. pose proof (table_pos Y rows T) as Y0. pose proof T as (_ & F & _). rewrite Forall_forall in F.
  assert (B : forall q, In q rows -> Rabs (val (load_of k q)) <= Y) by (intros q Hq; destruct (F q Hq) as (_ & V); apply V).
  pose proof (exact_bound Y rows k x y T E) as By.
  set (d := x - val (lpos r)). assert (Pg : 0 <= 2 * Y / g).
  { apply Rmult_le_pos; [lra|apply Rlt_le, Rinv_0_lt_compat; lra]. }
  destruct (Rle_or_lt g (Rabs d)) as [Far|Near].
  { apply Rle_trans with (2 * Y).
    - apply Rle_trans with (1 := Rabs_triang _ _). rewrite Rabs_Ropp. specialize (B r Hr). lra.
    - apply Rle_trans with (2 * Y / g * g); [right; field; lra|]. apply Rmult_le_compat_l; auto. }
  assert (Z : y = val (load_of k r) -> Rabs (y - val (load_of k r)) <= 2 * Y / g * Rabs d).
  { intros ->. rewrite Rminus_eq_0, Rabs_R0. apply Rmult_le_pos; [exact Pg|apply Rabs_pos]. }
  assert (Nd : - g < d < g) by (apply Rabs_def2 in Near; lra).
  (* rows nearer than g are the same *)
  assert (Same : forall l q m, rows = l ++ q :: m -> Rabs (val (lpos q) - val (lpos r)) < g -> r = q).
  { intros l q m El Hn. apply Rabs_def2 in Hn. unfold spread in S. rewrite El in Hr, S. destruct (sorted_app _ _ _ S) as (S1 & S2).
    apply in_app_or in Hr. destruct Hr as [Hr|[Hr|Hr]]; auto.
    - specialize (S2 r q Hr (or_introl eq_refl)). cbn beta in S2. lra.
    - inversion S1 as [|? ? _ Fm]; subst. rewrite Forall_forall in Fm. specialize (Fm r Hr). cbn beta in Fm. lra. }
  destruct E as [(q' & Hq & Eq & Ey)|(_ & I)].
  - apply in_map_iff in Hq. destruct Hq as (q & <- & Hq). apply in_split in Hq. destruct Hq as (l & m & El).
    cbn [exact_row lpos] in Eq. assert (r = q) as -> by (apply (Same l q m El); rewrite Eq; exact Near).
    apply Z. rewrite <- Ey. apply exact_of.
  - destruct I as [q' rs Em Lx|rs q' Em Lx|l' q1' q2' m' Em L1 L2]; cbn [nltb RNum] in *.
    + destruct rows as [|q rows']; [discriminate|]. cbn [map] in Em. injection Em as <- _. apply Rltb_true in Lx. cbn [exact_row lpos] in Lx.
      assert (r = q) as -> by (destruct Hr as [|Hr]; auto; exfalso; inversion S as [|? ? _ Fm]; subst; rewrite Forall_forall in Fm; specialize (Fm r Hr); cbn beta in Fm; unfold d in Nd; lra).
      apply Z. apply exact_of.
    + assert (X : exists l q, rows = l ++ [q] /\ q' = exact_row q).
      { destruct rows as [|q0 rows'] using rev_ind; [destruct rs; discriminate|]. rewrite map_app in Em. cbn [map] in Em.
        apply app_inj_tail in Em. destruct Em as (_ & <-). eauto. }
      destruct X as (l & q & El & ->). apply Rltb_true in Lx. cbn [exact_row lpos] in Lx.
      assert (r = q) as ->.
      { unfold spread in S. rewrite El in S, Hr. destruct (sorted_app _ _ _ S) as (_ & S2). apply in_app_or in Hr. destruct Hr as [Hr|[|[]]]; auto.
        specialize (S2 r q Hr (or_introl eq_refl)). cbn beta in S2. unfold d in Nd. lra. }
      apply Z. apply exact_of.
    + assert (X : exists l q1 q2 m, rows = l ++ q1 :: q2 :: m /\ q1' = exact_row q1 /\ q2' = exact_row q2).
      { clear - Em. revert l' Em. induction rows as [|q0 rows' IH]; intros l' Em; [destruct l'; discriminate|].
        destruct l' as [|w l']; cbn [map app] in Em.
        - destruct rows' as [|q2 m]; [discriminate|]. cbn [map] in Em. injection Em as <- <- _. exists [], q0, q2, m. auto.
        - injection Em as _ Em. destruct (IH l' Em) as (l & q1 & q2 & m & -> & E1 & E2). exists (q0 :: l), q1, q2, m. auto. }
      destruct X as (l & q1 & q2 & m & El & -> & ->). apply Rltb_true in L1, L2. cbn [exact_row lpos] in L1, L2.
      rewrite !exact_of in *. cbn [nadd nmul ndiv nsub RNum exact_row lpos] in *.
      assert (H1 : In q1 rows /\ In q2 rows) by (rewrite El; split; apply in_or_app; cbn; auto). destruct H1 as (H1 & H2).
      unfold spread in S. rewrite El in S, Hr. destruct (sorted_app _ _ _ S) as (S1 & S2). inversion S1 as [|? ? S3 F1]; subst.
      inversion S3 as [|? ? _ F2]; subst. rewrite Forall_forall in F1, F2. pose proof (F1 q2 (or_introl eq_refl)) as W. cbn beta in W.
      pose proof (B q1 H1) as B1. pose proof (B q2 H2) as B2.
      apply in_app_or in Hr. destruct Hr as [Hr|[Hr|[Hr|Hr]]].
      * specialize (S2 r q1 Hr (or_introl eq_refl)). cbn beta in S2. unfold d in Nd. lra.
      * subst q1. fold d. match goal with |- Rabs (?a + ?c - ?c) <= _ => replace (a + c - c) with a by ring end.
        apply slope_bound; auto. lra.
      * subst q2. unfold d.
        match goal with |- Rabs ((?y2 - ?y1) / (?x2 - ?x1) * (x - ?x1) + ?y1 - ?y2) <= _ =>
          replace ((y2 - y1) / (x2 - x1) * (x - x1) + y1 - y2) with ((y2 - y1) / (x2 - x1) * (x - x2)) by (field; lra) end.
        apply slope_bound; auto. lra.
      * specialize (F2 r Hr). cbn beta in F2. unfold d in Nd. lra.
Qed.

(** Loads anywhere lie between stored ones. *)
Lemma between_stored Y rows k x y : ordinary_table Y rows -> exact_load (map exact_row rows) k x y ->
  (exists r, In r rows /\ y <= val (load_of k r)) /\ (exists r, In r rows /\ val (load_of k r) <= y).
Proof.
  intros T E. pose proof T as (_ & F & _).
  assert (Back : forall q', In q' (map exact_row rows) -> exists q, In q rows /\ load_of k q' = val (load_of k q)).
  { intros q' Hq. apply in_map_iff in Hq. destruct Hq as (q & <- & Hq). exists q. split; [exact Hq|apply exact_of]. }
  destruct E as [(q' & Hq & _ & Ey)|(_ & I)].
  - destruct (Back q' Hq) as (q & Hq' & E). split; exists q; (split; [exact Hq'|]); rewrite <- E, Ey; apply Rle_refl.
  - destruct I as [q' rs Em Lx|rs q' Em Lx|l' q1 q2 m' Em L1 L2]; cbn [nltb RNum] in *.
    + destruct (Back q') as (q & Hq' & E); [rewrite Em; now left|]. split; exists q; (split; [exact Hq'|]); rewrite <- E; apply Rle_refl.
    + destruct (Back q') as (q & Hq' & E); [rewrite Em; apply in_or_app; cbn; auto|]. split; exists q; (split; [exact Hq'|]); rewrite <- E; apply Rle_refl.
    + destruct (Back q1) as (r1 & H1 & E1); [rewrite Em; apply in_or_app; cbn; auto|].
      destruct (Back q2) as (r2 & H2 & E2); [rewrite Em; apply in_or_app; cbn; auto|].
      apply Rltb_true in L1, L2. cbn [nadd nmul ndiv nsub RNum]. rewrite E1, E2.
      set (y1 := val (load_of k r1)) in *. set (y2 := val (load_of k r2)) in *.
      set (t := (x - lpos q1) / (lpos q2 - lpos q1)).
      assert (Ht : 0 <= t <= 1).
      { unfold t. split; [apply Rmult_le_pos; [lra|apply Rlt_le, Rinv_0_lt_compat; lra]|].
        apply (Rmult_le_reg_r (lpos q2 - lpos q1)); [lra|]. unfold Rdiv. rewrite Rmult_assoc, Rinv_l; lra. }
      replace ((y2 - y1) / (lpos q2 - lpos q1) * (x - lpos q1) + y1) with ((y2 - y1) * t + y1) by (unfold t; field; lra).
      destruct (Rle_or_lt y1 y2) as [Q|Q].
      * assert (0 <= (y2 - y1) * t) by (apply Rmult_le_pos; lra).
        assert ((y2 - y1) * t <= (y2 - y1) * 1) by (apply Rmult_le_compat_l; lra).
        split; [exists r2|exists r1]; (split; [assumption|]); fold y1 y2; lra.
      * assert (0 <= (y1 - y2) * t) by (apply Rmult_le_pos; lra).
        assert ((y1 - y2) * t <= (y1 - y2) * 1) by (apply Rmult_le_compat_l; lra).
        split; [exists r1|exists r2]; (split; [assumption|]); fold y1 y2; lra.
Qed.

Section P.
Context {Sec : Type}.

(** ** Places of stored positions *)
Lemma place_near ls i l p x x0 : nth_error ls i = Some l -> 0 < val l ->
  Rabs (val p - (start_of (exact_lengths ls) i + x0 * nth i (exact_lengths ls) 0)) <= INR (i + 4) * powerRZ 2 (-53) * end_of (exact_lengths ls) i + powerRZ 2 (-1074) ->
  place ls i x (val p) -> Rabs (x - x0) <= place_error ls i l.
Proof.
  intros El Pl B Px. unfold place, within in Px. destruct (nth_exact ls i l El) as (Nx & _). rewrite Nx in *.
  unfold place_error. apply (Rmult_le_reg_r (val l)); [exact Pl|]. unfold Rdiv. rewrite Rmult_assoc, Rinv_l, Rmult_1_r by lra.
  rewrite <- (Rabs_right (val l)) at 1 by lra. rewrite <- Rabs_mult.
  set (S := start_of (exact_lengths ls) i) in *. replace ((x - x0) * val l) with ((S + x * val l - val p) + (val p - (S + x0 * val l))) by ring.
  apply Rle_trans with (1 := Rabs_triang _ _). replace (2 * i + 8)%nat with ((i + 4) + (i + 4))%nat by lia. rewrite (plus_INR (i + 4) (i + 4)). lra.
Qed.

Lemma stored_place Y (b : beam_t pynum Sec) ls c n locs i l rows r : ordinary_beam b ls -> ordinary_loads Y b c -> (0 <= n <= 2 ^ 52)%Z ->
  beam_list_positions b PosNone (Some n) (Some c) = Ok locs -> long_element b ls c i l rows -> In r rows ->
  exists p x, In (p, Z.of_nat i, x) locs /\ finite_double p /\ finite_double x /\ extends b i p /\ place ls i (val x) (val p) /\
    Rabs (val p - (start_of (exact_lengths ls) i + val (lpos r) * nth i (exact_lengths ls) 0))
      <= INR (i + 4) * powerRZ 2 (-53) * end_of (exact_lengths ls) i + powerRZ 2 (-1074).
Proof.
  intros O T Hn E (el & Ei & Eli & Pl & Ed) Hr. destruct (ordinary_float b ls O) as (ends & total & H).
  assert (HT : tables_ok b (Some c)).
  { intros e He. destruct (T e He) as (rs & Ed' & Tr). exists rs. split; [exact Ed'|]. split; [apply Tr|]. now apply (ordinary_good Y). }
  destruct (min_points b ls ends total (Some c) n H HT Hn) as (lin & real & pts & _ & Eq & Fq & Cover & _ & Hreal & _).
  rewrite Eq in E. destruct (T el (nth_error_In _ _ Ei)) as (rows' & Ed' & Tr). assert (rows' = rows) as -> by congruence.
  destruct (ordinary_good Y rows Tr) as (_ & Ur). rewrite Forall_forall in Ur. pose proof (Ur r Hr) as Ux.
  assert (Hst : In (lpos r) (stored_points el (Some c))).
  { unfold stored_points. rewrite Ed. now apply in_map. }
  destruct (Hreal i el (lpos r) Ei Hst) as (q & Eq' & Hq). destruct (Cover q (or_intror (or_introl Hq))) as (p & Hp & Epq).
  assert (Hi : (i < List.length b)%nat) by (apply nth_error_Some; congruence).
  destruct (C132_beam_lemma b ls (lpos r) (Z.of_nat i) i O (designated_nat _ _ Hi) Ux) as (q' & Eq2 & Fq' & Bq).
  assert (q' = q) as -> by congruence.
  pose proof H as (F & L & N & E1 & E2 & _).
  destruct (nth_error ends i) as [[s [t|]]|] eqn:En.
  2: { exfalso. destruct (elem_at b ls (Z.of_nat i) i F L (designated_nat _ _ Hi)) as (? & ? & ends' & s' & ? & _ & _ & _ & _ & G4 & G5 & _). rewrite E1 in G4. injection G4 as <-. congruence. }
  2: { exfalso. destruct (elem_at b ls (Z.of_nat i) i F L (designated_nat _ _ Hi)) as (? & ? & ends' & s' & ? & _ & _ & _ & _ & G4 & G5 & _). rewrite E1 in G4. injection G4 as <-. congruence. }
  destruct (C16_double_beam b ls (lpos r) (Z.of_nat i) i ends s t F L (designated_nat _ _ Hi) E1 En Ux) as (q2 & Eq3 & A & B & _).
  assert (q2 = q) as -> by congruence.
  destruct (fb_finite _ _ _ _ _ _ _ H En) as (Ns & Nt & Is & It & _).
  assert (Fs : finite_double s) by (destruct (finite_start s Ns Is) as (f & -> & Ff & _); now apply fin_double).
  assert (Ft : finite_double t) by (destruct (finite_start t Nt It) as (f & -> & Ff & _); now apply fin_double).
  assert (Dp : Forall double pts) by (eapply Forall_impl; [|exact Fq]; tauto).
  rewrite Forall_forall in Fq. destruct (Fq p Hp) as (Dpp & _).
  assert (AB : nleb s p = true /\ nleb p t = true).
  { apply neqb_le in Epq. destruct Epq as [P1 P2]. split; eapply le_trans; eauto. }
  destruct AB as (A' & B').
  assert (Fp : finite_double p) by exact (between_finite p s t Dpp Ns Nt It A' B').
  assert (Vp : val p = val q) by (symmetry; now apply val_eqb).
  destruct (triples_core b ls ends total (Some c) pts locs H Dp E) as (_ & T2 & _).
  destruct (T2 p i s t Hp En A' B') as (x & Hin).
  pose proof (locations_good Y b ls c _ locs O T Dp E) as Gl. rewrite Forall_forall in Gl.
  destruct (Gl _ Hin) as (_ & j & el2 & rows2 & Ej & Eb & Ed2 & Tr2 & Fx & Px). cbn [fst snd] in *. apply Nat2Z.inj in Ej. subst j.
  exists p, x. split; [exact Hin|]. split; [exact Fp|]. split; [exact Fx|]. split; [exists ends, s, t; auto|]. split; [exact Px|].
  rewrite Vp. exact Bq.
Qed.

(** ** Reported loads *)
Lemma exact_some Y rows k x : ordinary_table Y rows -> finite_double x -> exists y, exact_load (map exact_row rows) k (val x) y.
Proof.
  intros T Fx. destruct (ordinary_good Y rows T) as ((Q1 & Q2 & Q3) & _).
  destruct (C02_float_lemma stable_argsort rows [x] (CEnum k) [k] stable_argsort_ok Q1 Q2 Q3) as (at_ps & blocks & (_ & D & D2) & F & _); auto; try discriminate.
  { constructor; [now apply finite_Pok|constructor]. }
  { constructor. }
  destruct (D2 x (or_introl eq_refl)) as (z & Hz & _). destruct (D z Hz) as [<-|[]]. destruct (Forall2_In_l _ _ _ x F Hz) as (blk & Hb & Rb).
  pose proof (table_rows rows Y x [k] blk T Fx Rb) as Tr.
  assert (Ne : exists o, In o blk).
  { destruct Rb as [(r0 & Hr0 & E0)|vs _ _]; [|eexists; now left]. eexists. apply in_map. apply filter_In. split; [exact Hr0|exact E0]. }
  destruct Ne as (o & Ho). rewrite Forall_forall in Tr. destruct (Tr o Ho) as (vs & _ & Gv). inversion Gv as [|? w ? ? (_ & y & Hy & _) _]; subst. eauto.
Qed.

Lemma stored_reported qs Y (b : beam_t pynum Sec) ls c n a k out i l rows g r : any_argsort qs -> ordinary_beam b ls -> ordinary_loads Y b c ->
  (0 <= n <= 2 ^ 52)%Z -> designates a [k] -> beam_get_loads qs b c PosNone (Some n) a = Ok (Some out) ->
  long_element b ls c i l rows -> 0 < g -> spread g rows -> In r rows ->
  exists p v, In (p, [Some v]) out /\ finite_double v /\
    Rabs (val v - val (load_of k r)) <= load_error Y g ls i l.
Proof.
  intros Hq O T Hn Hd E Le G S Hr. unfold beam_get_loads in E.
  destruct (beam_list_positions b PosNone (Some n) (Some c)) as [locs|] eqn:El; [|discriminate]. cbn [bind] in E.
  destruct (stored_place Y b ls c n locs i l rows r O T Hn El Le Hr) as (p & x & Hin & Fp & Fx & _ & Px & Bp).
  destruct Le as (el & Ei & Eli & Pl & Ed). destruct (T el (nth_error_In _ _ Ei)) as (rows' & Ed' & Tr). assert (rows' = rows) as -> by congruence.
  pose proof (place_near ls i l p (val x) (val (lpos r)) Eli Pl Bp Px) as Nx.
  destruct (exact_some Y rows k x Tr Fx) as (y & Hy).
  pose proof (line_near Y g rows k r (val x) y Tr G S Hr Hy) as Ly.
  (* the places *)
  set (ps := map (fun t => fst (fst t)) locs).
  destruct (ordinary_float b ls O) as (ends & total & H).
  assert (HT : tables_ok b (Some c)).
  { intros e He. destruct (T e He) as (rs & Ed2 & Tr2). exists rs. split; [exact Ed2|]. split; [apply Tr2|]. now apply (ordinary_good Y). }
  destruct (min_points b ls ends total (Some c) n H HT Hn) as (lin & real & pts & _ & Eq & Fq & _).
  rewrite Eq in El. assert (Qd : Forall double pts) by (eapply Forall_impl; [|exact Fq]; tauto).
  pose proof (locations_good Y b ls c _ locs O T Qd El) as Gl.
  assert (Gl' : Forall (good_place Y b ls c ps) locs).
  { apply Forall_forall. intros t Ht. rewrite Forall_forall in Gl. destruct (Gl t Ht) as (_ & Q). split; auto.
    unfold ps. now apply (in_map (fun t => fst (fst t))). }
  assert (Dps : Forall double ps).
  { unfold ps. apply Forall_map. eapply Forall_impl; [|exact Gl]. intros t (Ht & _). rewrite Forall_forall in Qd. auto. }
  assert (Hc : [k] <> []) by discriminate.
  destruct (accumulate_keeps qs Y b ls c a [k] ps Hq Hd Hc Dps locs Gl' None out (Forall_nil _) E) as (_ & Kp).
  destruct (Kp p (Z.of_nat i) x Hin) as (el' & rows' & v & G1 & G2 & G3 & G4).
  assert (Hi : (i < List.length b)%nat) by (apply nth_error_Some; congruence).
  rewrite (py_index_ok b _ i (designated_nat _ _ Hi)), Ei in G1. injection G1 as <-. assert (rows' = rows) as -> by congruence.
  destruct (table_load_complete qs rows Y x a k v y Hq Tr Fx Hd G3 Hy) as (q & w & Hw & Fw & Bw).
  exists p, w. split; [exact (G4 _ Hw)|]. split; [exact Fw|].
  replace (val w - val (load_of k r)) with ((val w - y) + (y - val (load_of k r))) by ring.
  apply Rle_trans with (1 := Rabs_triang _ _). unfold load_error. apply Rplus_le_compat; [exact Bw|].
  apply Rle_trans with (1 := Ly). apply Rmult_le_compat_l; [|exact Nx].
  apply Rmult_le_pos; [pose proof (table_pos Y rows Tr); lra|apply Rlt_le, Rinv_0_lt_compat; lra].
Qed.
Lemma extremes_reported qs Y (b : beam_t pynum Sec) ls c n a k out i l rows g x y : any_argsort qs -> ordinary_beam b ls -> ordinary_loads Y b c ->
  (0 <= n <= 2 ^ 52)%Z -> designates a [k] -> beam_get_loads qs b c PosNone (Some n) a = Ok (Some out) ->
  long_element b ls c i l rows -> 0 < g -> spread g rows -> exact_load (map exact_row rows) k x y ->
  (exists p v, In (p, [Some v]) out /\ finite_double v /\ y <= val v + load_error Y g ls i l) /\
  (exists p v, In (p, [Some v]) out /\ finite_double v /\ val v - load_error Y g ls i l <= y).
Proof.
  intros Hq O T Hn Hd E Le G S Hy. pose proof Le as (el & Ei & _ & _ & Ed).
  destruct (T el (nth_error_In _ _ Ei)) as (rows' & Ed' & Tr). assert (rows' = rows) as -> by congruence.
  destruct (between_stored Y rows k x y Tr Hy) as ((r1 & H1 & B1) & (r2 & H2 & B2)). split.
  - destruct (stored_reported qs Y b ls c n a k out i l rows g r1 Hq O T Hn Hd E Le G S H1) as (p & v & Hv & Fv & Bv).
    exists p, v. split; [exact Hv|]. split; [exact Fv|]. apply abs_le in Bv. lra.
  - destruct (stored_reported qs Y b ls c n a k out i l rows g r2 Hq O T Hn Hd E Le G S H2) as (p & v & Hv & Fv & Bv).
    exists p, v. split; [exact Hv|]. split; [exact Fv|]. apply abs_le in Bv. lra.
Qed.
End P.

(** ** Utilisations *)
Lemma locations_finite Y {Sec} (b : beam_t pynum Sec) ls c n locs : ordinary_beam b ls -> ordinary_loads Y b c -> (0 <= n <= 2 ^ 52)%Z ->
  beam_list_positions b PosNone (Some n) (Some c) = Ok locs -> Forall finite_double (map (fun x => fst (fst x)) locs).
Proof.
  intros O T Hn E. destruct (ordinary_float b ls O) as (ends & total & H).
  assert (HT : tables_ok b (Some c)).
  { intros e He. destruct (T e He) as (rs & Ed' & Tr). exists rs. split; [exact Ed'|]. split; [apply Tr|]. now apply (ordinary_good Y). }
  destruct (min_points b ls ends total (Some c) n H HT Hn) as (lin & real & pts & _ & Eq & Fq & _). rewrite Eq in E.
  assert (Dp : Forall double pts) by (eapply Forall_impl; [|exact Fq]; tauto).
  destruct (triples_core b ls ends total (Some c) pts locs H Dp E) as (T1 & _).
  apply Forall_map. apply Forall_forall. intros [[p e] x] Hin. cbn [fst]. destruct (T1 p e x Hin) as (i & s & t & _ & En & A & B & Hp & _).
  destruct (fb_finite _ _ _ _ _ _ _ H En) as (Ns & Nt & Is & It & _). rewrite Forall_forall in Dp.
  exact (between_finite p s t (Dp p Hp) Ns Nt It A B).
Qed.

Lemma C150_lemma qs phi au kt b s a lc c cs locs C ls Y : any_argsort qs -> make_as4100 phi au kt (Some b) s = Ok a ->
  wanted b lc (c :: cs) -> beam_list_positions b PosNone (Some (assessment_points a)) (Some c) = Ok locs ->
  let ps := map (fun x => fst (fst x)) locs in ps <> [] ->
  moderate phi -> moderate kt -> moderate au ->
  (forall p, In p ps -> exists at_p ss, beam_get_section b (PosNum p) None None = Ok (at_p, ss) /\
     least (C p) (bar_capacities kt au ss) /\
     forall x, In x ss -> exists r m fy fu, x = Some (SCircle r (Some m)) /\ min_fy (mk_as r m) = Ok fy /\
       min_fu (mk_as r m) = Ok fu /\ moderate r /\ moderate fy /\ moderate fu) ->
  (forall l p, In l (c :: cs) -> In p ps -> exists rows, beam_get_loads qs b l (PosNum p) None (CStr "N") = Ok (Some rows) /\ rows <> [] /\
     Forall (fun o => exists n, snd o = [Some n] /\ finite_double n /\
       (val n <= 0 \/ powerRZ 2 (-12) <= val n / (val phi * C p) <= powerRZ 2 19)) rows) ->
  ordinary_beam b ls -> (forall l, In l (c :: cs) -> ordinary_loads Y b l) ->
  exists u, tension_utilisation qs a lc PosNone = Ok u /\ finite_double u /\
    forall i l rows g x y, long_element b ls c i l rows -> 0 < g -> spread g rows -> exact_load (map exact_row rows) N x y ->
    exists p, In p ps /\ extends b i p /\
      Rmax y 0 / (val phi * C p) <= val u * (1 + powerRZ 2 (-47)) + load_error Y g ls i l / (val phi * C p).
Proof.
  intros Hq Hm Hw El ps Np Mp Mk Ma Hs Hl O T.
  assert (Tc : ordinary_loads Y b c) by (apply T; now left).
  assert (Hn : (0 <= assessment_points a <= 2 ^ 52)%Z).
  { clear - Hm. unfold make_as4100 in Hm. destruct s; (destruct (mapM _ _) as [ss|]; [|discriminate]); cbn [bind] in Hm;
      pose proof (f_equal (fun r => match r with Ok x => assessment_points x | Err _ => 20%Z end) Hm) as E; cbn in E; rewrite <- E; lia. }
  assert (Fp : Forall finite_double ps) by exact (locations_finite Y b ls c _ locs O Tc Hn El).
  assert (Ha : looked_double b (assessment_points a) PosNone (c :: cs) ps) by (apply ld_first; exact El).
  destruct (C134_lemma qs phi au kt b s a lc (c :: cs) PosNone ps C ls Y Hq Hm Hw Ha ltac:(discriminate) Np Mp Mk Ma Hs Hl O T Fp)
    as (u & Eu & Fu & _ & K).
  exists u. split; [exact Eu|]. split; [exact Fu|]. intros i l rows g x0 y0 Le G S Hy0.
  assert (Hr : exists r, In r rows /\ y0 <= val (lN r)).
  { pose proof Le as (el & Ei & _ & _ & Ed). destruct (Tc el (nth_error_In _ _ Ei)) as (rows' & Ed' & Tr). assert (rows' = rows) as -> by congruence.
    destruct (between_stored Y rows N x0 y0 Tr Hy0) as (Q & _). exact Q. }
  destruct Hr as (r & Hr & Ly0).
  destruct (stored_place Y b ls c _ locs i l rows r O Tc Hn El Le Hr) as (p & x & Hin & Fpp & Fx & Ex & Px & Bp).
  assert (Ip : In p ps) by (unfold ps; apply in_map_iff; exists (p, Z.of_nat i, x); auto).
  exists p. split; [exact Ip|]. split; [exact Ex|].
  destruct (K c p i (or_introl eq_refl) Ip Ex) as (x' & (y & Hy) & B). specialize (B y Hy).
  destruct Le as (el & Ei & Eli & Pl & Ed). destruct Hy as (el' & rows' & Ei' & Ed' & Px' & Hy). assert (el' = el) as -> by congruence.
  assert (rows' = rows) as -> by congruence. destruct (Tc el (nth_error_In _ _ Ei)) as (rows' & Ed2 & Tr). assert (rows' = rows) as -> by congruence.
  pose proof (place_near ls i l p x' (val (lpos r)) Eli Pl Bp Px') as Nx.
  pose proof (line_near Y g rows N r x' y Tr G S Hr Hy) as Ly. cbn [load_of] in Ly.
  assert (Pg : 0 <= 2 * Y / g).
  { apply Rmult_le_pos; [pose proof (table_pos Y rows Tr); lra|apply Rlt_le, Rinv_0_lt_compat; lra]. }
  assert (Ly' : Rabs (val (lN r) - y) <= 2 * Y / g * place_error ls i l).
  { rewrite Rabs_minus_sym. apply Rle_trans with (1 := Ly). now apply Rmult_le_compat_l. }
  assert (Pp : 0 < val phi * C p).
  { destruct (Hs p Ip) as (at_p & ss & Es & Lc & Hx).
    destruct (phiNt_range phi au kt (Some b) s a (PosNum p) ss (C p) Hm) as (n & En & _ & _ & Cn & _); auto.
    - apply as_given with at_p; [discriminate|exact Es].
    - apply Rlt_le_trans with (2 := Cn). apply bp_pos. }
  pose proof (ratio_close (val (lN r)) y _ _ Pp Ly') as R1. apply abs_le in R1. unfold load_error.
  replace ((powerRZ 2 (-49) * Y + powerRZ 2 (-1073) + 2 * Y / g * place_error ls i l) / (val phi * C p))
    with ((powerRZ 2 (-49) * Y + powerRZ 2 (-1073)) / (val phi * C p) + 2 * Y / g * place_error ls i l / (val phi * C p))
    by (field; repeat split; try lra; intros Z0; rewrite Z0 in Pp; lra).
  assert (R2 : Rmax y0 0 / (val phi * C p) <= Rmax (val (lN r)) 0 / (val phi * C p)).
  { apply Rmult_le_compat_r; [apply Rlt_le, Rinv_0_lt_compat; exact Pp|]. now apply Rle_max_compat_r. }
  lra.
Qed.
