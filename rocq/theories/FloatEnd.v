(** All stored loads are reported, and utilisations against the stored loads, on doubles. *)

From Coq Require Import ZArith Reals Lra Lia Bool List Sorted String Floats.SpecFloat.
From Verif Require Import Base Num RNum PyNum OrdFacts Numpy LoadCase LoadSpec LoadFacts LoadProofs TableCut Beam BeamSpec BeamFacts BeamPositions BeamFloat
  Material AS4100 AS4100Spec FloatSpec FloatValSpec FloatPlaceSpec FloatUtilSpec FloatRound FloatOps FloatFacts FloatInterp FloatError FloatBeam
  FloatLocs FloatQueries FloatPlaces FloatLoads FloatUtil FloatCheck FloatCapacity FloatDesign.
Import ListNotations.
Open Scope R_scope.

Lemma exact_wf Y rows : ordinary_table Y rows -> well_formed (map exact_row rows).
Proof.
  intros (N & F & S & _). rewrite Forall_forall in F. split.
  - clear N. induction S as [|r rows S IH H]; cbn [map]; [constructor|]. constructor.
    + apply IH. intros q Hq. apply F. now right.
    + apply Forall_map. rewrite Forall_forall in H. apply Forall_forall. intros q Hq. cbn [exact_row lpos].
      apply val_leb; [apply (F r); now left|apply (F q); now right|now apply H].
  - apply Forall_map. apply Forall_forall. intros r Hr. cbn [exact_row lpos]. destruct (F r Hr) as (U & _).
    destruct (unit_fin _ U) as (f & -> & _ & B). now rewrite val_sfR.
Qed.

Lemma exact_bound Y rows c x y : ordinary_table Y rows -> exact_load (map exact_row rows) c x y -> Rabs y <= Y.
Proof.
  intros (N & F & _) H. rewrite Forall_forall in F.
  assert (B : forall r, In r (map exact_row rows) -> - Y <= load_of c r <= Y).
  { intros r Hr. apply in_map_iff in Hr. destruct Hr as (q & <- & Hq). rewrite exact_of. destruct (F q Hq) as (_ & V).
    destruct (V c) as (_ & K). pose proof (Rle_abs (val (load_of c q))). pose proof (Rle_abs (- val (load_of c q))).
    rewrite Rabs_Ropp in *. lra. }
  apply Rabs_le. destruct H as [(r & Hr & _ & <-)|(_ & H)]; [now apply B|].
  apply interpolates_enclosed in H. destruct H as ((r & Hr & A) & (q & Hq & A')). pose proof (B r Hr). pose proof (B q Hq). lra.
Qed.

Lemma table_complete rows Y x c out y : ordinary_table Y rows -> finite_double x -> rows_at rows [c] x out ->
  exact_load (map exact_row rows) c (val x) y ->
  exists q v, In (q, [Some v]) out /\ finite_double v /\ Rabs (val v - y) <= powerRZ 2 (-49) * Y + powerRZ 2 (-1073).
Proof.
  intros T Fx H Hy. pose proof T as (N & F & S & G & BY). rewrite Forall_forall in F.
  destruct H as [(r0 & Hr0 & E0)|vs Hn F2].
  - destruct Hy as [(r & Hr & Px & <-)|(Hn & _)].
    + apply in_map_iff in Hr. destruct Hr as (q & <- & Hq). destruct (F q Hq) as (U & V). destruct (V c) as (D & B).
      exists (lpos q), (load_of c q). split; [|split; [exact D|]].
      * apply in_map_iff. exists q. split; [reflexivity|]. apply filter_In. split; auto. apply val_eqb; auto. apply U.
      * rewrite exact_of, Rminus_eq_0, Rabs_R0. apply bound_pos. pose proof (Rabs_pos (val (load_of c q))). lra.
    + exfalso. apply (Hn (exact_row r0)); [now apply in_map|]. cbn [exact_row lpos]. apply val_eqb in E0; auto. apply (F r0 Hr0).
  - inversion F2 as [|? v ? ? Hv F2']; subst. inversion F2'; subst.
    destruct (table_value rows Y x c T Fx Hn v Hv) as (Fv & y' & Hy' & B).
    assert (Hx : forall r, In r (map exact_row rows) -> lpos r <> val x).
    { intros r Hr. apply in_map_iff in Hr. destruct Hr as (r' & <- & Hr). cbn [exact_row lpos]. intros E.
      apply val_eqb in E; auto; [|apply (F r' Hr)]. rewrite Hn in E by auto. discriminate. }
    assert (Q : forall z, exact_load (map exact_row rows) c (val x) z -> z = interp_val (map exact_row rows) (val x) c).
    { intros z [(r & Hr & Px & _)|(_ & I)]; [now contradiction (Hx r Hr)|].
      pose proof (exact_wf Y rows T) as W. apply interpolates_val; auto. apply W. }
    rewrite (Q y Hy), <- (Q y' Hy'). exists x, v. split; [now left|]. auto.
Qed.

Lemma table_load_complete qs rows Y x a c out y : any_argsort qs -> ordinary_table Y rows -> finite_double x ->
  designates a [c] -> get_load qs (Some rows) (PosNum x) None a = Ok (Some out) ->
  exact_load (map exact_row rows) c (val x) y ->
  exists q v, In (q, [Some v]) out /\ finite_double v /\ Rabs (val v - y) <= powerRZ 2 (-49) * Y + powerRZ 2 (-1073).
Proof.
  intros Hq T Fx Hd E Hy. destruct (ordinary_good Y rows T) as ((H1 & H2 & H3) & _).
  destruct (C02_float_lemma qs rows [x] a [c] Hq H1 H2 H3) as (at_ps & blocks & (_ & D & D2) & F & E'); auto; try discriminate.
  { constructor; [now apply finite_Pok|constructor]. }
  assert (Ex : get_load qs (Some rows) (PosList [x]) None a = get_load qs (Some rows) (PosNum x) None a).
  { unfold get_load, list_positions. destruct Fx as ((f & -> & _) & _). reflexivity. }
  rewrite Ex, E in E'. injection E' as ->. destruct (D2 x (or_introl eq_refl)) as (z & Hz & _).
  destruct (D z Hz) as [<-|[]]. destruct (Forall2_In_l _ _ _ x F Hz) as (blk & Hb & Rb).
  destruct (table_complete rows Y x c blk y T Fx Rb Hy) as (q & v & Hv & B). exists q, v. split; auto.
  apply in_concat. eauto.
Qed.

Section P.
Context {Sec : Type}.

(** Every row of every place is reported. *)
Lemma accumulate_keeps qs Y (b : beam_t pynum Sec) ls c a cs ps : any_argsort qs -> designates a cs -> cs <> [] -> Forall double ps ->
  forall locs, Forall (good_place Y b ls c ps) locs -> forall acc out,
  Forall (traced Y b ls c cs ps) (match acc with None => [] | Some x => x end) ->
  accumulate qs b c a acc locs = Ok (Some out) ->
  (forall o, In o (match acc with None => [] | Some x => x end) -> In o out) /\
  (forall p e x, In (p, e, x) locs -> exists el rows v, py_index b e = Ok el /\ dict_get c (eloads el) = Ok (Some rows) /\
     get_load qs (Some rows) (PosNum x) None a = Ok (Some v) /\ forall o, In o v -> In (p, snd o) out).
Proof.
  intros Hq Hd Hc D. induction 1 as [|[[p e] x] locs (Hp & i & el & rows & He & Ei & Ed & T & Fx & Pl) Hl IH];
    intros acc out Ha E; cbn [accumulate] in E.
  - apply Ok_same in E. destruct acc as [z|]; [injection E as ->|discriminate]. split; [auto|contradiction].
  - cbn [fst snd] in *. subst e.
    assert (Hi : (i < List.length b)%nat) by (apply nth_error_Some; congruence).
    assert (Ex : py_index b (Z.of_nat i) = Ok el) by (rewrite (py_index_ok b _ i (designated_nat _ _ Hi)), Ei; reflexivity).
    rewrite Ex in E. cbn [bind] in E.
    unfold el_get_loads in E. rewrite Ed in E. cbn [bind] in E.
    destruct (get_load qs (Some rows) (PosNum x) None a) as [[v|]|] eqn:G; try discriminate. cbn [bind] in E. cbv zeta in E.
    pose proof (table_load qs rows Y x a cs v Hq T Fx Hd Hc G) as Tl.
    assert (W : Forall (traced Y b ls c cs ps) (set_position p v) /\ set_position p v = map (fun o => (p, snd o)) v).
    { assert (Q : v = [] \/ (existsb row_has_none v = false /\ existsb row_has_float v = true)).
      { destruct v as [|o v]; [now left|right]. rewrite Forall_forall in Tl. split.
        - destruct (existsb row_has_none (o :: v)) eqn:Q; auto. apply existsb_exists in Q. destruct Q as (o' & Ho' & Q).
          destruct (Tl o' Ho') as (vs & Es & _). unfold row_has_none in Q. rewrite Es in Q. apply existsb_exists in Q.
          destruct Q as (z & Hz & Q). apply in_map_iff in Hz. destruct Hz as (z' & <- & _). discriminate.
        - apply existsb_exists. exists o. split; [now left|]. destruct (Tl o (or_introl eq_refl)) as (vs & Es & Gv). unfold row_has_float. rewrite Es.
          apply orb_true_iff. right. destruct Gv as [|k w ? ? (((f & -> & _) & _) & _) _]; [now contradiction Hc|]. reflexivity. }
      assert (Sp : set_position p v = map (fun o => (p, snd o)) v).
      { unfold set_position. destruct Q as [->|(-> & ->)]; [reflexivity|]. rewrite Forall_forall in D. destruct (D p Hp) as (f & -> & _). reflexivity. }
      split; [|exact Sp]. rewrite Sp. apply Forall_map. eapply Forall_impl; [|exact Tl]. intros o (vs & Es & Gv).
      split; [exact Hp|]. exists i, el, rows, x, vs. cbn [fst snd]. auto 6. }
    destruct W as (W & Sp).
    assert (K : exists s', accumulate qs b c a (Some s') locs = Ok (Some out) /\ Forall (traced Y b ls c cs ps) s' /\
              (forall o, In o (match acc with None => [] | Some z => z end) \/ In o (set_position p v) -> In o s')).
    { destruct acc as [s|].
      - destruct (vstack s (set_position p v)) as [s'|] eqn:V; [|discriminate]. cbn [bind] in E.
        assert (W2 : Forall (traced Y b ls c cs ps) (s ++ set_position p v)) by (apply Forall_app; auto).
        apply (stack_same Y b ls c cs ps) in V; auto. subst s'. eexists. split; [exact E|]. split; [exact W2|].
        intros o Ho. now apply in_or_app.
      - cbn [bind] in E. eexists. split; [exact E|]. split; [exact W|]. intros o [[]|Ho]; auto. }
    destruct K as (s' & E' & W2 & Sub). destruct (IH (Some s') out W2 E') as (I1 & I2). split.
    + intros o Ho. apply I1. apply Sub. now left.
    + intros q f z [Q|Q]; [|now apply I2]. injection Q as <- <- <-. exists el, rows, v. split; [exact Ex|]. split; [exact Ed|].
      split; [exact G|]. intros o Ho. apply I1, Sub. right. rewrite Sp. apply in_map_iff. exists o. auto.
Qed.

Lemma C133_all_lemma qs Y (b : beam_t pynum Sec) ls c p a k out i : any_argsort qs ->
  ordinary_beam b ls -> ordinary_loads Y b c -> finite_double p -> designates a [k] ->
  beam_get_loads qs b c (PosNum p) None a = Ok (Some out) -> extends b i p ->
  exists x, finite_double x /\ (exists y, load_there b ls c k p i (val x) y) /\
    forall y, load_there b ls c k p i (val x) y ->
    exists v, In (p, [Some v]) out /\ finite_double v /\ Rabs (val v - y) <= powerRZ 2 (-49) * Y + powerRZ 2 (-1073).
Proof.
  intros Hq O T Fp Hd E (ends' & s & t & Ee & En & A & B). unfold beam_get_loads in E.
  destruct (beam_list_positions b (PosNum p) None (Some c)) as [locs|] eqn:El; [|discriminate]. cbn [bind] in E.
  assert (K : locations b (Some c) [p] = Ok locs).
  { cbn [beam_list_positions] in El. destruct (nisfloat p); [|discriminate].
    destruct (check_on_beam b [p]) as [[]|]; [|discriminate]. exact El. }
  assert (Qd : Forall double [p]) by (constructor; [apply Fp|constructor]).
  destruct (ordinary_float b ls O) as (ends & total & H). pose proof H as (_ & _ & _ & E1 & _). rewrite Ee in E1. injection E1 as ->.
  destruct (triples_core b ls ends total (Some c) [p] locs H Qd K) as (_ & T2 & _).
  destruct (T2 p i s t (or_introl eq_refl) En A B) as (x & Hin).
  pose proof (locations_good Y b ls c _ locs O T Qd K) as Gl.
  assert (Hc : [k] <> []) by discriminate.
  destruct (accumulate_keeps qs Y b ls c a [k] [p] Hq Hd Hc Qd locs Gl None out (Forall_nil _) E) as (_ & Kp).
  rewrite Forall_forall in Gl. destruct (Gl _ Hin) as (_ & j & el & rows & Ej & Eb & Ed & Tr & Fx & Pl). cbn [fst snd] in *.
  apply Nat2Z.inj in Ej. subst j. destruct (Kp p (Z.of_nat i) x Hin) as (el' & rows' & v & G1 & G2 & G3 & G4).
  assert (Hi : (i < List.length b)%nat) by (apply nth_error_Some; congruence).
  rewrite (py_index_ok b _ i (designated_nat _ _ Hi)), Eb in G1. injection G1 as <-.
  assert (rows' = rows) as -> by congruence.
  exists x. split; [exact Fx|]. split.
  - destruct (ordinary_good Y rows Tr) as ((Q1 & Q2 & Q3) & _).
    assert (Ne : exists o, In o v).
    { destruct (good_local qs rows x a [k] Hq (conj Q1 (conj Q2 Q3)) (finite_Pok x Fx) Hd Hc) as (v' & Ev & _).
      assert (v' = v) as -> by congruence.
      rewrite (get_load_num (ok := Pok) qs rows x a [k]) in G3; auto using designates_components.
      - injection G3 as <-. unfold block. destruct (py_in x (map lpos rows)) eqn:P; [|eexists; now left].
        apply py_in_iff in P. destruct P as (z & Hz & Q). apply in_map_iff in Hz. destruct Hz as (r & <- & Hr).
        exists (pick [k] r). apply in_map. apply filter_In. split; auto. rewrite <- Q.
        cbn [neqb PNum]. unfold py_eqb. apply andb_comm.
      - split; auto.
      - now apply finite_Pok. }
    destruct Ne as (o & Ho). pose proof (table_load qs rows Y x a [k] v Hq Tr Fx Hd Hc G3) as Tl. rewrite Forall_forall in Tl.
    destruct (Tl o Ho) as (vs & _ & Gv). inversion Gv as [|? w ? ? (_ & y & Hy & _) _]; subst. exists y, el, rows. auto.
  - intros y (el2 & rows2 & Eb2 & Ed2 & _ & Hy). assert (el2 = el) as -> by congruence. assert (rows2 = rows) as -> by congruence.
    destruct (table_load_complete qs rows Y x a k v y Hq Tr Fx Hd G3 Hy) as (q & w & Hw & Bw). exists w. split; [|exact Bw].
    exact (G4 _ Hw).
Qed.
End P.

Lemma n_designates : designates (CStr "N") [N].
Proof. apply (d_name N). Qed.

Lemma ratio_close a y D e : 0 < D -> Rabs (a - y) <= e -> Rabs (Rmax a 0 / D - Rmax y 0 / D) <= e / D.
Proof.
  intros P H. replace (Rmax a 0 / D - Rmax y 0 / D) with ((Rmax a 0 - Rmax y 0) * / D) by (unfold Rdiv; ring).
  rewrite Rabs_mult, (Rabs_right (/ D)) by (apply Rle_ge, Rlt_le, Rinv_0_lt_compat; exact P).
  apply Rmult_le_compat_r; [apply Rlt_le, Rinv_0_lt_compat; exact P|]. apply Rle_trans with (2 := H).
  apply Rabs_le. pose proof (Rle_abs (a - y)). pose proof (Rle_abs (- (a - y))). rewrite Rabs_Ropp in *.
  unfold Rmax. destruct (Rle_dec a 0), (Rle_dec y 0); lra.
Qed.

Lemma C134_lemma qs phi au kt b s a lc cs position ps C ls Y : any_argsort qs -> make_as4100 phi au kt (Some b) s = Ok a ->
  wanted b lc cs -> looked_double b (assessment_points a) position cs ps -> cs <> [] -> ps <> [] ->
  moderate phi -> moderate kt -> moderate au ->
  (forall p, In p ps -> exists at_p ss, beam_get_section b (PosNum p) None None = Ok (at_p, ss) /\
     least (C p) (bar_capacities kt au ss) /\
     forall x, In x ss -> exists r m fy fu, x = Some (SCircle r (Some m)) /\ min_fy (mk_as r m) = Ok fy /\
       min_fu (mk_as r m) = Ok fu /\ moderate r /\ moderate fy /\ moderate fu) ->
  (forall l p, In l cs -> In p ps -> exists rows, beam_get_loads qs b l (PosNum p) None (CStr "N") = Ok (Some rows) /\ rows <> [] /\
     Forall (fun o => exists n, snd o = [Some n] /\ finite_double n /\
       (val n <= 0 \/ powerRZ 2 (-12) <= val n / (val phi * C p) <= powerRZ 2 19)) rows) ->
  ordinary_beam b ls -> (forall l, In l cs -> ordinary_loads Y b l) -> Forall finite_double ps ->
  exists u, tension_utilisation qs a lc position = Ok u /\ finite_double u /\
    (exists l p i x y, In l cs /\ In p ps /\ load_there b ls l N p i x y /\
       Rabs (val u - Rmax y 0 / (val phi * C p)) <= (powerRZ 2 (-47) * Y + powerRZ 2 (-1072)) / (val phi * C p)) /\
    (forall l p i, In l cs -> In p ps -> extends b i p -> exists x, (exists y, load_there b ls l N p i x y) /\
       forall y, load_there b ls l N p i x y ->
       Rmax y 0 / (val phi * C p) <= val u * (1 + powerRZ 2 (-47)) + (powerRZ 2 (-49) * Y + powerRZ 2 (-1073)) / (val phi * C p)).
Proof.
  intros Hq Hm Hw Ha Nc Np Mp Mk Ma Hs Hl O T Fp. rewrite Forall_forall in Fp.
  destruct (util_exact qs phi au kt b s a lc cs position ps C Hm Hw Ha Nc Np Mp Mk Ma Hs Hl) as (u & g & Eu & Fu & (Gg & Mg) & B).
  assert (Pc : forall p, In p ps -> 0 < val phi * C p).
  { intros p Ip. destruct (Hs p Ip) as (at_p & ss & Es & Lc & Hx).
    destruct (phiNt_range phi au kt (Some b) s a (PosNum p) ss (C p) Hm) as (n & En & _ & _ & Cn & _); auto.
    - apply as_given with at_p; [discriminate|exact Es].
    - apply Rlt_le_trans with (2 := Cn). apply bp_pos. }
  assert (E48 : powerRZ 2 (-48) = 32 * u53).
  { pose proof rel49 as E49. pose proof (bp_double (-49)) as E50. change (-49 + 1)%Z with (-48)%Z in E50.
    change (powerRZ 2 (-49)) with (bp (-49)) in E49. change (powerRZ 2 (-48)) with (bp (-48)). lra. }
  assert (E49 : powerRZ 2 (-49) = 16 * u53).
  { pose proof (bp_double (-49)) as E50. change (-49 + 1)%Z with (-48)%Z in E50. unfold bp in E50. lra. }
  assert (E47 : powerRZ 2 (-47) = 64 * u53).
  { pose proof (bp_double (-48)) as E50. change (-48 + 1)%Z with (-47)%Z in E50. unfold bp in E50. lra. }
  assert (E72 : powerRZ 2 (-1072) = 2 * powerRZ 2 (-1073)).
  { pose proof (bp_double (-1073)) as E50. change (-1073 + 1)%Z with (-1072)%Z in E50. unfold bp in E50. lra. }
  pose proof u53_small as U. pose proof (bp_pos (-1073)) as Pt. unfold bp in Pt.
  exists u. split; [exact Eu|]. split; [exact Fu|]. split.
  - destruct Gg as (l & p & n & Il & Ip & (rows & q & Er & Hin) & Eg). pose proof (Pc p Ip) as Pp. set (D := val phi * C p) in *.
    pose proof (C133_lemma qs Y b ls l (PosNum p) [p] (CStr "N") [N] rows Hq O (T l Il) (a_num p)) as K.
    specialize (K (Forall_cons _ (Fp p Ip) (Forall_nil _)) n_designates ltac:(discriminate) Er). rewrite Forall_forall in K.
    destruct (K _ Hin) as (Iq & i & el & rws & x & vs & Ei & Ed & Pl & Es & Gv). cbn [fst snd] in *. destruct Iq as [<-|[]].
    destruct vs as [|v vs]; [discriminate|]. injection Es as En Es. subst v. inversion Gv as [|? ? ? ? (Fv & y & Hy & Bv) _]; subst.
    exists l, p, i, (val x), y. split; [exact Il|]. split; [exact Ip|]. split; [exists el, rws; auto|]. fold D.
    destruct (T l Il el (nth_error_In _ _ Ei)) as (rws' & Ed' & Tr). assert (rws' = rws) as -> by congruence.
    pose proof (exact_bound Y rws N (val x) y Tr Hy) as By.
    assert (0 <= Y) by (pose proof (Rabs_pos y); lra).
    set (e := powerRZ 2 (-49) * Y + powerRZ 2 (-1073)) in *.
    pose proof (ratio_close (val n) y D e Pp Bv) as R1.
    assert (G1 : 0 <= Rmax (val n) 0 / D <= (Y + e) / D).
    { unfold Rdiv. assert (0 < / D) by (apply Rinv_0_lt_compat; exact Pp). split.
      - apply Rmult_le_pos; [apply Rmax_r|lra].
      - apply Rmult_le_compat_r; [lra|]. apply Rmax_lub.
        + pose proof (Rle_abs (val n - y)). pose proof (Rle_abs y). lra.
        + unfold e. pose proof (bound_pos Y). lra. }
    replace (val u - Rmax y 0 / D) with ((val u - Rmax (val n) 0 / D) + (Rmax (val n) 0 / D - Rmax y 0 / D)) by ring.
    apply Rle_trans with (1 := Rabs_triang _ _).
    apply Rle_trans with (powerRZ 2 (-48) * ((Y + e) / D) + e / D).
    { apply Rplus_le_compat; [|exact R1]. apply Rle_trans with (1 := B). apply Rmult_le_compat_l; [|apply G1]. lra. }
    replace (powerRZ 2 (-48) * ((Y + e) / D) + e / D) with ((powerRZ 2 (-48) * (Y + e) + e) / D) by (unfold Rdiv; ring).
    apply Rmult_le_compat_r; [apply Rlt_le, Rinv_0_lt_compat; exact Pp|]. unfold e. rewrite E48, E49, E47, E72.
    assert (0 <= u53 * Y) by (apply Rmult_le_pos; lra). set (w := u53 * Y) in *.
    replace (32 * u53 * (Y + (16 * u53 * Y + powerRZ 2 (-1073)))) with (32 * w + 32 * u53 * (16 * w + powerRZ 2 (-1073))) by (unfold w; ring).
    assert (32 * u53 * (16 * w + powerRZ 2 (-1073)) <= 1 / 2 * (16 * w + powerRZ 2 (-1073))) by (apply Rmult_le_compat_r; lra).
    replace (64 * u53 * Y) with (64 * w) by (unfold w; ring). replace (16 * u53 * Y) with (16 * w) by (unfold w; ring). lra.
  - intros l p i Il Ip X. pose proof (Pc p Ip) as Pp. destruct (Hl l p Il Ip) as (rows & Er & _ & W).
    destruct (C133_all_lemma qs Y b ls l p (CStr "N") N rows i Hq O (T l Il) (Fp p Ip) n_designates Er X) as (x & _ & Hy & K).
    exists (val x). split; [exact Hy|]. intros y Ly. destruct (K y Ly) as (v & Iv & Fv & Bv).
    assert (L : Rmax (val v) 0 / (val phi * C p) <= g).
    { apply Mg. exists l, p, v. split; [exact Il|]. split; [exact Ip|]. split; [exists rows, p; auto|reflexivity]. }
    pose proof (ratio_close (val v) y _ _ Pp Bv) as R1. apply abs_le in R1. apply abs_le in B.
    set (e := _ / (val phi * C p)) in *.
    assert (P0 : 0 <= g).
    { apply Rle_trans with (2 := L). apply Rmult_le_pos; [apply Rmax_r|apply Rlt_le, Rinv_0_lt_compat; exact Pp]. }
    rewrite E48 in B. rewrite E47.
    assert (g <= val u * (1 + 64 * u53)).
    { apply Rle_trans with (g * (1 - 32 * u53) * (1 + 64 * u53)); [|apply Rmult_le_compat_r; lra].
      replace (g * (1 - 32 * u53) * (1 + 64 * u53)) with (g * (1 + u53 * (32 - 2048 * u53))) by ring.
      rewrite <- (Rmult_1_r g) at 1. apply Rmult_le_compat_l; [exact P0|].
      assert (0 <= u53 * (32 - 2048 * u53)) by (apply Rmult_le_pos; lra). lra. }
    lra.
Qed.
