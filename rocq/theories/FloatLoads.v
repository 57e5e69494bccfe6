(** How far the loads reported along a beam, computed on doubles, are from the exact ones. *)

From Coq Require Import ZArith Reals Lra Lia Bool List Sorted Floats.SpecFloat.
From Verif Require Import Base Num RNum PyNum OrdFacts Numpy LoadCase LoadSpec LoadFacts LoadProofs Beam BeamSpec BeamFacts BeamFloat
  FloatSpec FloatValSpec FloatPlaceSpec FloatRound FloatOps FloatFacts FloatInterp FloatError FloatBeam FloatLocs FloatQueries
  FloatPlaces.
Import ListNotations.
Open Scope R_scope.

(** ** One table *)

Lemma exact_of c r : load_of c (exact_row r) = val (load_of c r).
Proof. now destruct c. Qed.

Lemma val_leb x y : finite_double x -> finite_double y -> nleb x y = true <-> val x <= val y.
Proof.
  intros Hx Hy. apply finite_double_fin in Hx, Hy. destruct Hx as (f & -> & F), Hy as (g & -> & G).
  rewrite !val_sfR. now apply fle_R.
Qed.
Lemma val_lt x y : finite_double x -> finite_double y -> nltb x y = true <-> val x < val y.
Proof.
  intros Hx Hy. pose proof (val_leb x y Hx Hy) as A. pose proof (val_leb y x Hy Hx) as B.
  cbn [nltb nleb PNum] in *. unfold py_ltb. rewrite andb_true_iff, A, negb_true_iff. split.
  - intros (L & H). destruct (Rle_lt_dec (val y) (val x)) as [Q|]; auto. apply B in Q. congruence.
  - intros L. split; [lra|]. destruct (py_leb y x); auto. pose proof (proj1 B eq_refl). lra.
Qed.
Lemma val_eqb x y : finite_double x -> finite_double y -> neqb x y = true <-> val x = val y.
Proof.
  intros Hx Hy. pose proof (val_leb x y Hx Hy) as A. pose proof (val_leb y x Hy Hx) as B.
  cbn [neqb nleb PNum] in *. unfold py_eqb. rewrite andb_true_iff, A, B. split; lra.
Qed.

Lemma bound_pos Y : 0 <= Y -> 0 <= powerRZ 2 (-49) * Y + powerRZ 2 (-1073).
Proof.
  intros H. fold (bp (-49)) (bp (-1073)). pose proof (bp_pos (-49)). pose proof (bp_pos (-1073)).
  assert (0 <= bp (-49) * Y) by (apply Rmult_le_pos; lra). lra.
Qed.

Lemma table_value rows Y x c : ordinary_table Y rows -> finite_double x ->
  (forall r, In r rows -> neqb (lpos r) x = false) -> forall v, interpolates rows c x v ->
  finite_double v /\ exists y, exact_load (map exact_row rows) c (val x) y /\
    Rabs (val v - y) <= powerRZ 2 (-49) * Y + powerRZ 2 (-1073).
Proof.
  intros (N & F & S & G & BY) Fx Hn v Hv. rewrite Forall_forall in F.
  assert (Y0 : 0 <= Y).
  { destruct rows as [|r rows]; [now contradiction N|]. destruct (F r (or_introl eq_refl)) as (_ & H). destruct (H VX) as (_ & B).
    pose proof (Rabs_pos (val (load_of VX r))). lra. }
  assert (Un : forall r, In r rows -> finite_double (lpos r)) by (intros r Hr; apply F; auto).
  assert (Hx : forall r, In r (map exact_row rows) -> lpos r <> val x).
  { intros r Hr. apply in_map_iff in Hr. destruct Hr as (r' & <- & Hr). cbn [exact_row lpos]. intros E.
    apply val_eqb in E; auto. rewrite Hn in E by auto. discriminate. }
  destruct Hv as [r rs E L|rs r E L|l r1 r2 l' E L1 L2].
  - assert (Hr : In r rows) by (rewrite E; now left). destruct (F r Hr) as (_ & H). destruct (H c) as (Fc & _).
    split; [exact Fc|]. exists (val (load_of c r)). split.
    + right. split; [exact Hx|]. rewrite <- exact_of. apply (before_first _ c (val x) (exact_row r) (map exact_row rs)).
      * rewrite E. reflexivity.
      * apply val_lt in L; auto. cbn [nltb RNum exact_row lpos]. now apply Rltb_true.
    + rewrite Rminus_eq_0, Rabs_R0. now apply bound_pos.
  - assert (Hr : In r rows) by (rewrite E; apply in_or_app; cbn; auto). destruct (F r Hr) as (_ & H). destruct (H c) as (Fc & _).
    split; [exact Fc|]. exists (val (load_of c r)). split.
    + right. split; [exact Hx|]. rewrite <- exact_of. apply (after_last _ c (val x) (map exact_row rs) (exact_row r)).
      * rewrite E, map_app. reflexivity.
      * apply val_lt in L; auto. cbn [nltb RNum exact_row lpos]. now apply Rltb_true.
    + rewrite Rminus_eq_0, Rabs_R0. now apply bound_pos.
  - assert (H1 : In r1 rows /\ In r2 rows) by (rewrite E; split; apply in_or_app; cbn; auto). destruct H1 as (H1 & H2).
    destruct (F r1 H1) as (U1 & V1), (F r2 H2) as (U2 & V2). destruct (V1 c) as (D1 & B1), (V2 c) as (D2 & B2).
    apply val_lt in L1 as R1; auto. apply val_lt in L2 as R2; auto.
    pose proof (G r1 r2 H1 H2 ltac:(lra)) as W.
    set (y := on_line (val (lpos r1)) (val (load_of c r1)) (val (lpos r2)) (val (load_of c r2)) (val x)).
    assert (Ey : y = nadd (nmul (ndiv (nsub (load_of c (exact_row r2)) (load_of c (exact_row r1)))
                    (nsub (lpos (exact_row r2)) (lpos (exact_row r1)))) (nsub (val x) (lpos (exact_row r1)))) (load_of c (exact_row r1))).
    { rewrite !exact_of. cbn [nadd nmul ndiv nsub RNum exact_row lpos]. unfold y, on_line. field. lra. }
    assert (Ee : exact_load (map exact_row rows) c (val x) y).
    { right. split; [exact Hx|]. rewrite Ey. apply (LoadSpec.between _ c (val x) (map exact_row l) (exact_row r1) (exact_row r2) (map exact_row l')).
      - rewrite E, map_app. reflexivity.
      - cbn [nltb RNum exact_row lpos]. now apply Rltb_true.
      - cbn [nltb RNum exact_row lpos]. now apply Rltb_true. }
    clear Ey. apply finite_double_fin in Fx, D1, D2. destruct Fx as (fp & -> & P).
    destruct D1 as (y1 & E1 & Y1), D2 as (y2 & E2 & Y2).
    destruct (unit_fin _ U1) as (x1 & G1 & X1 & Q1), (unit_fin _ U2) as (x2 & G2 & X2 & Q2).
    revert Ee. unfold y. rewrite E1, E2, G1, G2 in *. intros Ee.
    cbn [nadd nmul ndiv nsub PNum arith2 tofl] in *. rewrite !val_sfR in *.
    fold (bp (-500)) (bp 500) (bp (-49)) (bp (-1073)) in *.
    destruct (between_error Y x1 x2 y1 y2 fp X1 X2 Y1 Y2 P ltac:(lra) ltac:(lra) B1 B2 BY) as (Fv & Bv).
    split; [now apply fin_double|]. eexists. split; [exact Ee|]. exact Bv.
Qed.

Lemma table_rows rows Y x cs out : ordinary_table Y rows -> finite_double x -> rows_at rows cs x out ->
  Forall (fun o => exists vs, snd o = map Some vs /\ good_values rows Y x cs vs) out.
Proof.
  intros T Fx [(r0 & _)|vs Hn F2].
  - apply Forall_forall. intros o Ho. apply in_map_iff in Ho. destruct Ho as (r & <- & Hr). apply filter_In in Hr. destruct Hr as (Hr & E).
    destruct T as (N & F & S & G & BY). rewrite Forall_forall in F. destruct (F r Hr) as (U & V).
    exists (map (fun c => load_of c r) cs). cbn [snd]. split; [now rewrite map_map|]. unfold good_values.
    induction cs as [|c cs IH]; cbn [map]; constructor; auto. destruct (V c) as (D & B). split; [exact D|].
    exists (val (load_of c r)). split.
    + left. exists (exact_row r). split; [now apply in_map|]. split; [|apply exact_of]. apply val_eqb in E; auto. apply U.
    + rewrite Rminus_eq_0, Rabs_R0. apply bound_pos. pose proof (Rabs_pos (val (load_of c r))). lra.
  - constructor; [|constructor]. exists vs. cbn [snd]. split; auto. unfold good_values.
    induction F2 as [|c v cs vs Hv _ IH]; constructor; auto. now apply (table_value rows Y x c).
Qed.

Lemma ordinary_good Y rows : ordinary_table Y rows -> good_table rows /\ Forall (fun r => unit_double (lpos r)) rows.
Proof.
  intros (N & F & S & _). split.
  - split; [|auto]. eapply Forall_impl; [|exact F]. intros r (U & V). split.
    + apply finite_Pok. apply U.
    + intros c. destruct (V c) as (((f & -> & _) & _) & _). reflexivity.
  - eapply Forall_impl; [|exact F]. intros r (U & _). exact U.
Qed.

Lemma table_load qs rows Y x a cs out : any_argsort qs -> ordinary_table Y rows -> finite_double x ->
  designates a cs -> cs <> [] -> get_load qs (Some rows) (PosNum x) None a = Ok (Some out) ->
  Forall (fun o => exists vs, snd o = map Some vs /\ good_values rows Y x cs vs) out.
Proof.
  intros Hq T Fx Hd Hc E. destruct (ordinary_good Y rows T) as ((H1 & H2 & H3) & _).
  destruct (C02_float_lemma qs rows [x] a cs Hq H1 H2 H3) as (at_ps & blocks & (_ & D & _) & F & E'); auto.
  { constructor; [now apply finite_Pok|constructor]. }
  { discriminate. }
  assert (Ex : get_load qs (Some rows) (PosList [x]) None a = get_load qs (Some rows) (PosNum x) None a).
  { unfold get_load, list_positions. destruct Fx as ((f & -> & _) & _). reflexivity. }
  rewrite Ex, E in E'. injection E' as ->. apply Forall_concat.
  clear - F D T Fx. induction F as [|p blk ps bs Hb _ IH]; constructor.
  - destruct (D p (or_introl eq_refl)) as [<-|[]]. now apply (table_rows rows Y x cs).
  - apply IH. intros q Hq. apply D. now right.
Qed.

Section P.
Context {Sec : Type}.

(** ** Finite local positions *)
Lemma plus_one x : unit_double x -> finite_double (nadd x (fl 1 1)).
Proof.
  intros U. destruct (unit_fin _ U) as (f & -> & F & B). rewrite one_fin. cbn [nadd PNum arith2 tofl].
  assert (F1 : fin64 (S754_finite false 4503599627370496 (-52))) by reflexivity.
  destruct (add_rel f _ F F1) as (e & _ & Fa & _); [|now apply fin_double]. rewrite one_val, Rabs_right by lra.
  assert (2 <= bp 1022) by (rewrite bp_Z by lia; apply IZR_le; lia). lra.
Qed.

Lemma zero_length_finite (el : elem pynum Sec) c rows xs : dict_get c (eloads el) = Ok (Some rows) ->
  Forall (fun r => unit_double (lpos r)) rows -> zero_length_positions el (Some c) = Ok xs -> Forall finite_double xs.
Proof.
  intros E U Z. unfold zero_length_positions, el_load_positions in Z. rewrite E in Z. cbn [bind load_positions] in Z.
  apply Forall_map in U. destruct (map lpos rows) as [|p0 lp]; [discriminate|].
  cbv zeta in Z. generalize dependent (p0 :: lp). intros ys U Z. apply Ok_same in Z. subst xs.
  assert (U' : Forall unit_double (if negb (neqb p0 (nint 0)) then map (nadd (nflt 0 1)) ys else ys)).
  { destruct (negb _); auto. apply Forall_map. eapply Forall_impl; [|exact U]. apply zero_plus_same. }
  clear U. revert U'. generalize (if negb (neqb p0 (nint 0)) then map (nadd (nflt 0 1)) ys else ys). intros zs U.
  destruct (negb _).
  - apply Forall_map. eapply Forall_impl; [|exact U]. apply plus_one.
  - eapply Forall_impl; [|exact U]. intros y (Fy & _). exact Fy.
Qed.

(** ** The places *)
Lemma ordinary_float (b : beam_t pynum Sec) ls : ordinary_beam b ls -> exists ends total, float_beam b ls ends total.
Proof.
  intros O. destruct (ordinary_places b ls O) as (ends & total & E1 & E2 & R & (f & -> & F & _) & _).
  destruct O as (W & L & N & _). exists ends, (PFlt f). repeat split; auto. destruct f; auto; contradiction.
Qed.

Lemma nth_exact ls i l : nth_error ls i = Some l -> nth i (exact_lengths ls) 0 = val l /\ nth i ls (fl 0 1) = l.
Proof.
  intros E. split; [|now apply nth_error_nth]. unfold exact_lengths. apply nth_error_nth. now apply map_nth_error.
Qed.

Lemma span_app l m : span (l ++ m) = span l + span m.
Proof. unfold span. induction l as [|x l IH]; cbn [app fold_right]; [lra|]. rewrite IH. lra. Qed.

Lemma end_le ls i : Forall length_double ls -> end_of (exact_lengths ls) i <= span (exact_lengths ls).
Proof.
  intros L. unfold end_of, exact_lengths. rewrite firstn_map. fold (exact_lengths (firstn (S i) ls)).
  rewrite <- (firstn_skipn (S i) ls) at 2. rewrite map_app, span_app. fold (exact_lengths (skipn (S i) ls)).
  assert (0 <= span (exact_lengths (skipn (S i) ls))).
  { apply span_pos. apply Forall_forall. intros x Hx. rewrite Forall_forall in L. apply L.
    rewrite <- (firstn_skipn (S i) ls). apply in_or_app. auto. }
  unfold exact_lengths in *. lra.
Qed.

(** A position between the computed ends of an element, and its local position. *)
Lemma placed (b : beam_t pynum Sec) ls ends i l s t p x : ordinary_beam b ls -> element_ends b = Ok ends ->
  nth_error ends i = Some (s, Some t) -> nth_error ls i = Some l -> finite_double p ->
  val s <= val p -> (val l = 0 -> val p <= val t) -> finite_double x ->
  (val l <> 0 -> unit_double x /\ x = ndiv (nsub p s) l) -> place ls i (val x) (val p).
Proof.
  intros O Ee En El Fp A B Fx Hx. destruct (ordinary_places b ls O) as (ends' & total & E1 & _ & R & _ & P).
  rewrite Ee in E1. injection E1 as <-. destruct (P i s t En) as (N1 & N2).
  destruct O as (F & L & N & K & Bn). fold (bp 1000) in Bn.
  assert (Hi : (i < List.length ls)%nat) by (apply nth_error_Some; congruence).
  assert (Ll : length_double l) by (rewrite Forall_forall in L; apply L; eapply nth_error_In; eauto).
  pose proof (start_pos ls i L) as PS. pose proof (end_start ls i l El) as ES. pose proof (end_le ls i L) as EL.
  destruct (nth_exact ls i l El) as (Nx & _). unfold place. rewrite Nx, ES.
  destruct (Req_dec (val l) 0) as [Z|Z].
  - specialize (B Z). rewrite Z, Rmult_0_r, !Rplus_0_r in *. rewrite ES in N2.
    destruct N1 as (sf & -> & Fs & _ & Es), N2 as (tf & -> & Ft & _ & Et). rewrite !val_sfR in *.
    unfold within. fold (bp (-53)). fold u53. rewrite plus_INR. cbn [INR].
    pose proof (gk_bound (S i) ltac:(lia)) as G. rewrite !S_INR in G. pose proof (gk_mono i (S i) ltac:(lia)) as Gm.
    pose proof u53_small as U. set (S0 := start_of (exact_lengths ls) i) in *.
    assert (Gs : gk i * S0 <= gk (S i) * S0) by (apply Rmult_le_compat_r; auto).
    assert (Gb : gk (S i) * S0 <= (INR i + 1 + 1) * u53 * S0) by (apply Rmult_le_compat_r; auto).
    assert (0 <= u53 * S0) by (apply Rmult_le_pos; lra).
    pose proof (Rle_abs (sfR sf - S0)). pose proof (Rle_abs (- (sfR sf - S0))). pose proof (Rle_abs (sfR tf - S0)).
    rewrite Rabs_Ropp in *. apply Rabs_le. split; lra.
  - destruct (Hx Z) as (Ux & Ex). apply (local_real i _ s p l x); auto; [lia|lra].
Qed.

Lemma C132_local_lemma (b : beam_t pynum Sec) ls p e i x : ordinary_beam b ls -> designated (List.length b) e i ->
  finite_double p -> beam_to_local b p e = Ok x -> unit_double x /\ place ls i (val x) (val p).
Proof.
  intros O D Fp E. destruct (ordinary_places b ls O) as (ends & total & E1 & _ & R & _ & P).
  pose proof O as (F & L & N & K & Bn).
  destruct (elem_at b ls e i F L D) as (el & l & ends' & s & total' & G1 & G2 & G3 & Ll & G4 & G5 & G6 & _).
  rewrite E1 in G4. injection G4 as <-. destruct (P i s _ G5) as (N1 & _).
  assert (Fs : finite_double s) by (destruct N1 as (f & -> & Ff & _); now apply fin_double).
  destruct (C16_double_local b ls p e i ends s _ F L D E1 G5) as (A1 & A2 & A3); auto; [apply Fs|].
  destruct (A2 x E) as (Ux & Ex). destruct (nth_exact ls i l G3) as (_ & Nx). rewrite Nx in Ex.
  split; [exact Ux|]. apply (placed b ls ends i l s (nadd s l)); auto; [| |apply Ux].
  - destruct (Rle_lt_dec (val s) (val p)) as [|G]; auto. exfalso. apply val_lt in G; auto. rewrite (A1 G) in E. discriminate.
  - intros Z. exfalso. unfold beam_to_local, element_start_end in E. rewrite E1 in E. cbn [bind] in E. rewrite G6 in E.
    cbn [bind] in E. rewrite G1 in E. cbn [bind] in E. cbv zeta in E. rewrite G2 in E.
    assert (ZZ : neqb l (nflt 0 1) = true).
    { apply (val_eqb l (fl 0 1)); [apply Ll|exact fl_fin_0|]. rewrite Z. reflexivity. }
    rewrite ZZ in E. destruct (nltb _ _); [discriminate|]. destruct (nltb _ _); discriminate.
Qed.

Lemma C132_beam_lemma (b : beam_t pynum Sec) ls x e i : ordinary_beam b ls -> designated (List.length b) e i ->
  unit_double x -> exists p, local_to_beam b x e = Ok p /\ finite_double p /\
    Rabs (val p - (start_of (exact_lengths ls) i + val x * nth i (exact_lengths ls) 0))
      <= INR (i + 4) * powerRZ 2 (-53) * end_of (exact_lengths ls) i + powerRZ 2 (-1074).
Proof.
  intros O D Ux. destruct (ordinary_places b ls O) as (ends & total & E1 & _ & R & _ & P).
  pose proof O as (F & L & N & K & Bn). fold (bp 1000) in Bn.
  destruct (elem_at b ls e i F L D) as (el & l & ends' & s & total' & G1 & G2 & G3 & Ll & G4 & G5 & G6 & _).
  rewrite E1 in G4. injection G4 as <-. destruct (P i s _ G5) as (N1 & _).
  assert (Hi : (i < List.length ls)%nat) by (apply nth_error_Some; congruence).
  unfold local_to_beam, element_start_end. destruct Ux as (Fx & X0 & X1).
  assert (A0 : nltb x (nint 0) = false) by (apply (not_lt (PInt 0) x); exact X0).
  assert (A1 : nltb (nflt 1 1) x = false) by (apply (not_lt x (fl 1 1)); exact X1).
  rewrite A0, A1. cbn [orb]. rewrite E1. cbn [bind]. rewrite G6. cbn [bind fst]. rewrite G1. cbn [bind]. rewrite G2.
  eexists. split; [reflexivity|]. destruct (nth_exact ls i l G3) as (Nx & _). pose proof (end_start ls i l G3) as ES.
  pose proof (end_le ls i L) as EL. rewrite Nx, ES.
  apply (beam_real i _ s l x); auto; [apply start_pos; auto|lia|lra|split; auto].
Qed.

Lemma C132_round_trip_lemma (b : beam_t pynum Sec) ls p e i x : ordinary_beam b ls -> designated (List.length b) e i ->
  finite_double p -> beam_to_local b p e = Ok x -> exists q, local_to_beam b x e = Ok q /\ finite_double q /\
    Rabs (val q - val p) <= INR (2 * i + 8) * powerRZ 2 (-53) * end_of (exact_lengths ls) i + powerRZ 2 (-1074).
Proof.
  intros O D Fp E. destruct (C132_local_lemma b ls p e i x O D Fp E) as (Ux & Pl).
  destruct (C132_beam_lemma b ls x e i O D Ux) as (q & Eq & Fq & Bq). exists q. split; [exact Eq|]. split; [exact Fq|].
  unfold place, within in Pl. set (z := start_of _ _ + _) in *.
  replace (val q - val p) with ((val q - z) + (z - val p)) by ring. apply Rle_trans with (1 := Rabs_triang _ _).
  replace (2 * i + 8)%nat with ((i + 4) + (i + 4))%nat by lia. rewrite (plus_INR (i + 4) (i + 4)). lra.
Qed.

(** ** The rows *)
Definition traced (Y : R) (b : beam_t pynum Sec) ls c cs (ps : list pynum) (o : orow pynum) : Prop :=
  In (fst o) ps /\ sound_row Y b ls c cs o.

Lemma float_cells rows Y x cs vs : good_values rows Y x cs vs -> map (option_map nfloat) (map Some vs) = map Some vs.
Proof.
  unfold good_values. induction 1 as [|c v cs vs (((f & -> & _) & _) & _) _ IH]; cbn [map]; auto. now rewrite IH.
Qed.

Lemma traced_float Y (b : beam_t pynum Sec) ls c cs ps o : Forall double ps -> traced Y b ls c cs ps o -> orow_float o = o.
Proof.
  intros D (Hp & i & el & rows & x & vs & _ & _ & _ & E & G). destruct o as [p vals]. unfold orow_float. cbn [fst snd] in *. subst vals.
  rewrite (float_cells _ _ _ _ _ G). rewrite Forall_forall in D. destruct (D p Hp) as (f & -> & _). reflexivity.
Qed.

Lemma stack_same Y (b : beam_t pynum Sec) ls c cs ps a v s : Forall double ps -> Forall (traced Y b ls c cs ps) (a ++ v) ->
  vstack a v = Ok s -> s = a ++ v.
Proof.
  intros D F. unfold vstack. destruct a as [|ra a]; [intros E; now apply Ok_same in E|].
  destruct v as [|rv v]; [intros E; now apply Ok_same in E|]. destruct (Nat.eqb _ _); [|discriminate].
  intros E. apply Ok_same in E. destruct (existsb row_has_none _); [exact E|]. destruct (existsb row_has_float _); [|exact E].
  rewrite E. clear E. revert F. generalize ((ra :: a) ++ rv :: v). induction 1 as [|o os Ho _ IH]; cbn [map]; auto.
  now rewrite IH, (traced_float Y b ls c cs ps o).
Qed.

Definition good_place Y (b : beam_t pynum Sec) ls c (ps : list pynum) (t : location pynum) : Prop :=
  In (fst (fst t)) ps /\ exists i el rows, snd (fst t) = Z.of_nat i /\ nth_error b i = Some el /\
    dict_get c (eloads el) = Ok (Some rows) /\ ordinary_table Y rows /\ finite_double (snd t) /\
    place ls i (val (snd t)) (val (fst (fst t))).

Lemma accumulate_sound qs Y (b : beam_t pynum Sec) ls c a cs ps : any_argsort qs -> designates a cs -> cs <> [] -> Forall double ps ->
  forall locs, Forall (good_place Y b ls c ps) locs -> forall acc out,
  Forall (traced Y b ls c cs ps) (match acc with None => [] | Some x => x end) ->
  accumulate qs b c a acc locs = Ok (Some out) -> Forall (traced Y b ls c cs ps) out.
Proof.
  intros Hq Hd Hc D. induction 1 as [|[[p e] x] locs (Hp & i & el & rows & He & Ei & Ed & T & Fx & Pl) _ IH];
    intros acc out Ha E; cbn [accumulate] in E.
  - apply Ok_same in E. destruct acc as [z|]; [injection E as ->|discriminate]. exact Ha.
  - cbn [fst snd] in *. subst e.
    assert (Hi : (i < List.length b)%nat) by (apply nth_error_Some; congruence).
    rewrite (py_index_ok b _ i (designated_nat _ _ Hi)), Ei in E. cbn [bind] in E.
    unfold el_get_loads in E. rewrite Ed in E. cbn [bind] in E.
    destruct (get_load qs (Some rows) (PosNum x) None a) as [[v|]|] eqn:G; try discriminate. cbn [bind] in E. cbv zeta in E.
    pose proof (table_load qs rows Y x a cs v Hq T Fx Hd Hc G) as Tl.
    assert (W : Forall (traced Y b ls c cs ps) (set_position p v)).
    { unfold set_position. apply Forall_map. apply Forall_forall. intros o Ho. rewrite Forall_forall in Tl.
      assert (Q : existsb row_has_none v = false /\ existsb row_has_float v = true).
      { split.
        - destruct (existsb row_has_none v) eqn:Q; auto. apply existsb_exists in Q. destruct Q as (o' & Ho' & Q).
          destruct (Tl o' Ho') as (vs & Es & _). unfold row_has_none in Q. rewrite Es in Q. apply existsb_exists in Q.
          destruct Q as (z & Hz & Q). apply in_map_iff in Hz. destruct Hz as (z' & <- & _). discriminate.
        - apply existsb_exists. exists o. split; auto. destruct (Tl o Ho) as (vs & Es & Gv). unfold row_has_float. rewrite Es.
          apply orb_true_iff. right. destruct Gv as [|k w ? ? (((f & -> & _) & _) & _) _]; [now contradiction Hc|]. reflexivity. }
      destruct Q as (-> & ->). destruct (Tl o Ho) as (vs & Es & Gv). rewrite Forall_forall in D. destruct (D p Hp) as (f & -> & _).
      change (nfloat (PFlt f)) with (PFlt f). split; [exact Hp|]. exists i, el, rows, x, vs. cbn [fst snd]. auto 6. }
    destruct acc as [s|].
    + destruct (vstack s (set_position p v)) as [s'|] eqn:V; [|discriminate]. cbn [bind] in E.
      assert (W2 : Forall (traced Y b ls c cs ps) (s ++ set_position p v)) by (apply Forall_app; auto).
      apply (stack_same Y b ls c cs ps) in V; auto. subst s'. now apply (IH (Some (s ++ set_position p v)) out).
    + cbn [bind] in E. now apply (IH (Some (set_position p v)) out).
Qed.

Lemma locations_good Y (b : beam_t pynum Sec) ls c ps locs : ordinary_beam b ls -> ordinary_loads Y b c -> Forall double ps ->
  locations b (Some c) ps = Ok locs -> Forall (good_place Y b ls c ps) locs.
Proof.
  intros O T D E. destruct (ordinary_float b ls O) as (ends & total & H).
  destruct (triples_core b ls ends total (Some c) ps locs H D E) as (T1 & _ & _).
  pose proof (fb_tiles _ _ _ _ H) as R. destruct (tiles_some R) as [_ Ln].
  apply Forall_forall. intros [[p e] x] Hin. destruct (T1 p e x Hin) as (i & s & t & -> & En & A & B & Hp & U).
  destruct (fb_finite _ _ _ _ _ _ _ H En) as (Ns & Nt & Is & It & _).
  assert (Fp : finite_double p) by (rewrite Forall_forall in D; exact (between_finite p s t (D p Hp) Ns Nt It A B)).
  assert (Fs : finite_double s).
  { destruct (finite_start s Ns Is) as (f & -> & Ff & _). now apply fin_double. }
  assert (Ft : finite_double t).
  { destruct (finite_start t Nt It) as (f & -> & Ff & _). now apply fin_double. }
  pose proof H as (F & L & N & E1 & E2 & _).
  assert (Lb : List.length b = List.length ls) by (clear - F; induction F; cbn; congruence).
  assert (Hi : (i < List.length b)%nat) by (rewrite Lb, <- Ln; apply nth_error_Some; congruence).
  destruct (elem_at b ls (Z.of_nat i) i F L (designated_nat _ _ Hi)) as (el & l & ends' & s' & total' & G1 & G2 & G3 & Ll & _).
  rewrite (py_index_ok b _ i (designated_nat _ _ Hi)) in G1. destruct (nth_error b i) as [el'|] eqn:Eb; [|discriminate]. injection G1 as ->.
  destruct (T el (nth_error_In _ _ Eb)) as (rows & Ed & Tr).
  destruct (nth_exact ls i l G3) as (_ & Nx). rewrite Nx in U.
  assert (Zl : neqb l (fl 0 1) = true <-> val l = 0) by (apply (val_eqb l (fl 0 1)); [apply Ll|exact fl_fin_0]).
  assert (U' : val l <> 0 -> unit_double x /\ x = ndiv (nsub p s) l).
  { intros Z. apply U. destruct (neqb l (fl 0 1)); auto. exfalso. apply Z. now apply Zl. }
  assert (Fx : finite_double x).
  { destruct (Req_dec (val l) 0) as [Z|Z]; [|now apply U'].
    apply (locations_in b (Some c) ps locs E) in Hin. destruct Hin as (is & ts & _ & _ & _ & Et & Ht).
    unfold locations_at in Et. rewrite (py_index_ok b _ i (designated_nat _ _ Hi)), Eb in Et. cbn [bind] in Et. rewrite G2 in Et.
    change (neqb l (nint 0)) with (neqb l (fl 0 1)) in Et. rewrite (proj2 Zl Z) in Et.
    destruct (zero_length_positions el (Some c)) as [xs|] eqn:Ez; [|discriminate]. cbn [bind] in Et. apply Ok_same in Et. subst ts.
    destruct (ordinary_good Y rows Tr) as (_ & Ur).
    pose proof (zero_length_finite el c rows xs Ed Ur Ez) as Fz. rewrite Forall_forall in Fz.
    apply in_map_iff in Ht. destruct Ht as (y & Ey & Hy). injection Ey as <-. now apply Fz. }
  split; [exact Hp|]. exists i, el, rows. cbn [fst snd]. split; [reflexivity|]. split; [exact Eb|]. split; [exact Ed|]. split; [exact Tr|].
  split; [exact Fx|]. apply (placed b ls ends i l s t); auto.
  - now apply val_leb.
  - intros _. now apply val_leb.
Qed.

Lemma C133_lemma qs Y (b : beam_t pynum Sec) ls c position ps a cs out : any_argsort qs ->
  ordinary_beam b ls -> ordinary_loads Y b c -> asked position ps -> Forall finite_double ps -> designates a cs -> cs <> [] ->
  beam_get_loads qs b c position None a = Ok (Some out) ->
  Forall (fun o => In (fst o) ps /\ sound_row Y b ls c cs o) out.
Proof.
  intros Hq O T A Fp Hd Hc E. unfold beam_get_loads in E.
  destruct (beam_list_positions b position None (Some c)) as [locs|] eqn:El; [|discriminate]. cbn [bind] in E.
  assert (K : locations b (Some c) (py_sorted (py_set ps)) = Ok locs).
  { destruct A as [p|qs']; cbn [beam_list_positions] in El.
    - destruct (nisfloat p); [|discriminate]. destruct (check_on_beam b [p]) as [[]|]; [|discriminate]. exact El.
    - destruct (check_on_beam b qs') as [[]|]; [|discriminate]. exact El. }
  assert (Qin : forall q, In q (py_sorted (py_set ps)) -> In q ps) by (intros q; apply sorted_set_incl).
  assert (Qd : Forall double (py_sorted (py_set ps))).
  { apply Forall_forall. intros q Hq'. apply Qin in Hq'. rewrite Forall_forall in Fp. now apply Fp. }
  pose proof (locations_good Y b ls c _ locs O T Qd K) as Gl.
  pose proof (accumulate_sound qs Y b ls c a cs _ Hq Hd Hc Qd locs Gl None out (Forall_nil _) E) as R.
  eapply Forall_impl; [|exact R]. intros o (Ho & S). split; auto.
Qed.

Lemma C133_min_lemma qs Y (b : beam_t pynum Sec) ls c n a cs out : any_argsort qs ->
  ordinary_beam b ls -> ordinary_loads Y b c -> (0 <= n <= 2 ^ 52)%Z -> designates a cs -> cs <> [] ->
  beam_get_loads qs b c PosNone (Some n) a = Ok (Some out) ->
  Forall (fun o => finite_double (fst o) /\ sound_row Y b ls c cs o) out.
Proof.
  intros Hq O T Hn Hd Hc E. unfold beam_get_loads in E. destruct (ordinary_float b ls O) as (ends & total & H).
  assert (HT : tables_ok b (Some c)).
  { intros e He. destruct (T e He) as (rows & Ed & Tr). exists rows. split; [exact Ed|]. split; [apply Tr|]. now apply (ordinary_good Y). }
  destruct (min_points b ls ends total (Some c) n H HT Hn) as (lin & real & pts & _ & Eq & Fq & _).
  rewrite Eq in E. destruct (locations b (Some c) pts) as [locs|] eqn:El; [|discriminate]. cbn [bind] in E.
  assert (Qd : Forall double pts) by (eapply Forall_impl; [|exact Fq]; tauto).
  pose proof (locations_good Y b ls c _ locs O T Qd El) as Gl.
  destruct (triples_core b ls ends total (Some c) pts locs H Qd El) as (T1 & _ & _).
  assert (Fin : Forall (fun t => finite_double (fst (fst t))) locs).
  { apply Forall_forall. intros [[p e] x] Hin. destruct (T1 p e x Hin) as (i & s & t & -> & En & A & B & Hp & _).
    destruct (fb_finite _ _ _ _ _ _ _ H En) as (Ns & Nt & Is & It & _). rewrite Forall_forall in Qd.
    exact (between_finite p s t (Qd p Hp) Ns Nt It A B). }
  set (ps := map (fun t => fst (fst t)) locs).
  assert (Gl' : Forall (good_place Y b ls c ps) locs).
  { apply Forall_forall. intros t Ht. rewrite Forall_forall in Gl. destruct (Gl t Ht) as (_ & Q). split; auto.
    unfold ps. now apply (in_map (fun t => fst (fst t))). }
  assert (Fps : Forall finite_double ps) by (unfold ps; now apply Forall_map).
  assert (Dps : Forall double ps) by (eapply Forall_impl; [|exact Fps]; intros q Q; apply Q).
  pose proof (accumulate_sound qs Y b ls c a cs _ Hq Hd Hc Dps locs Gl' None out (Forall_nil _) E) as R.
  eapply Forall_impl; [|exact R]. intros o (Ho & S). split; auto. rewrite Forall_forall in Fps. auto.
Qed.
End P.
