(** C24 on doubles: which beams answer every query for loads. *)

From Coq Require Import ZArith Reals List Bool Sorted Permutation Lra Lia Floats.SpecFloat.
From Verif Require Import Base Num RNum PyNum Numpy LoadCase OrdFacts LoadFacts LoadSpec LoadProofs
  Beam BeamSpec BeamFacts BeamPositions BeamProofs BeamLoads BeamMisc BeamFloat
  IntFloat FloatSpec FloatRound FloatOps FloatFacts FloatBeam FloatLocs.
Import ListNotations.
Open Scope R_scope.

Lemma mapM_ok {A B} (f : A -> res B) (P : B -> Prop) l : (forall x, In x l -> exists y, f x = Ok y /\ P y) ->
  exists r, mapM f l = Ok r /\ Forall P r.
Proof.
  induction l as [|x l IH]; intros H; [exists []; split; [reflexivity|constructor]|].
  destruct (H x (or_introl eq_refl)) as (y & E & Hy). destruct IH as (r & Er & Hr); [intros; apply H; now right|].
  exists (y :: r). cbn [mapM]. rewrite E, Er. split; [reflexivity|]. now constructor.
Qed.

Lemma mapM_err {A B} (f : A -> res B) (e : exn) l : (forall x, In x l -> (exists y, f x = Ok y) \/ f x = Err e) ->
  (exists x, In x l /\ f x = Err e) -> mapM f l = Err e.
Proof.
  induction l as [|x l IH]; intros H (z & Hz & Ez); [contradiction|]. cbn [mapM].
  destruct (H x (or_introl eq_refl)) as [(y & E)|E].
  - rewrite E. cbn [bind]. rewrite IH; [reflexivity| |].
    + intros; apply H; now right.
    + destruct Hz as [->|Hz]; [congruence|eauto].
  - now rewrite E.
Qed.

Section P.
Context {Sec : Type}.

(** ** One position in one element *)
Lemma zero_value f : fin64 f -> neqb (PFlt f) (fl 0 1) = false -> sfR f <> 0.
Proof.
  intros F H E. assert (neqb (PFlt f) (fl 0 1) = true) as K; [|congruence].
  rewrite fl_zero. cbn [neqb PNum]. unfold py_eqb. apply andb_true_iff.
  split; [apply (fle_R f (S754_zero false))|apply (fle_R (S754_zero false) f)]; auto; try exact I; cbn [sfR]; lra.
Qed.

Lemma local_fit (b : beam_t pynum Sec) ls ends total p i s t l : float_beam b ls ends total ->
  nth_error ends i = Some (s, Some t) -> nth_error ls i = Some l -> neqb l (fl 0 1) = false ->
  double p -> nleb s p = true -> nleb p t = true ->
  beam_to_local b p (Z.of_nat i) = (if nltb l (nsub p s) then Err PositionNotInElementError else Ok (ndiv (nsub p s) l)) /\
  (nltb l (nsub p s) = false -> unit_double (ndiv (nsub p s) l)) /\
  (nleb (nsub t s) l = true -> nltb l (nsub p s) = false).
Proof.
  intros H En El NZ Dp A B. destruct (fb_finite _ _ _ _ _ _ _ H En) as (Ns & Nt & Is & It & _).
  pose proof (between_finite p s t Dp Ns Nt It A B) as Fp.
  pose proof H as (F & L & N & E1 & E2 & _). pose proof (fb_tiles _ _ _ _ H) as R.
  assert (Lb : List.length b = List.length ls) by (clear - F; induction F; cbn; congruence).
  assert (D : designated (List.length b) (Z.of_nat i) i).
  { apply designated_nat. rewrite Lb. apply nth_error_Some. congruence. }
  destruct (elem_at b ls (Z.of_nat i) i F L D) as (el & l' & ends' & s' & total' & G1 & G2 & G3 & Ll & G4 & G5 & G6 & _).
  assert (l' = l) as -> by congruence. assert (ends' = ends) as -> by congruence.
  rewrite En in G5. destruct (first_pair _ _ _ _ G5) as [-> Et]. clear G5.
  destruct (finite_start s Ns Is) as (sf & -> & Fs & Nsf). destruct (finite_start t Nt It) as (tf & -> & Ft & Ntf).
  apply finite_double_fin in Fp. destruct Fp as (pf & -> & Fp).
  apply length_nn in Ll. destruct Ll as (lf & -> & Nl & Fl). pose proof (zero_value lf Fl NZ) as Zl.
  assert (Vs : sfR sf <= sfR pf) by (apply (fle_R sf pf); auto). assert (Vt : sfR pf <= sfR tf) by (apply (fle_R pf tf); auto).
  destruct (local_spec pf sf lf Fp Fs Nl Fl Zl Vs) as (A1 & _ & A3).
  split; [|split; [exact A3|]].
  - unfold beam_to_local, element_start_end. rewrite E1. cbn [bind]. rewrite G6. cbn [bind fst]. rewrite G1. cbn [bind].
    cbv zeta. rewrite G2, A1. destruct (nltb (PFlt lf) _); auto. fold (fl 0 1). now rewrite NZ.
  - intros U. apply (not_lt (nsub (PFlt pf) (PFlt sf)) (PFlt lf)). refine (le_trans _ _ _ _ U).
    cbn [nsub PNum arith2 tofl]. change (fle (SFsub f64 e64 pf sf) (SFsub f64 e64 tf sf) = true).
    eapply rounds_mono; [apply sub_rounds; auto|apply sub_rounds; auto|]. lra.
Qed.

(** ** The local positions used are numbers *)
Lemma plus_ok x d : finite_double x -> finite_double d -> Pok (nadd d x) /\ Pok (nadd x d).
Proof.
  intros Hx Hd. apply finite_double_fin in Hx, Hd. destruct Hx as (f & -> & F), Hd as (g & -> & G).
  cbn [nadd PNum arith2 tofl]. split; eapply rounds_Pok, add_rounds; auto.
Qed.

Lemma fl_fin_0 : finite_double (fl 0 1).
Proof. repeat split. eexists. split; [reflexivity|]. vm_compute. reflexivity. Qed.

Lemma fl_fin_1 : finite_double (fl 1 1).
Proof. repeat split. eexists. split; [reflexivity|]. vm_compute. reflexivity. Qed.

Lemma zero_plus_same x : unit_double x -> unit_double (nadd (fl 0 1) x).
Proof.
  intros (F & A & B). apply finite_double_fin in F. destruct F as (f & -> & F).
  assert (E : nadd (fl 0 1) (PFlt f) = PFlt f \/ f = S754_zero true).
  { destruct f as [[]| | |s m e]; try contradiction; auto. }
  destruct E as [E| ->].
  - rewrite E. split; auto. apply finite_double_fin. eauto.
  - split; [exact fl_fin_0|]. split; reflexivity.
Qed.

Lemma zero_length_ok (el : elem pynum Sec) c rows : dict_get c (eloads el) = Ok (Some rows) -> rows <> [] ->
  Forall (fun r => unit_double (lpos r)) rows -> exists xs, zero_length_positions el (Some c) = Ok xs /\ Forall Pok xs.
Proof.
  intros E N U. unfold zero_length_positions, el_load_positions. rewrite E. cbn [bind load_positions].
  apply Forall_map in U. destruct (map lpos rows) as [|p0 lp] eqn:M.
  - destruct rows; [now contradiction N|discriminate].
  - clear M. cbv zeta. eexists. split; [reflexivity|]. generalize dependent (p0 :: lp). intros xs U.
    assert (U' : Forall unit_double (if negb (neqb p0 (nint 0)) then map (nadd (nflt 0 1)) xs else xs)).
    { destruct (negb _); auto. apply Forall_map. eapply Forall_impl; [|exact U]. apply zero_plus_same. }
    clear U. revert U'. generalize (if negb (neqb p0 (nint 0)) then map (nadd (nflt 0 1)) xs else xs). intros ys U.
    destruct (negb _).
    + apply Forall_map. eapply Forall_impl; [|exact U]. intros y (Fy & _). fold (fl 1 1). apply plus_ok; auto using fl_fin_1.
    + eapply Forall_impl; [|exact U]. intros y (Fy & _). now apply finite_Pok.
Qed.

Definition located (b : beam_t pynum Sec) (c : Z) (t : location pynum) : Prop := Pok (snd t) /\
  exists el rows, py_index b (snd (fst t)) = Ok el /\ dict_get c (eloads el) = Ok (Some rows) /\ good_table rows.

Lemma at_result (b : beam_t pynum Sec) ls ends total c p i s t l : float_beam b ls ends total -> float_loads b c ->
  nth_error ends i = Some (s, Some t) -> nth_error ls i = Some l ->
  double p -> nleb s p = true -> nleb p t = true ->
  (neqb l (fl 0 1) = false -> nleb (nsub t s) l = true) \/ neqb l (fl 0 1) = true ->
  exists ts, locations_at b (Some c) p (Z.of_nat i) = Ok ts /\ Forall (located b c) ts.
Proof.
  intros H HT En El Dp A B Fit. pose proof H as (F & L & N & E1 & E2 & _).
  assert (Lb : List.length b = List.length ls) by (clear - F; induction F; cbn; congruence).
  assert (D : designated (List.length b) (Z.of_nat i) i).
  { apply designated_nat. rewrite Lb. apply nth_error_Some. congruence. }
  destruct (elem_at b ls (Z.of_nat i) i F L D) as (el & l' & ends' & s' & total' & G1 & G2 & G3 & Ll & _).
  assert (l' = l) as -> by congruence.
  assert (Hin : In el b).
  { rewrite (py_index_ok b _ i D) in G1. destruct (nth_error b i) eqn:Eb; [|discriminate]. injection G1 as ->. eapply nth_error_In; eauto. }
  destruct (HT el Hin) as (rows & Ed & Gt & U).
  assert (K : forall x, Pok x -> located b c (p, Z.of_nat i, x)).
  { intros x Hx. split; [exact Hx|]. exists el, rows. cbn [fst snd]. auto. }
  unfold locations_at. rewrite G1. cbn [bind]. rewrite G2. change (neqb l (nint 0)) with (neqb l (fl 0 1)).
  destruct (neqb l (fl 0 1)) eqn:Z.
  - destruct (zero_length_ok el c rows Ed) as (xs & Ex & Px); auto; [destruct Gt as (_ & _ & ?); auto|].
    rewrite Ex. cbn [bind]. eexists. split; [reflexivity|]. apply Forall_map. eapply Forall_impl; [|exact Px]. exact K.
  - destruct Fit as [Fit|Fit]; [|discriminate]. specialize (Fit eq_refl).
    destruct (local_fit b ls ends total p i s t l H En El Z Dp A B) as (-> & Un & Fi). rewrite (Fi Fit). cbn [bind].
    eexists. split; [reflexivity|]. constructor; [|constructor]. apply K, finite_Pok. now apply Un, Fi.
Qed.

Lemma locations_ok (b : beam_t pynum Sec) ls ends total c ps : float_beam b ls ends total -> float_loads b c ->
  ends_fit ls ends -> Forall double ps -> exists locs, locations b (Some c) ps = Ok locs /\ Forall (located b c) locs.
Proof.
  intros H HT Fit Dp. pose proof (fb_tiles _ _ _ _ H) as R. destruct (tiles_some R) as [_ Ln]. unfold locations.
  assert (M : forall p, In p ps -> exists ts, (let! es := in_elements b p in let! ls := mapM (locations_at b (Some c) p) es in Ok (List.concat ls)) = Ok ts
     /\ Forall (located b c) ts).
  { intros p Hp. destruct (fb_ids b ls ends total p H) as (js & Ej & _). rewrite Ej. cbn [bind].
    destruct (mapM_ok (locations_at b (Some c) p) (Forall (located b c)) (map Z.of_nat js)) as (rs & Er & Fr).
    - intros e He. pose proof He as He'. apply in_map_iff in He'. destruct He' as (i & <- & _).
      apply (fb_index b ls ends total p _ i H Ej) in He. destruct He as (s & t & En & A & B).
      assert (Hi : (i < List.length ls)%nat) by (rewrite <- Ln; apply nth_error_Some; congruence).
      destruct (nth_error ls i) as [l|] eqn:El; [|apply nth_error_None in El; lia].
      rewrite Forall_forall in Dp. apply (at_result b ls ends total c p i s t l); auto. left. intros Z. apply (Fit i l s t); auto.
    - rewrite Er. cbn [bind]. eexists. split; [reflexivity|]. now apply Forall_concat. }
  destruct (mapM_ok _ (Forall (located b c)) ps M) as (tss & Et & Ft).
  exists (List.concat tss). split; [|now apply Forall_concat].
  match type of Et with ?x = _ => match goal with |- bind ?y _ = _ => change y with x end end. now rewrite Et.
Qed.

Lemma accumulate_ok qs (b : beam_t pynum Sec) c a cs : any_argsort qs -> designates a cs -> cs <> [] ->
  forall locs, Forall (located b c) locs -> forall acc,
  Forall (fun o : orow pynum => List.length (snd o) = List.length cs) (match acc with None => [] | Some x => x end) ->
  exists out, accumulate qs b c a acc locs = Ok out.
Proof.
  intros Hq Hd Hc. induction 1 as [|[[p z] x] locs (Hx & el & rows & Ei & Ed & Hg) _ IH]; intros acc Ha; cbn [accumulate]; [eauto|].
  cbn [fst snd] in Ei, Hx. rewrite Ei. cbn [bind]. unfold el_get_loads at 1.
  rewrite Ed. cbn [bind]. destruct (good_local qs rows x a cs Hq Hg Hx Hd Hc) as (out & -> & W). cbn [bind]. cbv zeta.
  assert (W' : Forall (fun o : orow pynum => List.length (snd o) = List.length cs) (set_position p out)).
  { unfold set_position. apply Forall_map. exact W. }
  destruct acc as [s|]; [|apply IH; exact W'].
  assert (V : exists s', vstack s (set_position p out) = Ok s' /\
     Forall (fun o : orow pynum => List.length (snd o) = List.length cs) s').
  { assert (G : Forall (fun o : orow pynum => List.length (snd o) = List.length cs) (s ++ set_position p out))
      by (apply Forall_app; auto).
    unfold vstack. destruct s as [|r1 s]; [eauto|]. destruct (set_position p out) as [|r2 s2]; [eauto|].
    rewrite (Forall_inv Ha), (Forall_inv W'), Nat.eqb_refl. eexists. split; [reflexivity|].
    destruct (existsb row_has_none _); auto. destruct (existsb row_has_float _); auto.
    apply Forall_map. eapply Forall_impl; [|exact G]. intros o Ho. unfold orow_float. cbn [snd]. now rewrite map_length. }
  destruct V as (s' & -> & W2). cbn [bind]. apply IH. exact W2.
Qed.

(** ** The queries *)
Lemma check_ok (b : beam_t pynum Sec) total ps : beam_length b = Ok total ->
  Forall (fun p => nleb (fl 0 1) p = true /\ nleb p total = true) ps -> check_on_beam b ps = Ok tt.
Proof.
  intros E. induction 1 as [|p ps (A & B) _ IH]; [reflexivity|]. cbn [check_on_beam].
  assert (nltb p (nint 0) = false) as -> by (apply (not_lt (nint 0) p); exact A). rewrite E. cbn [bind].
  now rewrite (not_lt p total B).
Qed.

Lemma loads_tables (b : beam_t pynum Sec) c : float_loads b c -> tables_ok b (Some c).
Proof.
  intros H e He. destruct (H e He) as (rows & E & (_ & _ & N) & U). exists rows. auto.
Qed.

Lemma asked_query (b : beam_t pynum Sec) position ps lc : asked position ps -> Forall (fun p => nisfloat p = true) ps ->
  check_on_beam b ps = Ok tt -> beam_list_positions b position None lc = locations b lc (py_sorted (py_set ps)).
Proof.
  intros [p|qs] F C; cbn [beam_list_positions].
  - apply Forall_inv in F. rewrite F, C. reflexivity.
  - now rewrite C.
Qed.

Lemma C24_double_explicit qs (b : beam_t pynum Sec) ls ends total c position ps a cs : any_argsort qs ->
  float_beam b ls ends total -> ends_fit ls ends -> float_loads b c -> designates a cs -> cs <> [] -> asked position ps ->
  Forall (fun p => finite_double p /\ nleb (fl 0 1) p = true /\ nleb p total = true) ps ->
  exists out, beam_get_loads qs b c position None a = Ok out.
Proof.
  intros Hq H Fit HT Hd Hc As Hp. unfold beam_get_loads. rewrite (asked_query b position ps _ As).
  - destruct (locations_ok b ls ends total c (py_sorted (py_set ps)) H HT Fit) as (locs & E & F).
    + apply Forall_forall. intros p Hin. apply sorted_set_incl in Hin. rewrite Forall_forall in Hp. destruct (Hp p Hin) as [[D _] _]. exact D.
    + rewrite E. cbn [bind]. apply (accumulate_ok qs b c a cs Hq Hd Hc locs F None). constructor.
  - eapply Forall_impl; [|exact Hp]. intros p [((f & -> & _) & _) _]. reflexivity.
  - apply (check_ok b total); [apply H|]. eapply Forall_impl; [|exact Hp]. intros p (_ & A & B). split; assumption.
Qed.

Lemma C24_double_min qs (b : beam_t pynum Sec) ls ends total c n a cs : any_argsort qs ->
  float_beam b ls ends total -> ends_fit ls ends -> float_loads b c -> designates a cs -> cs <> [] ->
  (0 <= n <= 2 ^ 52)%Z -> exists out, beam_get_loads qs b c PosNone (Some n) a = Ok out.
Proof.
  intros Hq H Fit HT Hd Hc Hn. unfold beam_get_loads.
  destruct (min_points b ls ends total (Some c) n H (loads_tables b c HT) Hn) as (lin & real & qs' & _ & Eq & Fq & _).
  rewrite Eq. destruct (locations_ok b ls ends total c qs' H HT Fit) as (locs & E & F).
  - eapply Forall_impl; [|exact Fq]. tauto.
  - rewrite E. cbn [bind]. apply (accumulate_ok qs b c a cs Hq Hd Hc locs F None). constructor.
Qed.

(** If an element is shorter than the difference of its ends, asking at its end raises. *)
Lemma C24_double_fails qs (b : beam_t pynum Sec) ls ends total c a i l s t : float_beam b ls ends total -> float_loads b c ->
  nth_error ls i = Some l -> nth_error ends i = Some (s, Some t) -> neqb l (fl 0 1) = false -> nleb (nsub t s) l = false ->
  beam_get_loads qs b c (PosNum t) None a = Err PositionNotInElementError.
Proof.
  intros H HT El En Z NF. destruct (fb_finite _ _ _ _ _ _ _ H En) as (Ns & Nt & Is & It & G1 & G2 & G3).
  pose proof (fb_tiles _ _ _ _ H) as R. destruct (tiles_some R) as [_ Ln].
  assert (Dt : double t).
  { destruct (finite_start t Nt It) as (f & -> & Ff & _). eapply rounds_Pok, rounds_self; auto. }
  assert (Ct : check_on_beam b [t] = Ok tt).
  { apply (check_ok b total); [apply H|]. repeat constructor; auto. eapply le_trans; eauto. }
  assert (Ft : nisfloat t = true) by (destruct Dt as (f & -> & _); reflexivity).
  unfold beam_get_loads. rewrite (asked_query b (PosNum t) [t] (Some c) (a_num t)); auto.
  change (py_sorted (py_set [t])) with [t]. unfold locations. cbn [mapM].
  destruct (fb_ids b ls ends total t H) as (js & Ej & _). rewrite Ej. cbn [bind].
  rewrite (mapM_err (locations_at b (Some c) t) PositionNotInElementError); auto.
  - intros e He. pose proof He as He'. apply in_map_iff in He'. destruct He' as (j & <- & _).
    apply (fb_index b ls ends total t _ j H Ej) in He. destruct He as (s' & t' & En' & A & B).
    assert (Hj : (j < List.length ls)%nat) by (rewrite <- Ln; apply nth_error_Some; congruence).
    destruct (nth_error ls j) as [l'|] eqn:El'; [|apply nth_error_None in El'; lia].
    destruct (neqb l' (fl 0 1)) eqn:Z'.
    + left. destruct (at_result b ls ends total c t j s' t' l' H HT En' El' Dt A B) as (ts & Ets & _); eauto.
    + destruct (nleb (nsub t' s') l') eqn:Fj.
      * left. destruct (at_result b ls ends total c t j s' t' l' H HT En' El' Dt A B) as (ts & Ets & _); eauto.
      * pose proof (local_fit b ls ends total t j s' t' l' H En' El' Z' Dt A B) as (Eb & _ & _).
        unfold locations_at. pose proof H as (F & L & N & E1 & E2 & _).
        assert (Lb : List.length b = List.length ls) by (clear - F; induction F; cbn; congruence).
        assert (D : designated (List.length b) (Z.of_nat j) j) by (apply designated_nat; lia).
        destruct (elem_at b ls (Z.of_nat j) j F L D) as (el & l'' & ends' & s'' & total' & Q1 & Q2 & Q3 & _).
        assert (l'' = l') as -> by congruence. rewrite Q1. cbn [bind]. rewrite Q2.
        change (neqb l' (nint 0)) with (neqb l' (fl 0 1)). rewrite Z', Eb.
        destruct (nltb l' (nsub t s')); cbn [bind]; eauto.
  - exists (Z.of_nat i). split; [apply (fb_index b ls ends total t _ i H Ej); exists s, t; repeat split; auto; apply le_refl; now apply nnp_nan|].
    pose proof (local_fit b ls ends total t i s t l H En El Z Dt G2 (le_refl t (nnp_nan _ Nt))) as (Eb & _ & _).
    unfold locations_at. pose proof H as (F & L & N & E1 & E2 & _).
    assert (Lb : List.length b = List.length ls) by (clear - F; induction F; cbn; congruence).
    assert (D : designated (List.length b) (Z.of_nat i) i) by (apply designated_nat; rewrite Lb; apply nth_error_Some; congruence).
    destruct (elem_at b ls (Z.of_nat i) i F L D) as (el & l'' & ends' & s'' & total' & Q1 & Q2 & Q3 & Ll & _).
    assert (l'' = l) as -> by congruence. rewrite Q1. cbn [bind]. rewrite Q2.
    change (neqb l (nint 0)) with (neqb l (fl 0 1)). rewrite Z, Eb.
    assert (nltb l (nsub t s) = true) as ->; [|reflexivity].
    destruct (nltb l (nsub t s)) eqn:Q; auto. exfalso.
    assert (nleb (nsub t s) l = true); [|congruence]. apply lt_or; auto.
    + destruct (finite_start s Ns Is) as (sf & -> & Fs & _). destruct (finite_start t Nt It) as (tf & -> & Ftf & _).
      apply Pok_nan. cbn [nsub PNum arith2 tofl]. eapply rounds_Pok, sub_rounds; auto.
    + apply length_nn in Ll. destruct Ll as (lf & -> & _ & Fl). destruct lf; auto; contradiction.
Qed.

Lemma C24_double_iff qs (b : beam_t pynum Sec) ls ends total c a cs : any_argsort qs ->
  float_beam b ls ends total -> float_loads b c -> designates a cs -> cs <> [] ->
  ends_fit ls ends <->
  forall position ps, asked position ps ->
    Forall (fun p => finite_double p /\ nleb (fl 0 1) p = true /\ nleb p total = true) ps ->
    exists out, beam_get_loads qs b c position None a = Ok out.
Proof.
  intros Hq H HT Hd Hc. split.
  - intros Fit position ps As Hp. exact (C24_double_explicit qs b ls ends total c position ps a cs Hq H Fit HT Hd Hc As Hp).
  - intros All i l s t El En NZ. destruct (nleb (nsub t s) l) eqn:E; auto. exfalso.
    destruct (fb_finite _ _ _ _ _ _ _ H En) as (Ns & Nt & Is & It & G1 & G2 & G3).
    destruct (All (PosNum t) [t] (a_num t)) as (out & Eo).
    + constructor; [|constructor]. split; [|split; auto; exact (le_trans _ _ _ G1 G2)].
      destruct (finite_start t Nt It) as (f & -> & Ff & _). apply finite_double_fin. eauto.
    + rewrite (C24_double_fails qs b ls ends total c a i l s t H HT El En NZ E) in Eo. discriminate Eo.
Qed.

(** ** Whole steps *)
Lemma dyadic_value f n k : fin64 f -> dyadic (PFlt f) n k -> sfR f = IZR n * bp k.
Proof.
  intros F (A & B). destruct f as [z| | |z m e]; try contradiction; cbn [to_ext sfR] in *;
    apply ext_leb_R in A; apply ext_leb_R in B; rewrite ?signed_Z in *; rewrite ?Rmult_0_l in *; apply Rle_antisym; assumption.
Qed.

Lemma steps_fit k ns : (-1074 <= k <= 970)%Z -> Forall (fun n => (0 <= n)%Z) ns -> forall ls ends s total,
  Forall2 (fun l n => dyadic l n k) ls ns -> Forall length_double ls -> rounded_tiles (PFlt s) ls ends total ->
  forall N, fin64 s -> sfR s = IZR N * bp k -> (0 <= N)%Z -> (N + fold_right Z.add 0 ns <= 2 ^ 53)%Z -> ends_fit ls ends.
Proof.
  intros Hk. induction 1 as [|n ns Hn Hns IH]; intros ls ends s total F2 L R N Fs Vs HN Hsum; inversion F2 as [|l n' ls' ns' Hl F2']; subst.
  - intros i l' s' t' El. destruct i; discriminate El.
  - inversion L as [|? ? Ll L']; subst. inversion R as [|? ? ? r f R']; subst. clear R F2 L.
    cbn [fold_right] in Hsum.
    assert (Hs : (0 <= fold_right Z.add 0 ns)%Z) by (clear - Hns; induction Hns; cbn; lia).
    apply length_nn in Ll. destruct Ll as (lf & -> & Nl & Fl). pose proof (dyadic_value lf n k Fl Hl) as Vl.
    cbn [nadd PNum arith2 tofl] in *. pose proof (add_rounds s lf Fs Fl) as Ra. rewrite Vs, Vl in Ra.
    replace (IZR N * bp k + IZR n * bp k) with (IZR (N + n) * bp k) in Ra by (rewrite plus_IZR; ring).
    assert (Small : forall q, (0 <= q <= 2 ^ 53)%Z -> Rabs (IZR q * bp k) < bp 1024).
    { intros q Hq. pose proof (bp_pos k). assert (0 <= IZR q <= bp 53) as [B1 B2].
      { rewrite bp_Z by lia. split; apply IZR_le; lia. }
      rewrite Rabs_right by nra. apply Rle_lt_trans with (bp 53 * bp k); [nra|]. rewrite <- bp_add. apply bp_lt. lia. }
    destruct (rounds_exact (N + n) k _ ltac:(lia) ltac:(lia) (Small (N + n)%Z ltac:(lia)) Ra) as [Ft Vt].
    specialize (IH _ _ _ _ F2' L' R' (N + n)%Z Ft Vt ltac:(lia) ltac:(lia)).
    intros [|i] l' s' t' El En NZ.
    + cbn [nth_error] in El, En. injection El as <-. destruct (first_pair _ _ _ _ En) as [-> ->].
      cbn [nsub PNum arith2 tofl]. pose proof (sub_rounds _ s Ft Fs) as Rs. rewrite Vt, Vs in Rs.
      replace (IZR (N + n) * bp k - IZR N * bp k) with (IZR n * bp k) in Rs by (rewrite plus_IZR; ring).
      destruct (rounds_exact n k _ ltac:(lia) ltac:(lia) (Small n ltac:(lia)) Rs) as [Fd Vd].
      apply (fle_R _ lf Fd Fl). rewrite Vd, Vl. lra.
    + cbn [nth_error] in El, En. exact (IH i l' s' t' El En NZ).
Qed.

Lemma whole_steps_fit (b : beam_t pynum Sec) ls ends total : float_beam b ls ends total -> whole_steps ls -> ends_fit ls ends.
Proof.
  intros H (k & ns & Hk & F2 & Hns & Hsum). pose proof (fb_tiles _ _ _ _ H) as R. destruct H as (_ & L & _).
  rewrite fl_zero in R. apply (steps_fit k ns Hk Hns ls ends (S754_zero false) total F2 L R 0); auto; try lia.
  - exact I.
  - cbn [sfR]. ring.
Qed.
End P.
