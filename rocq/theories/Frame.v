(** Positions and loads do not depend on the sections of a beam. *)

From Coq Require Import ZArith List Bool.
From Verif Require Import Base Num Numpy LoadCase Beam Material Solvers AS4100 MatSpec BeamPositions AS4100Facts.
Import ListNotations.
Open Scope Z_scope.

Section Frame.
Context {T : Type} {NT : Num T} {S S' : Type}.
Notation fr := (Forall2 (@same_frame T S S')) (only parsing).

Lemma fr_sum b b' : fr b b' -> forall acc, sum_lengths acc b' = sum_lengths acc b.
Proof.
  induction 1 as [|e e' b b' (L & _) F IH]; intros acc; cbn; [reflexivity|].
  rewrite L. destruct (add_opt acc (elength e)); cbn; auto.
Qed.
Lemma fr_length b b' : fr b b' -> beam_length b' = beam_length b.
Proof. intros F. apply fr_sum. exact F. Qed.

Lemma fr_ends_from b b' : fr b b' -> forall prev, ends_from prev b' = ends_from prev b.
Proof.
  induction 1 as [|e e' b b' (L & _) F IH]; intros prev; cbn; [reflexivity|].
  destruct prev as [p|]; [|reflexivity]. rewrite L.
  destruct (add_opt p (elength e)); cbn; [|reflexivity]. now rewrite IH.
Qed.
Lemma fr_ends b b' : fr b b' -> element_ends b' = element_ends b.
Proof.
  intros [|e e' r r' (L & _) F]; cbn; [reflexivity|]. rewrite L. now rewrite (fr_ends_from _ _ F).
Qed.
Lemma fr_start_end b b' z : fr b b' -> element_start_end b' z = element_start_end b z.
Proof. intros F. unfold element_start_end. now rewrite (fr_ends _ _ F). Qed.
Lemma fr_in b b' p : fr b b' -> in_elements b' p = in_elements b p.
Proof. intros F. unfold in_elements. now rewrite (fr_ends _ _ F). Qed.

Lemma fr_index b b' z : fr b b' ->
  match py_index b z, py_index b' z with
  | Ok x, Ok y => same_frame x y | Err e, Err e' => e = e' | _, _ => False end.
Proof. apply py_index_Forall2. Qed.

(** A function of the length and the loads of the element at an index. *)
Lemma fr_at {A} (f : elem T S -> res A) (f' : elem T S' -> res A) b b' z : fr b b' ->
  (forall e e', same_frame e e' -> f' e' = f e) ->
  (let! e := py_index b' z in f' e) = (let! e := py_index b z in f e).
Proof.
  intros F H. pose proof (fr_index b b' z F) as X.
  destruct (py_index b z), (py_index b' z); cbn; try contradiction; auto. now rewrite X.
Qed.

Lemma fr_to_local b b' p z : fr b b' -> beam_to_local b' p z = beam_to_local b p z.
Proof.
  intros F. unfold beam_to_local. rewrite (fr_start_end b b' z F).
  destruct (element_start_end b z) as [se|]; cbn [bind]; [|reflexivity].
  apply fr_at; auto. intros e e' (L & _). now rewrite L.
Qed.
Lemma fr_to_beam b b' p z : fr b b' -> local_to_beam b' p z = local_to_beam b p z.
Proof.
  intros F. unfold local_to_beam. destruct (_ || _); [reflexivity|].
  rewrite (fr_start_end b b' z F).
  destruct (element_start_end b z) as [se|]; cbn [bind]; [|reflexivity].
  apply fr_at; auto. intros e e' (L & _). now rewrite L.
Qed.

Lemma fr_check b b' ps : fr b b' -> check_on_beam b' ps = check_on_beam b ps.
Proof.
  intros F. induction ps as [|p ps IH]; cbn; [reflexivity|].
  destruct (nltb p (nint 0)); [reflexivity|]. rewrite (fr_length b b' F).
  destruct (beam_length b); cbn; [|reflexivity]. now rewrite IH.
Qed.

Lemma fr_load_positions (e : elem T S) (e' : elem T S') c : same_frame e e' ->
  el_load_positions e' c = el_load_positions e c.
Proof. intros (_ & L). unfold el_load_positions. now rewrite L. Qed.

Lemma fr_real b b' lc : fr b b' -> forall es es', fr es es' -> forall i,
  real_positions b' lc i es' = real_positions b lc i es.
Proof.
  intros F es es' G. induction G as [|e e' es es' H G IH]; intros i; cbn; [reflexivity|].
  rewrite IH.
  assert (X : match lc with None => Ok [nflt 0 1; nflt 1 1] | Some c => el_load_positions e' c end
            = match lc with None => Ok [nflt 0 1; nflt 1 1] | Some c => el_load_positions e c end).
  { destruct lc; auto. now apply fr_load_positions. }
  rewrite X. clear X. destruct (match lc with None => _ | Some c => _ end) as [l|]; cbn [bind]; [|reflexivity].
  rewrite (mapM_ext (fun p => local_to_beam b' p i) (fun p => local_to_beam b p i)); auto.
  intros. now apply fr_to_beam.
Qed.

Lemma fr_zero (e : elem T S) (e' : elem T S') lc : same_frame e e' ->
  zero_length_positions e' lc = zero_length_positions e lc.
Proof.
  intros H. unfold zero_length_positions. destruct lc; auto.
  now rewrite (fr_load_positions e e' z H).
Qed.

Lemma fr_locations_at b b' lc p z : fr b b' -> locations_at b' lc p z = locations_at b lc p z.
Proof.
  intros F. unfold locations_at. apply fr_at; auto. intros e e' H.
  rewrite (fr_zero e e' lc H), (fr_to_local b b' p z F). destruct H as (L & _). now rewrite L.
Qed.

Lemma fr_locations b b' lc ps : fr b b' -> locations b' lc ps = locations b lc ps.
Proof.
  intros F. unfold locations. f_equal. apply mapM_ext. intros p _.
  rewrite (fr_in b b' p F). destruct (in_elements b p); cbn [bind]; [|reflexivity].
  f_equal. apply mapM_ext. intros z _. now apply fr_locations_at.
Qed.

Lemma fr_list_positions b b' position mp lc : fr b b' ->
  beam_list_positions b' position mp lc = beam_list_positions b position mp lc.
Proof.
  intros F. unfold beam_list_positions.
  rewrite (fr_length b b' F), (fr_ends b b' F), (fr_real b b' lc F b b' F).
  destruct position as [|x|l], mp as [n|]; try reflexivity.
  - destruct (beam_length b); cbn [bind]; [|reflexivity].
    destruct (linspace _ _ _); cbn [bind]; [|reflexivity].
    destruct (element_ends b); cbn [bind]; [|reflexivity].
    destruct (real_positions b lc 0 b); cbn [bind]; [|reflexivity].
    now apply fr_locations.
  - rewrite (fr_check b b' _ F). now rewrite (fr_locations b b' lc _ F).
  - rewrite (fr_check b b' _ F). now rewrite (fr_locations b b' lc _ F).
Qed.

Lemma fr_accumulate qs b b' lc comp locs : fr b b' -> forall acc,
  accumulate qs b' lc comp acc locs = accumulate qs b lc comp acc locs.
Proof.
  intros F. induction locs as [|[[p e] l] locs IH]; intros acc; cbn; [reflexivity|].
  apply fr_at; auto. intros x x' (_ & L). unfold el_get_loads. rewrite L.
  destruct (let! load := dict_get lc (eloads x) in get_load qs load (PosNum l) None comp) as [v|];
    cbn [bind]; [|reflexivity].
  destruct v as [rows|]; [|reflexivity].
  destruct acc as [a|]; cbn [bind]; [destruct (vstack a _); cbn [bind]; auto|apply IH].
Qed.

Lemma fr_get_loads qs b b' lc position mp comp : fr b b' ->
  beam_get_loads qs b' lc position mp comp = beam_get_loads qs b lc position mp comp.
Proof.
  intros F. unfold beam_get_loads. rewrite (fr_list_positions b b' position mp (Some lc) F).
  destruct (beam_list_positions b position mp (Some lc)); cbn [bind]; [|reflexivity].
  now apply fr_accumulate.
Qed.

Lemma fr_load_cases b b' : fr b b' -> beam_load_cases b' = beam_load_cases b.
Proof.
  intros [|e e' r r' (_ & L) F]; cbn; [reflexivity|]. unfold el_load_cases. now rewrite L.
Qed.
End Frame.

(** * Checks *)

Section Check.
Context {T : Type} {NT : Num T}.

(** Wrapped sections with the same area and strengths. *)
Definition same_strength (w w' : as_section T) : Prop :=
  as_radius w' = as_radius w /\ min_fy w' = min_fy w /\ min_fu w' = min_fu w.
Definition same_check (a a' : as4100 T) : Prop :=
  match cc_beam a, cc_beam a' with
  | Some b, Some b' => Forall2 same_frame b b'
  | None, None => True
  | _, _ => False
  end
  /\ assessment_points a' = assessment_points a
  /\ Forall2 same_strength (cc_as_sections a) (cc_as_sections a')
  /\ phi_steel a' = phi_steel a /\ alpha_u a' = alpha_u a /\ k_t a' = k_t a.

Lemma sc_sections a a' position : same_check a a' ->
  match sections_at a position, sections_at a' position with
  | Ok ss, Ok ss' => Forall2 same_strength ss ss' | Err e, Err e' => e = e' | _, _ => False end.
Proof.
  intros (B & _ & F & _).
  assert (G : match get_as4100_section a position None None, get_as4100_section a' position None None with
    | Ok (ps, ss), Ok (ps', ss') => ps' = ps /\ Forall2 same_strength ss ss'
    | Err e, Err e' => e = e' | _, _ => False end).
  { unfold get_as4100_section. destruct (cc_beam a) as [b|], (cc_beam a') as [b'|]; try contradiction; auto.
    rewrite (fr_list_positions b b' position None None B).
    destruct (beam_list_positions b position None None) as [locs|]; cbn [bind]; auto.
    assert (K : match mapM (fun l : location T => py_index (cc_as_sections a) (snd (fst l))) locs,
                      mapM (fun l : location T => py_index (cc_as_sections a') (snd (fst l))) locs with
                | Ok ss, Ok ss' => Forall2 same_strength ss ss' | Err e, Err e' => e = e'
                | _, _ => False end).
    { induction locs as [|[[p z] l] locs IH]; cbn [mapM]; [constructor|]. cbn [fst snd].
      pose proof (py_index_Forall2 same_strength _ _ z F) as X.
      destruct (py_index (cc_as_sections a) z), (py_index (cc_as_sections a') z); cbn [bind];
        try contradiction; auto.
      destruct (mapM _ locs), (mapM _ locs); cbn [bind]; try contradiction; auto. }
    unfold location in *.
    destruct (mapM _ locs), (mapM _ locs); cbn [bind]; try contradiction; auto. }
  unfold sections_at. destruct position; auto;
    destruct (get_as4100_section a _ None None) as [[ps ss]|], (get_as4100_section a' _ None None) as [[ps' ss']|];
    cbn [bind snd]; try contradiction; auto; now destruct G.
Qed.

Lemma sc_mapM {B} (f f' : as_section T -> res B) ss ss' :
  (forall w w', same_strength w w' -> f' w' = f w) ->
  Forall2 same_strength ss ss' -> mapM f' ss' = mapM f ss.
Proof. intros H. induction 1 as [|w w' ss ss' W F IH]; cbn; [reflexivity|]. now rewrite (H w w' W), IH. Qed.

Lemma sc_Nty a a' position : same_check a a' -> Nty a' position = Nty a position.
Proof.
  intros C. pose proof (sc_sections a a' position C) as G. unfold Nty.
  destruct (sections_at a position), (sections_at a' position); cbn [bind]; try contradiction; [|congruence].
  erewrite sc_mapM; [reflexivity| |exact G]. intros w w' (R & Y & U). unfold Ag. now rewrite R, Y.
Qed.
Lemma sc_Ntu a a' position : same_check a a' -> Ntu a' position = Ntu a position.
Proof.
  intros C. pose proof (sc_sections a a' position C) as G. destruct C as (_ & _ & _ & _ & Eu & Ek).
  unfold Ntu. rewrite Eu, Ek.
  destruct (sections_at a position), (sections_at a' position); cbn [bind]; try contradiction; [|congruence].
  erewrite sc_mapM; [reflexivity| |exact G]. intros w w' (R & Y & U). unfold An. now rewrite R, U.
Qed.
Lemma sc_Nt a a' position : same_check a a' -> Nt a' position = Nt a position.
Proof. intros C. unfold Nt. now rewrite (sc_Nty a a' position C), (sc_Ntu a a' position C). Qed.
Lemma sc_capacity a a' position : same_check a a' -> tension_capacity a' position = tension_capacity a position.
Proof.
  intros C. unfold tension_capacity, phiNt. rewrite (sc_Nt a a' position C).
  destruct C as (_ & _ & _ & E & _). now rewrite E.
Qed.

Lemma sc_tension qs a a' lc position mp : same_check a a' ->
  get_tension qs a' lc position mp = get_tension qs a lc position mp.
Proof.
  intros (B & _). unfold get_tension.
  destruct (cc_beam a) as [b|], (cc_beam a') as [b'|]; try contradiction; auto.
  now rewrite (fr_get_loads qs b b' lc position mp _ B).
Qed.

Lemma sc_utils qs a a' l p : same_check a a' -> utils_at qs a' l p = utils_at qs a l p.
Proof.
  intros C. unfold utils_at. now rewrite (sc_capacity a a' _ C), (sc_tension qs a a' _ _ _ C).
Qed.

Lemma sc_loop qs a a' b b' ls : same_check a a' -> Forall2 same_frame b b' -> forall pos,
  util_loop qs a' b' pos ls = util_loop qs a b pos ls.
Proof.
  intros C F. induction ls as [|l ls IH]; intros pos; cbn [util_loop]; [reflexivity|].
  rewrite (fr_list_positions b b' _ _ _ F). destruct C as (B & Ea & R). rewrite Ea.
  destruct (match pos with None => _ | Some ps => _ end) as [ps|]; cbn [bind]; [|reflexivity].
  rewrite (mapM_ext (utils_at qs a' l) (utils_at qs a l)).
  - now rewrite IH.
  - intros. apply sc_utils. repeat (split; [assumption|]). exact R.
Qed.

Lemma sc_utilisation qs a a' lc position : same_check a a' ->
  tension_utilisation qs a' lc position = tension_utilisation qs a lc position.
Proof.
  intros C. pose proof C as (B & _). unfold tension_utilisation.
  destruct (cc_beam a) as [b|] eqn:Eb, (cc_beam a') as [b'|] eqn:Eb'; try contradiction; auto.
  rewrite (fr_load_cases b b' B).
  destruct (match lc with LCNone => _ | LCInt z => _ | LCList l => _ end); cbn [bind]; [|reflexivity].
  destruct (match position with PosNone => _ | PosNum x => _ | PosList l => _ end); cbn [bind]; [|reflexivity].
  now rewrite (sc_loop qs a a' b b' _ C B).
Qed.
End Check.

(** * Capacities do not depend on the loads *)

Section Loads.
Context {T : Type} {NT : Num T} {S S' : Type}.
Notation ln := (Forall2 (fun (e : elem T S) (e' : elem T S') => elength e' = elength e)) (only parsing).

(** The elements without their loads. *)
Definition unload {X} (e : elem T X) : elem T X := mk_elem (elength e) (esection e) [].

Lemma unload_locations {X} (b : beam_t T X) ps : locations (map unload b) None ps = locations b None ps.
Proof.
  assert (Es : forall acc, sum_lengths acc (map unload b) = sum_lengths acc b).
  { induction b as [|e r IH]; intros acc; cbn; auto. destruct (add_opt acc (elength e)); cbn; auto. }
  assert (Ef : forall r prev, ends_from prev (map (@unload X) r) = ends_from prev r).
  { induction r as [|e r IH]; intros prev; cbn; auto. destruct prev as [p|]; auto.
    destruct (add_opt p (elength e)); cbn; auto. now rewrite IH. }
  assert (Ee : element_ends (map unload b) = element_ends b) by (destruct b; cbn; auto; now rewrite Ef).
  assert (Ei : forall z, py_index (map unload b) z = rmap unload (py_index b z)).
  { intros z. unfold py_index. rewrite map_length. destruct (_ || _); [reflexivity|].
    rewrite nth_error_map. now destruct (nth_error b _). }
  assert (El : forall p z, beam_to_local (map unload b) p z = beam_to_local b p z).
  { intros p z. unfold beam_to_local, element_start_end. rewrite Ee, Ei.
    destruct (element_ends b); cbn [bind]; auto. destruct (py_index a z); cbn [bind]; auto.
    destruct (py_index b z); reflexivity. }
  unfold locations. f_equal. apply mapM_ext. intros p _. unfold in_elements. rewrite Ee.
  destruct (element_ends b) as [ends|]; cbn [bind]; [|reflexivity].
  destruct (in_ends p 0 ends); cbn [bind]; [|reflexivity]. f_equal. apply mapM_ext. intros z _.
  unfold locations_at. rewrite Ei, El. destruct (py_index b z) as [e|]; cbn [rmap bind]; [|reflexivity].
  reflexivity.
Qed.

Lemma unload_positions {X} (b : beam_t T X) position :
  beam_list_positions (map unload b) position None None = beam_list_positions b position None None.
Proof.
  assert (Es : forall acc, sum_lengths acc (map unload b) = sum_lengths acc b).
  { induction b as [|e r IH]; intros acc; cbn; auto. destruct (add_opt acc (elength e)); cbn; auto. }
  assert (Ec : forall ps, check_on_beam (map unload b) ps = check_on_beam b ps).
  { induction ps as [|p ps IH]; cbn; auto. destruct (nltb p (nint 0)); auto.
    unfold beam_length. rewrite Es. destruct (sum_lengths (nint 0) b); cbn; auto. now rewrite IH. }
  unfold beam_list_positions. destruct position; auto; now rewrite Ec, unload_locations.
Qed.

Lemma ln_positions b b' position : ln b b' ->
  beam_list_positions b' position None None = beam_list_positions b position None None.
Proof.
  intros F. rewrite <- (unload_positions b'), <- (unload_positions b).
  apply fr_list_positions. induction F as [|e e' b b' L F IH]; cbn; constructor; auto. now split.
Qed.
End Loads.

Section Capacity.
Context {T : Type} {NT : Num T}.

Lemma ln_capacity phi au kt (b b' : beam_t T (section T)) s s' a a' :
  Forall2 (fun e e' => elength e' = elength e /\ esection e' = esection e) b b' ->
  make_as4100 phi au kt (Some b) s = Ok a -> make_as4100 phi au kt (Some b') s' = Ok a' ->
  forall position,
  Nty a' position = Nty a position /\ Ntu a' position = Ntu a position
  /\ tension_capacity a' position = tension_capacity a position.
Proof.
  intros F H H' position. unfold make_as4100 in H, H'. cbn [sections_of] in *.
  assert (E : beam_sections b' = beam_sections b).
  { clear - F. unfold beam_sections. induction F as [|e e' b b' (_ & L) F IH]; cbn; auto. congruence. }
  rewrite E in H'. destruct (mapM as_factory (beam_sections b)) as [ws|]; [|discriminate H].
  cbn [bind] in *. injection H as <-. injection H' as <-.
  assert (G : forall p, sections_at (mk_as4100 (Some b') s' 20 ws phi au kt) p
                      = sections_at (mk_as4100 (Some b) s 20 ws phi au kt) p).
  { assert (F1 : Forall2 (fun e e' => elength e' = elength e) b b') by (clear - F; induction F; constructor; tauto).
    intros p. unfold sections_at, get_as4100_section. cbn [cc_beam cc_as_sections].
    rewrite !(ln_positions b b' _ F1). reflexivity. }
  assert (A : Nty (mk_as4100 (Some b') s' 20 ws phi au kt) position
            = Nty (mk_as4100 (Some b) s 20 ws phi au kt) position) by (unfold Nty; now rewrite G).
  assert (B : Ntu (mk_as4100 (Some b') s' 20 ws phi au kt) position
            = Ntu (mk_as4100 (Some b) s 20 ws phi au kt) position) by (unfold Ntu; now rewrite G).
  split; auto. split; auto. unfold tension_capacity, phiNt, Nt. now rewrite A, B.
Qed.
End Capacity.

Lemma fr_all {T} {NT : Num T} {S S' : Type} (b : beam_t T S) (b' : beam_t T S') :
  Forall2 same_frame b b' ->
  beam_length b' = beam_length b /\ element_ends b' = element_ends b
  /\ beam_load_cases b' = beam_load_cases b
  /\ (forall p, in_elements b' p = in_elements b p)
  /\ (forall position mp lc, beam_list_positions b' position mp lc = beam_list_positions b position mp lc)
  /\ forall qs lc position mp comp,
     beam_get_loads qs b' lc position mp comp = beam_get_loads qs b lc position mp comp.
Proof.
  intros F. split; [now apply fr_length|]. split; [now apply fr_ends|].
  split; [now apply fr_load_cases|]. split; [intros; now apply fr_in|].
  split; [intros; now apply fr_list_positions|intros; now apply fr_get_loads].
Qed.
