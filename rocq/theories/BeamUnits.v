(** Measuring lengths and positions in another unit (metres or millimetres). *)

From Coq Require Import String ZArith Reals Lra Lia List Bool Sorted.
From Verif Require Import Base Num RNum Numpy LoadCase LoadSpec LoadProofs Beam BeamSpec BeamFacts
  BeamPositions BeamProofs BeamLoads TransformSpec BeamJoin Sanity Material AS4100.
Import ListNotations.
Open Scope R_scope.

Lemma span_units k ls : span (map (Rmult k) ls) = k * span ls.
Proof. unfold span. induction ls as [|l ls IH]; cbn; [|rewrite IH]; ring. Qed.

Lemma start_units k ls i : start_of (map (Rmult k) ls) i = k * start_of ls i.
Proof. unfold start_of. now rewrite firstn_map, span_units. Qed.

Lemma nth_units k ls i : nth i (map (Rmult k) ls) 0 = k * nth i ls 0.
Proof.
  revert i. induction ls as [|l ls IH]; intros [|i]; cbn; auto; ring.
Qed.

Lemma Rleb_units k a b : 0 < k -> Rleb (k * a) (k * b) = Rleb a b.
Proof.
  intros K. apply eq_true_iff_eq. rewrite !Rleb_true. split; intros H.
  - now apply Rmult_le_reg_l with k.
  - apply Rmult_le_compat_l; lra.
Qed.
Lemma Rltb_units k a b : 0 < k -> Rltb (k * a) (k * b) = Rltb a b.
Proof.
  intros K. apply eq_true_iff_eq. rewrite !Rltb_true. split; intros H.
  - now apply Rmult_lt_reg_l with k.
  - apply Rmult_lt_compat_l; lra.
Qed.

Lemma ids_units k ls p : 0 < k -> ids (map (Rmult k) ls) (k * p) = ids ls p.
Proof.
  intros K. unfold ids. rewrite map_length. apply filter_ext. intros i. unfold in_ext.
  rewrite !end_start, !start_units, !Rleb_units; auto.
Qed.

Lemma sorted_unique_R : forall l m : list R, StronglySorted Rlt l -> StronglySorted Rlt m ->
  (forall x, In x l <-> In x m) -> l = m.
Proof.
  induction l as [|x l IH]; intros [|y m] Sl Sm H; auto.
  - exfalso. apply (proj2 (H y)). now left.
  - exfalso. apply (proj1 (H x)). now left.
  - inversion Sl; inversion Sm; subst. rewrite Forall_forall in *.
    assert (x = y).
    { destruct (proj1 (H x) (or_introl eq_refl)) as [E|E]; auto.
      destruct (proj2 (H y) (or_introl eq_refl)) as [F|F]; auto.
      specialize (H3 y F). specialize (H7 x E). lra. }
    subst y. f_equal. apply IH; auto. intros z. split; intros Hz.
    + destruct (proj1 (H z) (or_intror Hz)) as [E|E]; auto. subst z. specialize (H3 x Hz). lra.
    + destruct (proj2 (H z) (or_intror Hz)) as [E|E]; auto. subst z. specialize (H7 x Hz). lra.
Qed.

Lemma map_units_sorted k l : 0 < k -> StronglySorted Rlt l -> StronglySorted Rlt (map (Rmult k) l).
Proof.
  intros K. induction 1 as [|x l S IH F]; cbn; constructor; auto.
  rewrite Forall_forall in *. intros y Hy. apply in_map_iff in Hy. destruct Hy as (z & <- & Hz).
  apply Rmult_lt_compat_l; auto.
Qed.

Lemma in_map_units k l x : 0 < k -> In (k * x) (map (Rmult k) l) <-> In x l.
Proof.
  intros K. split; intros H; [|now apply in_map].
  apply in_map_iff in H. destruct H as (y & E & Hy). apply Rmult_eq_reg_l in E; [now subst|lra].
Qed.

Lemma sorted_set_units k l : 0 < k ->
  py_sorted (py_set (map (Rmult k) l)) = map (Rmult k) (py_sorted (py_set l)).
Proof.
  intros K. apply sorted_unique_R.
  - apply sorted_set_R.
  - apply map_units_sorted; auto. apply sorted_set_R.
  - intros x. rewrite Rin_sorted_set. split; intros H; apply in_map_iff in H; destruct H as (y & <- & Hy);
      apply in_map; [now apply Rin_sorted_set|now rewrite Rin_sorted_set in Hy].
Qed.

Lemma py_index_map {A B} (f : A -> B) l e : py_index (map f l) e = rmap f (py_index l e).
Proof.
  unfold py_index. rewrite map_length. destruct (_ || _)%Z; [reflexivity|].
  rewrite nth_error_map. destruct (nth_error l _); reflexivity.
Qed.

Section B.
Context {Sec : Type}.
Implicit Types b : beam_t R Sec.

Lemma units_lengths k b ls : 0 < k -> has_lengths b ls -> has_lengths (in_units k b) (map (Rmult k) ls).
Proof.
  intros K. induction 1 as [|e l b ls [E L] H IH]; cbn; constructor; auto.
  cbn. rewrite E. split; auto. apply Rmult_le_pos; lra.
Qed.

Lemma units_locations_at k b ls lc p i : 0 < k -> has_lengths b ls -> covers ls i p ->
  locations_at (in_units k b) lc (k * p) (Z.of_nat i) = rmap (map (loc_units k)) (locations_at b lc p (Z.of_nat i)).
Proof.
  intros K H C. pose proof (units_lengths k b ls K H) as H'.
  destruct (lengths_has b ls i H (proj1 C)) as (e & E).
  assert (C' : covers (map (Rmult k) ls) i (k * p)).
  { apply in_ids. rewrite ids_units by auto. now apply in_ids. }
  assert (E' : nth_error (in_units k b) i =
    Some (mk_elem (option_map (Rmult k) (elength e)) (esection e) (eloads e))).
  { unfold in_units. now rewrite nth_error_map, E. }
  rewrite (locations_at_R b ls lc p i e H C E), (locations_at_R _ _ lc (k * p) i _ H' C' E').
  unfold locals_at. rewrite nth_units, start_units.
  assert (Z : Reqb (k * nth i ls 0) 0 = Reqb (nth i ls 0) 0).
  { apply eq_true_iff_eq. rewrite !Reqb_true. split; [|intros ->; ring].
    intros Z. destruct (Rmult_integral _ _ Z); [lra|auto]. }
  rewrite Z. destruct (Reqb (nth i ls 0) 0) eqn:D.
  - change (zero_length_positions (mk_elem (option_map (Rmult k) (elength e)) (esection e) (eloads e)) lc)
      with (zero_length_positions e lc).
    destruct (zero_length_positions e lc); cbn [rmap bind]; auto. rewrite map_map. reflexivity.
  - apply Reqb_false in D.
    replace ((k * p - k * start_of ls i) / (k * nth i ls 0)) with ((p - start_of ls i) / nth i ls 0)
      by (field; lra).
    reflexivity.
Qed.

Lemma units_locations k b ls lc ps : 0 < k -> has_lengths b ls ->
  locations (in_units k b) lc (map (Rmult k) ps) = rmap (map (loc_units k)) (locations b lc ps).
Proof.
  intros K H. rewrite (locations_R b ls lc ps H), (locations_R _ _ lc _ (units_lengths k b ls K H)).
  rewrite mapM_map. rewrite (mapM_ext _ (fun p => rmap (map (loc_units k)) (locs_at b ls lc p))).
  - rewrite mapM_rmap. destruct (mapM _ ps); cbn [rmap bind]; auto. now rewrite concat_map.
  - intros p _. unfold locs_at. rewrite ids_units by auto.
    rewrite (mapM_ext _ (fun i => rmap (map (loc_units k)) (locations_at b lc p (Z.of_nat i)))).
    + rewrite mapM_rmap. destruct (mapM _ (ids ls p)); cbn [rmap bind]; auto. now rewrite concat_map.
    + intros i Hi. apply in_ids in Hi. now apply (units_locations_at k b ls).
Qed.

Lemma units_check k b ls ps : 0 < k -> has_lengths b ls ->
  check_on_beam (in_units k b) (map (Rmult k) ps) = check_on_beam b ps.
Proof.
  intros K H. induction ps as [|p ps IH]; cbn [map check_on_beam]; auto.
  rewrite (beam_length_R b ls H), (beam_length_R _ _ (units_lengths k b ls K H)). cbn [bind nltb nint RNum].
  rewrite span_units. replace (IZR 0) with (k * 0) at 1 by (cbn; ring).
  rewrite !Rltb_units by auto. now rewrite IH.
Qed.

Lemma units_ends k b ls : 0 < k -> has_lengths b ls ->
  element_ends (in_units k b) =
  Ok (map (fun se => (k * fst se, option_map (Rmult k) (snd se))) (ends ls)).
Proof.
  intros K H. rewrite (element_ends_R _ _ (units_lengths k b ls K H)). f_equal. unfold ends.
  rewrite map_map, map_length. apply map_ext. intros i. cbn [fst snd option_map]. rewrite !end_start, !start_units. reflexivity.
Qed.

Lemma units_local_to_beam k b ls p e : 0 < k -> has_lengths b ls ->
  local_to_beam (in_units k b) p e = rmap (Rmult k) (local_to_beam b p e).
Proof.
  intros K H. unfold local_to_beam, element_start_end. destruct (_ || _); [reflexivity|].
  rewrite (units_ends k b ls K H), (element_ends_R b ls H). cbn [bind]. rewrite py_index_map.
  destruct (py_index (ends ls) e) as [[s f]|]; cbn [rmap bind]; auto.
  unfold in_units. rewrite py_index_map. destruct (py_index b e) as [el|]; cbn [rmap bind]; auto.
  cbn [elength]. destruct (elength el); cbn [option_map rmap]; auto. cbn [fst nadd nmul RNum]. f_equal. ring.
Qed.

Lemma units_real k b ls lc : 0 < k -> has_lengths b ls -> forall es i,
  real_positions (in_units k b) lc i (in_units k es) = rmap (map (Rmult k)) (real_positions b lc i es).
Proof.
  intros K H. induction es as [|e es IH]; intros i; cbn [in_units map real_positions]; auto.
  change (map _ es) with (in_units k es). rewrite IH.
  change (el_load_positions (mk_elem _ _ (eloads e))) with (el_load_positions e).
  destruct (match lc with None => _ | Some c => _ end) as [xs|]; cbn [bind]; auto.
  rewrite (mapM_ext _ (fun p => rmap (Rmult k) (local_to_beam b p i))) by (intros; now apply (units_local_to_beam k b ls)).
  rewrite mapM_rmap. destruct (mapM _ xs); cbn [rmap bind]; auto.
  destruct (real_positions b lc (i + 1) es); cbn [rmap bind]; auto. now rewrite map_app.
Qed.

Lemma set_update_set (s l : list R) : set_update (py_set s) l = py_set (s ++ l).
Proof. unfold py_set, set_update. now rewrite fold_left_app. Qed.

Theorem units_list_positions k b ls position mp lc : 0 < k -> has_lengths b ls ->
  beam_list_positions (in_units k b) (pos_units k position) mp lc =
  rmap (map (loc_units k)) (beam_list_positions b position mp lc).
Proof.
  intros K H. unfold beam_list_positions. destruct position as [|x|l], mp as [n|]; cbn [pos_units]; auto.
  - rewrite (beam_length_R b ls H), (beam_length_R _ _ (units_lengths k b ls K H)). cbn [bind].
    destruct (Z_lt_le_dec n 0) as [Hn|Hn]; [now rewrite !linspace_negative|].
    rewrite !linspace_R by auto. cbn [bind].
    rewrite (units_ends k b ls K H), (element_ends_R b ls H). cbn [bind].
    rewrite (units_real k b ls lc K H). destruct (real_positions b lc 0 b) as [real|]; cbn [rmap bind]; auto.
    rewrite !set_update_set.
    replace (_ ++ _) with (map (Rmult k) ((flatten_ends (ends ls) ++ real) ++
       map (fun i => even_point n i * span ls) (seq 0 (Z.to_nat n)))).
    + rewrite sorted_set_units by auto. now apply (units_locations k b ls).
    + rewrite !map_app, !map_map. apply f_equal2; [apply f_equal2; auto|].
      * unfold flatten_ends, ends. rewrite !flat_map_concat_map, concat_map, !map_map. reflexivity.
      * apply map_ext. intros i. rewrite span_units. ring.
  - cbn [nisfloat RNum]. change [k * x] with (map (Rmult k) [x]). rewrite (units_check k b ls [x] K H).
    destruct (check_on_beam b [x]); cbn [bind]; auto. rewrite sorted_set_units by auto.
    now apply (units_locations k b ls).
  - rewrite (units_check k b ls l K H).
    destruct (check_on_beam b l); cbn [bind]; auto. rewrite sorted_set_units by auto.
    now apply (units_locations k b ls).
Qed.

Lemma vstack_plain (a v : list (orow R)) : vstack a v =
  match a, v with
  | ra :: _, rv :: _ => if Nat.eqb (List.length (snd ra)) (List.length (snd rv)) then Ok (a ++ v) else Err ValueError
  | _, _ => Ok (a ++ v)
  end.
Proof.
  destruct (vstack a v) as [s|e] eqn:E.
  - rewrite (vstack_R a v s E). destruct a as [|ra a]; auto. destruct v as [|rv v]; auto.
    unfold vstack in E. destruct (Nat.eqb _ _); [auto|discriminate].
  - unfold vstack in E. destruct a as [|ra a]; [discriminate|]. destruct v as [|rv v]; [discriminate|].
    destruct (Nat.eqb _ _); [discriminate|]. now injection E as <-.
Qed.

Lemma vstack_units k a v : vstack (rows_units k a) (rows_units k v) = rmap (rows_units k) (vstack a v).
Proof.
  rewrite !vstack_plain. unfold rows_units. destruct a as [|ra a]; [reflexivity|]. destruct v as [|rv v]; cbn [map snd].
  - cbn. now rewrite !app_nil_r.
  - destruct (Nat.eqb _ _); [|reflexivity]. cbn [rmap]. now rewrite map_app.
Qed.

Lemma set_position_units k p (rows : list (orow R)) : set_position (k * p) rows = rows_units k (set_position p rows).
Proof. rewrite !set_position_R. unfold at_position, rows_units. now rewrite map_map. Qed.

Lemma accumulate_units k qs b c comp : forall locs acc,
  accumulate qs (in_units k b) c comp (option_map (rows_units k) acc) (map (loc_units k) locs) =
  rmap (option_map (rows_units k)) (accumulate qs b c comp acc locs).
Proof.
  induction locs as [|[[p e] l] locs IH]; intros acc; [reflexivity|].
  cbn [map loc_units accumulate fst snd]. unfold in_units at 1. rewrite py_index_map.
  destruct (py_index b e) as [el|]; cbn [rmap bind]; auto.
  change (el_get_loads qs (mk_elem _ _ (eloads el))) with (el_get_loads qs el).
  destruct (el_get_loads qs el c (PosNum l) None comp) as [[rows|]|]; cbn [bind]; auto.
  rewrite set_position_units. destruct acc as [a|]; cbn [option_map].
  - rewrite vstack_units. destruct (vstack a (set_position p rows)) as [s|]; cbn [rmap bind]; auto.
    exact (IH (Some s)).
  - exact (IH (Some (set_position p rows))).
Qed.

Theorem units_get_loads k qs b ls c position mp comp : 0 < k -> has_lengths b ls ->
  beam_get_loads qs (in_units k b) c (pos_units k position) mp comp =
  rmap (option_map (rows_units k)) (beam_get_loads qs b c position mp comp).
Proof.
  intros K H. unfold beam_get_loads. rewrite (units_list_positions k b ls position mp (Some c) K H).
  destruct (beam_list_positions b position mp (Some c)); cbn [rmap bind]; auto.
  exact (accumulate_units k qs b c comp _ None).
Qed.

Theorem units_get_section k b ls position mp lc : 0 < k -> has_lengths b ls ->
  beam_get_section (in_units k b) (pos_units k position) mp lc =
  rmap (fun ps => (map (Rmult k) (fst ps), snd ps)) (beam_get_section b position mp lc).
Proof.
  intros K H. unfold beam_get_section. rewrite (units_list_positions k b ls position mp lc K H).
  destruct (beam_list_positions b position mp lc) as [locs|]; cbn [rmap bind]; auto.
  rewrite mapM_map.
  set (f := fun l : R * Z * R => let! e := py_index b (snd (fst l)) in Ok (esection e)).
  rewrite (mapM_ext _ f).
  - change (mapM f locs) with (@mapM (R * Z * R) (option Sec) f locs).
    destruct (@mapM (R * Z * R) (option Sec) f locs); cbn [rmap bind]; auto. cbn [fst snd]. now rewrite !map_map.
  - intros [[p e] l] _. unfold f. cbn [loc_units fst snd]. unfold in_units. rewrite py_index_map.
    destruct (py_index b e); reflexivity.
Qed.

End B.

(** ** The tension check *)

Lemma get_tension_units k qs a b ls c position mp : 0 < k -> cc_beam a = Some b -> has_lengths b ls ->
  get_tension qs (cc_units k a) c (pos_units k position) mp = rmap (rows_units k) (get_tension qs a c position mp).
Proof.
  intros K Eb H. unfold get_tension. cbn [cc_units cc_beam]. rewrite Eb. cbn [option_map].
  rewrite (units_get_loads k qs b ls c position mp _ K H).
  destruct (beam_get_loads qs b c position mp (CStr "N"%string)) as [[rows|]|]; cbn [rmap bind option_map]; auto.
  unfold rows_units at 2. rewrite mapM_map.
  rewrite (mapM_ext _ (fun r => rmap (fun r => (k * fst r, snd r)) (clip_row (existsb row_has_float rows) r))).
  - rewrite mapM_rmap. reflexivity.
  - intros [p cs] _. unfold clip_row. cbn [fst snd].
    destruct cs as [|[n|] [|? ?]]; try reflexivity.
    destruct (existsb _ _), (existsb _ _); reflexivity.
Qed.

Lemma sections_at_units k a b ls position : 0 < k -> cc_beam a = Some b -> has_lengths b ls ->
  sections_at (cc_units k a) (pos_units k position) = sections_at a position.
Proof.
  intros K Eb H. assert (G : forall position,
    get_as4100_section (cc_units k a) (pos_units k position) None None =
    rmap (fun ps => (map (Rmult k) (fst ps), snd ps)) (get_as4100_section a position None None)).
  { intros q. unfold get_as4100_section. cbn [cc_units cc_beam cc_as_sections]. rewrite Eb. cbn [option_map].
    rewrite (units_list_positions k b ls q None None K H).
    destruct (beam_list_positions b q None None) as [locs|]; cbn [rmap bind]; auto.
    rewrite mapM_map. set (f := fun l : R * Z * R => py_index (cc_as_sections a) (snd (fst l))).
    change (mapM _ locs) with (@mapM (R * Z * R) (as_section R) f locs) at 1.
    destruct (@mapM (R * Z * R) (as_section R) f locs); cbn [rmap bind]; auto. cbn [fst snd]. now rewrite !map_map. }
  unfold sections_at. destruct position as [|x|l]; cbn [pos_units]; auto.
  - pose proof (G (PosNum x)) as E. cbn [pos_units] in E. rewrite E.
    destruct (get_as4100_section a (PosNum x) None None) as [[? ?]|]; reflexivity.
  - pose proof (G (PosList l)) as E. cbn [pos_units] in E. rewrite E.
    destruct (get_as4100_section a (PosList l) None None) as [[? ?]|]; reflexivity.
Qed.

Theorem units_capacity k a b ls position : 0 < k -> cc_beam a = Some b -> has_lengths b ls ->
  tension_capacity (cc_units k a) (pos_units k position) = tension_capacity a position.
Proof.
  intros K Eb H. unfold tension_capacity, phiNt, Nt, Nty, Ntu.
  now rewrite (sections_at_units k a b ls position K Eb H).
Qed.

Lemma utils_at_units k qs a b ls l p : 0 < k -> cc_beam a = Some b -> has_lengths b ls ->
  utils_at qs (cc_units k a) l (k * p) = utils_at qs a l p.
Proof.
  intros K Eb H. unfold utils_at. pose proof (units_capacity k a b ls (PosNum p) K Eb H) as E.
  cbn [pos_units] in E. rewrite E. destruct (tension_capacity a (PosNum p)) as [cap|]; cbn [bind]; auto.
  pose proof (get_tension_units k qs a b ls l (PosNum p) None K Eb H) as F. cbn [pos_units] in F. rewrite F.
  destruct (get_tension qs a l (PosNum p) None) as [rows|]; cbn [rmap bind]; auto.
  unfold rows_units. rewrite mapM_map. reflexivity.
Qed.

Theorem units_utilisation k qs a b ls lc position : 0 < k -> cc_beam a = Some b -> has_lengths b ls ->
  tension_utilisation qs (cc_units k a) lc (pos_units k position) = tension_utilisation qs a lc position.
Proof.
  intros K Eb H. unfold tension_utilisation. cbn [cc_units cc_beam]. rewrite Eb. cbn [option_map].
  assert (L : beam_load_cases (in_units k b) = beam_load_cases b) by (destruct b; reflexivity).
  rewrite L.
  set (lcs := match lc with LCNone => _ | LCInt z => _ | LCList l => _ end). destruct lcs as [cs|]; cbn [bind]; auto.
  assert (U : forall ps ls', mapM (utils_at qs (cc_units k a) ls') (map (Rmult k) ps) = mapM (utils_at qs a ls') ps).
  { intros ps l. rewrite mapM_map. apply mapM_ext. intros p _. now apply (utils_at_units k qs a b ls). }
  assert (G : forall cs pos, util_loop qs (cc_units k a) (in_units k b) (option_map (map (Rmult k)) pos) cs =
                             util_loop qs a b pos cs).
  { induction cs0 as [|c cs0 IH]; intros pos; cbn [util_loop]; auto. destruct pos as [ps|]; cbn [option_map bind].
    - rewrite U. destruct (mapM _ ps); cbn [bind]; auto. pose proof (IH (Some ps)) as E. cbn [option_map] in E. now rewrite E.
    - cbn [cc_units assessment_points].
      pose proof (units_list_positions k b ls PosNone (Some (assessment_points a)) (Some c) K H) as E.
      cbn [pos_units] in E. rewrite E.
      destruct (beam_list_positions b PosNone (Some (assessment_points a)) (Some c)) as [locs|]; cbn [rmap bind]; auto.
      rewrite map_map. cbn [loc_units fst]. rewrite <- (map_map (fun x : R * Z * R => fst (fst x)) (Rmult k)).
      rewrite U. destruct (mapM _ _); cbn [bind]; auto.
      pose proof (IH (Some (map (fun x => fst (fst x)) locs))) as F. cbn [option_map] in F. now rewrite F. }
  destruct position as [|x|l]; cbn [pos_units nisfloat RNum bind].
  - pose proof (G cs None) as E. cbn [option_map] in E. now rewrite E.
  - now rewrite <- (G cs (Some [x])).
  - now rewrite <- (G cs (Some l)).
Qed.
