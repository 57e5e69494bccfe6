(** Proofs of C135: the tension check in other units. *)

From Coq Require Import ZArith Reals List Bool String Lra Lia.
From Verif Require Import Base Num RNum Numpy LoadCase LoadSpec LoadFacts LoadProofs
  Beam BeamSpec BeamFacts BeamPositions BeamProofs BeamLoads BeamJoin BeamUnits
  Solvers Material AS4100 AS4100Spec AS4100Facts AS4100Util AS4100Scale RestateSpec.
Import ListNotations.
Open Scope R_scope.

(** ** Positions only see lengths and stored positions, whatever the load case *)
Section Positions.
Variables (f : elem R (section R) -> elem R (section R)).
Hypothesis Hlen : forall e, elength (f e) = elength e.
Hypothesis Hpos : forall e c, el_load_positions (f e) c = el_load_positions e c.

Lemma map_lengths b : map elength (map f b) = map elength b.
Proof using Hlen. rewrite map_map. apply map_ext. auto. Qed.

Lemma map_list_positions b position mp lc :
  beam_list_positions (map f b) position mp lc = beam_list_positions b position mp lc.
Proof using Hlen Hpos.
  pose proof (map_lengths b) as H. destruct lc as [c|].
  - apply same_list_positions. induction b as [|e b IH]; cbn [map]; constructor; [split; auto|].
    apply IH. apply map_lengths.
  - assert (A : forall p i, locations_at (map f b) None p i = locations_at b None p i).
    { intros p i. unfold locations_at. rewrite py_index_map. destruct (py_index b i) as [e|]; cbn [rmap bind]; auto.
      rewrite Hlen, (same_to_local b (map f b) p i H). destruct (elength e); auto. }
    assert (L : forall ps, locations (map f b) None ps = locations b None ps).
    { intros ps. unfold locations. f_equal. apply mapM_ext. intros p _. rewrite (same_in_elements b _ p H).
      destruct (in_elements b p); [|reflexivity]. cbn [bind]. f_equal. apply mapM_ext. auto. }
    assert (P : forall es i, real_positions (map f b) None i (map f es) = real_positions b None i es).
    { induction es as [|e es IH]; intros i; auto. cbn [map real_positions bind].
      rewrite (mapM_ext (fun p => local_to_beam (map f b) p i) (fun p => local_to_beam b p i))
        by (intros; now apply same_to_beam).
      destruct (mapM _ _); [|reflexivity]. cbn [bind]. now rewrite IH. }
    unfold beam_list_positions, beam_length. rewrite (same_sum b _ H), (same_ends b _ H), (P b).
    destruct position as [|x|l], mp as [n|]; auto.
    + destruct (sum_lengths _ b); [|reflexivity]. cbn [bind]. destruct (linspace _ _ _); [|reflexivity]. cbn [bind].
      destruct (element_ends b); [|reflexivity]. cbn [bind]. destruct (real_positions _ _ _ _); [|reflexivity]. cbn [bind]. apply L.
    + destruct (nisfloat x); auto. rewrite (same_check b _ [x] H), L. reflexivity.
    + rewrite (same_check b _ l H), L. reflexivity.
Qed.
End Positions.

Section Units.
Variables (k s : R) (w : comp -> R).
Let re_elem := restate_elem k s w.
Let re := restate_beam k s w.

Lemma restate_get c (d : list (Z * lcase R)) :
  dict_get c (map (fun t => (fst t, option_map (map (restate_lrow w)) (snd t))) d : list (Z * lcase R))
  = @rmap (lcase R) (lcase R) (option_map (map (restate_lrow w))) (dict_get c d).
Proof. induction d as [|[i t] d IH]; auto. cbn [map dict_get fst snd]. destruct (Z.eqb c i); auto. Qed.

Lemma restate_pos rows : map lpos (map (restate_lrow w) rows) = map lpos rows.
Proof. rewrite map_map. now apply map_ext. Qed.

Lemma restate_positions e c : el_load_positions (re_elem e) c = el_load_positions e c.
Proof.
  unfold el_load_positions, re_elem, restate_elem. cbn [eloads]. rewrite restate_get.
  destruct (dict_get c (eloads e)) as [[rows|]|]; cbn [rmap bind option_map]; auto.
  cbn [load_positions]. now rewrite restate_pos.
Qed.

Lemma restate_list_positions b position mp lc :
  beam_list_positions (re b) position mp lc = beam_list_positions b position mp lc.
Proof. apply map_list_positions; [reflexivity|apply restate_positions]. Qed.

(** ** Loads *)
Lemma restate_comp c r : lcomp c (restate_lrow w r) = w c * lcomp c r.
Proof. destruct c; reflexivity. Qed.

Lemma restate_interp_from c p rs : forall xj yj,
  interp_from p xj (w c * yj) (map (fun r => (lpos r, lcomp c r)) (map (restate_lrow w) rs)) None
  = w c * interp_from p xj yj (map (fun r => (lpos r, lcomp c r)) rs) None.
Proof.
  induction rs as [|r rs IH]; intros xj yj; cbn [map interp_from].
  - now destruct (nltb xj p).
  - rewrite restate_comp. cbn [lpos restate_lrow]. destruct (nleb (lpos r) p); [apply IH|].
    destruct (neqb xj p); auto. cbn. unfold Rdiv. ring.
Qed.

Lemma restate_interp rows p c : rows <> [] ->
  interp_val (map (restate_lrow w) rows) p c = w c * interp_val rows p c.
Proof.
  destruct rows as [|r rs]; [congruence|]. intros _. cbn [map interp_val].
  rewrite restate_comp. cbn [lpos restate_lrow]. destruct (nltb p (lpos r)); auto. apply restate_interp_from.
Qed.

Lemma restate_cells cs (g : comp -> R) :
  map (fun cv : comp * option R => option_map (Rmult (w (fst cv))) (snd cv)) (combine cs (map (fun c => Some (g c)) cs))
  = map (fun c => Some (w c * g c)) cs.
Proof. induction cs as [|c cs IH]; auto. cbn [map combine fst snd option_map]. now rewrite IH. Qed.

Lemma restate_block rows cs p : rows <> [] ->
  block (map (restate_lrow w) rows) cs p = map (restate_row w cs) (block rows cs p).
Proof.
  intros N. unfold block. rewrite restate_pos. destruct (py_in p (map lpos rows)).
  - rewrite filter_map_comm, !map_map. apply map_ext. intros r. unfold pick, restate_row. cbn [fst snd].
    rewrite restate_cells. cbn [lpos restate_lrow]. f_equal. apply map_ext. intros c. now rewrite restate_comp.
  - cbn [map]. unfold restate_row. cbn [fst snd]. rewrite restate_cells.
    apply (f_equal (fun l : list (option R) => [(p, l)] : list (orow R))). apply map_ext.
    intros c. now rewrite restate_interp.
Qed.

Lemma restate_accepted rows : accepted (Some rows) -> accepted (Some (map (restate_lrow w) rows)).
Proof.
  intros A. apply accepted_rows. apply accepted_rows in A. destruct A as [A1 A2]. split.
  - clear A2. induction A1 as [|a l S IH F]; cbn [map]; constructor; auto.
    rewrite Forall_forall in *. intros b Hb. apply in_map_iff in Hb. destruct Hb as (q & <- & Hq). exact (F q Hq).
  - rewrite Forall_forall in *. intros b Hb. apply in_map_iff in Hb. destruct Hb as (q & <- & Hq). exact (A2 q Hq).
Qed.

Lemma restate_lengths b ls : has_lengths b ls -> has_lengths (re b) ls.
Proof. unfold has_lengths, re, restate_beam. induction 1; cbn [map]; constructor; auto. Qed.

Lemma restate_loaded b c : loaded b c -> loaded (re b) c.
Proof.
  intros H e He. apply in_map_iff in He. destruct He as (e0 & <- & He). destruct (H e0 He) as (rows & Ed & Ha & Hn).
  exists (map (restate_lrow w) rows). split; [|split].
  - cbn [restate_elem eloads]. rewrite restate_get, Ed. reflexivity.
  - now apply restate_accepted.
  - intros E. apply map_eq_nil in E. contradiction.
Qed.

Theorem restate_get_loads qs qs' b ls c position mp comp cs : any_argsort qs -> any_argsort qs' ->
  has_lengths b ls -> loaded b c -> designates comp cs -> cs <> [] ->
  beam_get_loads qs' (re b) c position mp comp =
  rmap (option_map (map (restate_row w cs))) (beam_get_loads qs b c position mp comp).
Proof.
  intros Hq Hq' Hl Ld D Dn.
  pose proof (restate_list_positions b position mp (Some c)) as El.
  destruct (beam_list_positions b position mp (Some c)) as [locs|e] eqn:E.
  2:{ unfold beam_get_loads. now rewrite El, E. }
  destruct (C21_total qs b ls c position mp comp cs locs Hq Hl Ld D Dn E) as (bl & F & G).
  destruct (C21_total qs' (re b) ls c position mp comp cs locs Hq' (restate_lengths b ls Hl) (restate_loaded b c Ld) D Dn El) as (bl' & F' & G').
  assert (K : bl' = map (map (restate_row w cs)) bl).
  { clear - F F' Ld Hq Hq' D Dn. revert bl' F'. induction F as [|[[q z] x] o locs bl H F IH]; intros bl' F'; inversion F' as [|? o' ? bl1 H' F1]; subst; auto.
    cbn [map]. f_equal; auto. destruct H as (el & rs & He & _ & Eg & ->). destruct H' as (el' & rs' & He' & _ & Eg' & ->).
    unfold re, restate_beam in He'. rewrite (map_nth_error (restate_elem k s w) _ _ He) in He'. injection He' as <-.
    destruct (Ld el (nth_error_In _ _ He)) as (tab & Ed & Ha & Hn).
    rewrite (el_get_loads_block qs el c x comp cs tab) in Eg by auto.
    rewrite (el_get_loads_block qs' (restate_elem k s w el) c x comp cs (map (restate_lrow w) tab)) in Eg'; auto using restate_accepted.
    - assert (rs = block tab cs x) by congruence. assert (rs' = block (map (restate_lrow w) tab) cs x) by congruence. subst.
      rewrite (restate_block tab cs x Hn). unfold at_position. rewrite !map_map. apply map_ext. intros r. reflexivity.
    - cbn [restate_elem eloads]. now rewrite restate_get, Ed.
    - intros X. apply map_eq_nil in X. contradiction. }
  rewrite G', G, K. destruct locs; auto. cbn [rmap option_map]. now rewrite concat_map.
Qed.

(** ** Sections *)
Lemma restate_sget key d : sget key (map (restate_property k s) d)
  = rmap (fun v => snd (restate_property k s (key, v))) (sget key d).
Proof.
  induction d as [|[i v] d IH]; auto. cbn [map sget restate_property fst snd] in *.
  destruct (String.eqb_spec key i) as [->|N]; auto.
Qed.

Theorem restate_get_section b position mp lc :
  beam_get_section (re b) position mp lc =
  rmap (fun ps => (fst ps, map (option_map (restate_section k s)) (snd ps))) (beam_get_section b position mp lc).
Proof.
  unfold beam_get_section. rewrite restate_list_positions.
  destruct (beam_list_positions b position mp lc) as [locs|]; cbn [rmap bind]; auto.
  set (f := fun l : R * Z * R => let! e := py_index b (snd (fst l)) in Ok (esection e)).
  rewrite (mapM_ext _ (fun l => rmap (option_map (restate_section k s)) (f l))).
  - rewrite mapM_rmap. change (mapM f locs) with (@mapM (R * Z * R) (option (section R)) f locs).
    destruct (@mapM (R * Z * R) (option (section R)) f locs); reflexivity.
  - intros [[p e] l] _. unfold f. cbn [fst snd]. unfold re, restate_beam. rewrite py_index_map.
    destruct (py_index b e); reflexivity.
Qed.

Theorem restate_make phi au kt b sec :
  make_as4100 phi au kt (option_map re b) (option_map (restate_section k s) sec) =
  rmap (restate_check k s w) (make_as4100 phi au kt b sec).
Proof.
  assert (F : forall c, as_factory (option_map (restate_section k s) c) = rmap (restate_wrapped k s) (as_factory c)).
  { intros [[r [m|]|]|]; cbn; auto. destruct (mtype m) as [[|]|]; reflexivity. }
  assert (M : forall l, mapM as_factory (map (option_map (restate_section k s)) l)
                        = rmap (map (restate_wrapped k s)) (mapM as_factory l)).
  { intros l. rewrite mapM_map, (mapM_ext _ (fun c => rmap (restate_wrapped k s) (as_factory c))) by auto.
    apply mapM_rmap. }
  unfold make_as4100. destruct b as [b|], sec as [sec|]; cbn [option_map]; auto; unfold sections_of, beam_sections.
  - replace (map esection (re b)) with (map (option_map (restate_section k s)) (map esection b))
      by (unfold re, restate_beam; rewrite !map_map; reflexivity).
    rewrite M. destruct (mapM as_factory (map esection b)); reflexivity.
  - replace (map esection (re b)) with (map (option_map (restate_section k s)) (map esection b))
      by (unfold re, restate_beam; rewrite !map_map; reflexivity).
    rewrite M. destruct (mapM as_factory (map esection b)); reflexivity.
  - pose proof (M [Some sec]) as E. cbn [map option_map] in E. rewrite E.
    destruct (mapM as_factory [Some sec]); reflexivity.
Qed.

Hypotheses (Hk : 0 < k) (Hs : 0 < s).

Lemma sorted_units ts : thick_sorted (map (Rmult k) ts) = thick_sorted ts.
Proof using Hk.
  induction ts as [|a [|b ts] IH]; auto. cbn [map thick_sorted] in *. rewrite IH. do 2 f_equal.
  cbn [nleb nsub nint RNum]. change (IZR 0) with 0. replace (k * b - k * a) with (k * (b - a)) by ring.
  replace 0 with (k * 0) at 1 by ring. now apply Rleb_units.
Qed.

Lemma find_units x ts : forall i, find_band (k * x) (map (Rmult k) ts) i = find_band x ts i.
Proof using Hk.
  induction ts as [|a ts IH]; intros i; auto. cbn [map find_band]. cbn [nleb RNum]. rewrite Rleb_units by auto.
  destruct (Rleb x a); auto.
Qed.

Lemma nth_res_map {A B} (f : A -> B) l i : nth_res (map f l) i = rmap f (nth_res l i).
Proof. unfold nth_res. rewrite nth_error_map. destruct (nth_error l i); reflexivity. Qed.

Lemma get_f_units x y t : get_f (k * x) y (restate_strengths k s t) = rmap (Rmult s) (get_f x y t).
Proof using Hk.
  unfold get_f. destruct t as [|ts rows]; [reflexivity|]. cbn [restate_strengths].
  change (nth_res (map (Rmult k) ts :: map (map (Rmult s)) rows) 0) with (Ok (map (Rmult k) ts)).
  change (nth_res (ts :: rows) 0) with (Ok ts). cbn [bind]. rewrite sorted_units.
  cbn [nltb nint RNum]. change (IZR 0) with 0.
  replace (Rltb (k * x) 0) with (Rltb x 0) by (rewrite <- (Rltb_units k x 0 Hk); f_equal; ring).
  destruct (Rltb x 0); auto. destruct (negb (thick_sorted ts)); auto.
  rewrite <- map_rev, nth_res_map. destruct (nth_res (rev ts) 0) as [la|]; cbn [rmap bind]; auto.
  cbn [nltb RNum]. rewrite Rltb_units by auto. destruct (Rltb la x); auto.
  assert (I : forall i, strength_index y = Ok i -> exists j, i = Datatypes.S j).
  { intros i. destruct y as [q|[|]]; cbn; [|intros [= <-]; eauto..].
    destruct (_ || _); [intros [= <-]; eauto|]. destruct (_ || _); [intros [= <-]; eauto|discriminate]. }
  destruct (strength_index y) as [i|]; cbn [bind rmap]; auto. destruct (I i eq_refl) as (j & ->).
  rewrite find_units. destruct (find_band x ts 0) as [n|]; auto.
  change (nth_res (map (Rmult k) ts :: map (map (Rmult s)) rows) (Datatypes.S j)) with (nth_res (map (map (Rmult s)) rows) j).
  change (nth_res (ts :: rows) (Datatypes.S j)) with (nth_res rows j).
  rewrite nth_res_map. destruct (nth_res rows j); cbn [rmap bind]; auto. apply nth_res_map.
Qed.

Lemma strengths_units c : as_strengths (restate_wrapped k s c) = rmap (restate_strengths k s) (as_strengths c).
Proof.
  unfold as_strengths. cbn [restate_wrapped as_material restate_material mprops]. rewrite restate_sget.
  destruct (sget "strengths" (mprops (as_material c))) as [[q|x|t|]|]; reflexivity.
Qed.

Lemma fy_units c : min_fy (restate_wrapped k s c) = rmap (Rmult s) (min_fy c).
Proof using Hk.
  unfold min_fy. rewrite strengths_units. destruct (as_strengths c) as [t|]; cbn [rmap bind]; auto.
  cbn [restate_wrapped as_radius nmul RNum]. rewrite Rmult_assoc. apply get_f_units.
Qed.
Lemma fu_units c : min_fu (restate_wrapped k s c) = rmap (Rmult s) (min_fu c).
Proof using Hk.
  unfold min_fu. rewrite strengths_units. destruct (as_strengths c) as [t|]; cbn [rmap bind]; auto.
  cbn [restate_wrapped as_radius nmul RNum]. rewrite Rmult_assoc. apply get_f_units.
Qed.
Lemma area_units c : Ag (restate_wrapped k s c) = k * k * Ag c /\ An (restate_wrapped k s c) = k * k * An c.
Proof. unfold Ag, An, circle_area. cbn. split; ring. Qed.

Lemma sections_units a position :
  sections_at (restate_check k s w a) position = rmap (map (restate_wrapped k s)) (sections_at a position).
Proof.
  assert (G : forall q, get_as4100_section (restate_check k s w a) q None None =
     rmap (fun ps => (fst ps, map (restate_wrapped k s) (snd ps))) (get_as4100_section a q None None)).
  { intros q. unfold get_as4100_section. cbn [restate_check cc_beam cc_as_sections].
    destruct (cc_beam a) as [b|]; cbn [option_map]; auto. rewrite restate_list_positions.
    destruct (beam_list_positions b q None None) as [locs|]; cbn [rmap bind]; auto.
    set (f := fun l : R * Z * R => py_index (cc_as_sections a) (snd (fst l))).
    rewrite (mapM_ext _ (fun l => rmap (restate_wrapped k s) (f l))) by (intros; apply py_index_map).
    rewrite mapM_rmap. change (mapM f locs) with (@mapM (R * Z * R) (as_section R) f locs).
    destruct (@mapM (R * Z * R) (as_section R) f locs); reflexivity. }
  unfold sections_at. destruct position as [|x|l]; auto.
  - rewrite G. destruct (get_as4100_section a (PosNum x) None None) as [[? ?]|]; reflexivity.
  - rewrite G. destruct (get_as4100_section a (PosList l) None None) as [[? ?]|]; reflexivity.
Qed.

Lemma list_min_units c l : 0 < c -> list_min (map (Rmult c) l) = rmap (Rmult c) (list_min l).
Proof.
  intros Hc. destruct l as [|x l]; auto. cbn [map list_min rmap]. f_equal. revert x.
  induction l as [|y l IH]; intros x; auto. cbn [map fold_left]. rewrite <- IH. f_equal.
  unfold pymin. cbn [nltb RNum]. rewrite Rltb_units by auto. now destruct (Rltb y x).
Qed.

Lemma unit_pos : 0 < s * k * k.
Proof using Hk Hs. repeat apply Rmult_lt_0_compat; auto. Qed.

Theorem restate_Nty a position : Nty (restate_check k s w a) position = rmap (Rmult (s * k * k)) (Nty a position).
Proof using Hk Hs.
  unfold Nty. rewrite sections_units. destruct (sections_at a position) as [l|]; cbn [rmap bind]; auto.
  rewrite mapM_map, (mapM_ext _ (fun c => rmap (Rmult (s * k * k)) (let! fy := min_fy c in Ok (s7_2_Nty (Ag c) fy)))).
  - rewrite mapM_rmap. destruct (mapM _ l); cbn [rmap bind]; auto. apply list_min_units, unit_pos.
  - intros c _. rewrite fy_units. destruct (min_fy c); cbn [rmap bind]; auto. f_equal. unfold s7_2_Nty.
    rewrite (proj1 (area_units c)). cbn. ring.
Qed.

Theorem restate_Ntu a position : Ntu (restate_check k s w a) position = rmap (Rmult (s * k * k)) (Ntu a position).
Proof using Hk Hs.
  unfold Ntu. rewrite sections_units. destruct (sections_at a position) as [l|]; cbn [rmap bind]; auto.
  rewrite mapM_map, (mapM_ext _ (fun c => rmap (Rmult (s * k * k))
    (let! fu := min_fu c in Ok (s7_2_Ntu (An c) fu (k_t a) (alpha_u a))))).
  - rewrite mapM_rmap. destruct (mapM _ l); cbn [rmap bind]; auto. apply list_min_units, unit_pos.
  - intros c _. rewrite fu_units. destruct (min_fu c); cbn [rmap bind]; auto. f_equal. unfold s7_2_Ntu.
    rewrite (proj2 (area_units c)). cbn. ring.
Qed.

Theorem restate_Nt a position : Nt (restate_check k s w a) position = rmap (Rmult (s * k * k)) (Nt a position).
Proof using Hk Hs.
  unfold Nt. rewrite restate_Nty, restate_Ntu. destruct (Nty a position) as [y|]; cbn [rmap bind]; auto.
  destruct (Ntu a position) as [u|]; cbn [rmap bind]; auto. f_equal. unfold pymin. cbn [nltb RNum].
  rewrite Rltb_units by apply unit_pos. now destruct (Rltb u y).
Qed.

Theorem restate_phi a position :
  phiNt (restate_check k s w a) position = rmap (Rmult (s * k * k)) (phiNt a position) /\
  phiNty (restate_check k s w a) position = rmap (Rmult (s * k * k)) (phiNty a position) /\
  phiNtu (restate_check k s w a) position = rmap (Rmult (s * k * k)) (phiNtu a position) /\
  tension_capacity (restate_check k s w a) position = rmap (Rmult (s * k * k)) (tension_capacity a position).
Proof using Hk Hs.
  unfold tension_capacity, phiNt, phiNty, phiNtu. rewrite restate_Nt, restate_Nty.
  assert (E : forall x, s * k * k * (phi_steel a * x) = phi_steel a * (s * k * k * x)) by (intros; ring).
  destruct (Nt a position), (Nty a position); cbn [rmap bind]; cbn [restate_check phi_steel nmul RNum];
    repeat split; auto; now rewrite E.
Qed.

(** ** Demand and utilisation *)
Theorem restate_tension qs qs' a b ls c position mp : any_argsort qs -> any_argsort qs' -> 0 < w N ->
  cc_beam a = Some b -> has_lengths b ls -> loaded b c ->
  get_tension qs' (restate_check k s w a) c position mp =
  rmap (map (restate_row w [N])) (get_tension qs a c position mp).
Proof.
  intros Hq Hq' Hw Eb Hl Ld. unfold get_tension. cbn [restate_check cc_beam]. rewrite Eb. cbn [option_map].
  fold re. rewrite (restate_get_loads qs qs' b ls c position mp (CStr "N") [N] Hq Hq' Hl Ld (d_name N)) by discriminate.
  destruct (beam_get_loads qs b c position mp (CStr "N"%string)) as [[rows|]|] eqn:E; cbn [rmap bind option_map]; auto.
  rewrite mapM_map.
  assert (S : forall r, In r rows -> exists n, snd r = [Some n]).
  { destruct (C21_inv qs b ls c position mp (CStr "N") (Some rows) Hl E) as (locs & bl & _ & F & Eo).
    destruct locs as [|t0 locs0]; [discriminate|]. injection Eo as ->. clear - F Ld Hq. revert F. generalize (t0 :: locs0) as locs.
    intros locs F r Hr. apply in_concat in Hr.
    destruct Hr as (o & Ho & Hr). revert o Ho r Hr. induction F as [|[[q z] x] o locs bl H F IH]; intros o' Ho; [destruct Ho|].
    destruct Ho as [<-|Ho]; [|exact (IH o' Ho)].
    destruct H as (el & rs & He & _ & Eg & ->). destruct (Ld el (nth_error_In _ _ He)) as (tab & Ed & Ha & Hn).
    rewrite (el_get_loads_block qs el c x (CStr "N") [N] tab) in Eg; auto using (d_name N); [|discriminate].
    injection Eg as <-. intros r Hr. unfold at_position in Hr. apply in_map_iff in Hr. destruct Hr as (y & <- & Hy).
    destruct (block_single tab x y Hy) as (n & En). exists n. exact En. }
  set (z := existsb row_has_float rows). set (z' := existsb row_has_float (map _ rows)).
  rewrite (mapM_ext _ (fun r => rmap (restate_row w [N]) (clip_row z r))).
  - apply mapM_rmap.
  - intros r Hr. destruct (S r Hr) as (n & En). destruct r as [p cs]. cbn in En. subst cs.
    unfold clip_row, restate_row. cbn [fst snd combine map option_map rmap]. cbn [nltb nint RNum]. change (IZR 0) with 0.
    replace (Rltb (w N * n) 0) with (Rltb n 0) by (rewrite <- (Rltb_units (w N) n 0 Hw); f_equal; ring).
    destruct (Rltb n 0); [|reflexivity].
    destruct z', z; cbn [nfloat RNum]; now rewrite Rmult_0_r.
Qed.

Lemma util_one_units c t cap : 0 < c -> util_one (c * t) (c * cap) = util_one t cap.
Proof.
  intros Hc. unfold util_one. cbn [nleb nflt RNum].
  replace (0 / 1) with 0 by field.
  replace (Rleb (c * t) 0) with (Rleb t 0) by (rewrite <- (Rleb_units c t 0 Hc); f_equal; ring).
  destruct (Rleb t 0); [reflexivity|].
  assert (E : util_func (c * t) (c * cap) = util_func t cap).
  { apply FunctionalExtensionality.functional_extensionality. intros x. unfold util_func. cbn [neqb nint RNum nsub ndiv nmul].
    change (IZR 0) with 0.
    assert (B : Reqb (c * cap) 0 = Reqb cap 0).
    { apply eq_true_iff_eq. rewrite !Reqb_true. split; [|intros ->; ring]. intros H.
      apply Rmult_integral in H. lra. }
    rewrite B. destruct (Reqb cap 0) eqn:Z; auto. do 2 f_equal.
    assert (cap <> 0). { intros ->. assert (Reqb 0 0 = true) by (now apply Reqb_true). congruence. }
    field. lra. }
  rewrite E. reflexivity.
Qed.

Lemma tension_cells qs a c position mp rows : get_tension qs a c position mp = Ok rows ->
  forall r, In r rows -> exists n : R, snd r = [Some n].
Proof.
  unfold get_tension. destruct (cc_beam a) as [b|]; [|discriminate].
  destruct (beam_get_loads _ _ _ _ _ _) as [[l|]|]; try discriminate. cbn [bind]. intros E.
  apply mapM_inv in E. revert E. generalize (existsb row_has_float l) as z. intros z E.
  induction E as [|x y l rows H F IH]; [intros r []|]. intros r [<-|Hr]; auto.
  unfold clip_row in H. destruct (snd x) as [|[n|] [|]]; try discriminate. injection H as <-. eexists. reflexivity.
Qed.

Hypothesis Hw : w N = s * k * k.

Lemma restate_utils_at qs qs' a b ls c p : any_argsort qs -> any_argsort qs' ->
  cc_beam a = Some b -> has_lengths b ls -> loaded b c ->
  utils_at qs' (restate_check k s w a) c p = utils_at qs a c p.
Proof using Hk Hs Hw.
  intros Hq Hq' Eb Hl Ld. unfold utils_at. destruct (restate_phi a (PosNum p)) as (_ & _ & _ & ->).
  destruct (tension_capacity a (PosNum p)) as [cap|]; cbn [rmap bind]; [|reflexivity].
  rewrite (restate_tension qs qs' a b ls c (PosNum p) None Hq Hq' ltac:(rewrite Hw; apply unit_pos) Eb Hl Ld).
  destruct (get_tension qs a c (PosNum p) None) as [rows|] eqn:T; cbn [rmap bind]; [|reflexivity].
  rewrite mapM_map. apply mapM_ext. intros [x cs] Hr. destruct (tension_cells _ _ _ _ _ _ T _ Hr) as (n & En).
  cbn in En. subst cs. unfold restate_row. cbn [fst snd combine map option_map].
  rewrite Hw. apply util_one_units, unit_pos.
Qed.

Theorem restate_utilisation qs qs' a b ls lc cs position : any_argsort qs -> any_argsort qs' ->
  cc_beam a = Some b -> has_lengths b ls -> wanted b lc cs -> Forall (loaded b) cs ->
  tension_utilisation qs' (restate_check k s w a) lc position = tension_utilisation qs a lc position.
Proof using Hk Hs Hw.
  intros Hq Hq' Eb Hl W Ld.
  assert (L : beam_load_cases (re b) = beam_load_cases b).
  { destruct b as [|e b]; auto. cbn. f_equal. unfold el_load_cases. cbn [eloads restate_elem].
    rewrite map_map. now apply map_ext. }
  unfold tension_utilisation. cbn [restate_check cc_beam]. rewrite Eb. cbn [option_map]. fold re.
  assert (C : match lc with LCNone => beam_load_cases (re b) | LCInt z => Ok [z] | LCList l => Ok l end = Ok cs /\
              match lc with LCNone => beam_load_cases b | LCInt z => Ok [z] | LCList l => Ok l end = Ok cs).
  { rewrite L. destruct W; auto. }
  destruct C as [C1 C2].
  replace (match lc with LCNone => beam_load_cases (re b) | LCInt z => Ok [z] | LCList l => Ok l end) with (@Ok (list Z) cs) by auto.
  replace (match lc with LCNone => beam_load_cases b | LCInt z => Ok [z] | LCList l => Ok l end) with (@Ok (list Z) cs) by auto.
  cbn [bind]. clear C1 C2 W.
  assert (G : forall pos, util_loop qs' (restate_check k s w a) (re b) pos cs = util_loop qs a b pos cs).
  { induction Ld as [|c cs Hc Ld IH]; intros pos; cbn [util_loop]; [reflexivity|]. cbn [restate_check assessment_points].
    rewrite restate_list_positions.
    destruct (match pos with Some ps => Ok ps | None => _ end) as [ps|]; cbn [bind]; [|reflexivity].
    rewrite (mapM_ext _ (utils_at qs a c)) by (intros; now apply (restate_utils_at qs qs' a b ls)).
    destruct (mapM _ ps); cbn [bind]; [|reflexivity]. rewrite IH. reflexivity. }
  destruct (match position with PosNone => Ok None | PosNum x => _ | PosList l => _ end) as [pos|]; cbn [bind]; [|reflexivity].
  rewrite G. reflexivity.
Qed.
End Units.
