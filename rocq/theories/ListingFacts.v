(** Proofs of C136: listings and counts against queries. *)

From Coq Require Import ZArith Reals List Bool String Lra Lia.
From Verif Require Import Base Num RNum Numpy LoadCase LoadSpec LoadFacts LoadProofs Beam BeamSpec BeamFacts
  BeamPositions BeamProofs BeamLoads BeamMisc Listing.
Import ListNotations.

Definition quiet {A} (m : res A) : Prop := m <> Err KeyError.

Lemma quiet_bind {A B} (m : res A) (f : A -> res B) : quiet m -> (forall a, m = Ok a -> quiet (f a)) -> quiet (bind m f).
Proof. unfold quiet. destruct m; cbn; intros H G; [now apply G|congruence]. Qed.
Lemma quiet_ok {A} (a : A) : quiet (Ok a).
Proof. discriminate. Qed.
Lemma quiet_mapM {A B} (f : A -> res B) l : (forall a, In a l -> quiet (f a)) -> quiet (mapM f l).
Proof.
  induction l as [|a l IH]; intros H; cbn; [discriminate|]. apply quiet_bind; [apply H; now left|]. intros b _.
  apply quiet_bind; [apply IH; intros; apply H; now right|]. discriminate.
Qed.

Ltac hush := repeat lazymatch goal with
  | |- quiet (Ok _) => apply quiet_ok
  | |- quiet (Err _) => discriminate
  | |- quiet (bind _ _) => apply quiet_bind; [|intros ? ?]
  | |- quiet (mapM _ _) => apply quiet_mapM; intros ? ?
  end.

Section Any.
Context {T : Type} {NT : Num T}.

Lemma same_self (l : list T) : Forall (fun x => neqb x x = true) l -> array_equal l l = true.
Proof. induction 1 as [|x l H F IH]; auto. cbn. now rewrite H, IH. Qed.

Lemma set_update_incl (l : list T) : forall acc x, In x (set_update acc l) -> In x acc \/ In x l.
Proof.
  induction l as [|a l IH]; intros acc x H; cbn in *; auto.
  destruct (IH _ _ H) as [G|G]; auto. unfold set_add in G. destruct (py_in a acc); auto.
  apply in_app_or in G. cbn in G. tauto.
Qed.
Lemma insert_incl {A} (key : A -> T) x l y : In y (insert_by key x l) -> y = x \/ In y l.
Proof.
  induction l as [|a l IH]; cbn; [intuition|]. destruct (nltb (key a) (key x)); cbn; intuition.
Qed.
Lemma sort_incl {A} (key : A -> T) l y : In y (sort_by key l) -> In y l.
Proof.
  unfold sort_by. induction l as [|a l IH]; cbn; auto. intros H. apply insert_incl in H. intuition.
Qed.
Lemma unique_self l : Forall (fun x : T => neqb x x = true) l -> array_equal (np_unique l) (np_unique l) = true.
Proof.
  intros H. apply same_self. rewrite Forall_forall in *. intros x Hx. apply H. unfold np_unique, py_sorted in Hx.
  apply sort_incl in Hx. unfold py_set in Hx. apply set_update_incl in Hx. destruct Hx as [[]|Hx]; auto.
Qed.

Lemma read_back_gen qs (rows : list (lrow T)) a : Forall (fun r => neqb (lpos r) (lpos r) = true) rows ->
  get_load qs (Some rows) (PosList (map lpos rows)) None a = let! cs := components a in Ok (Some (map (pick cs) rows)).
Proof.
  intros H. unfold get_load. cbn [list_positions bind]. destruct (components a) as [cs|]; cbn [bind]; auto.
  change (py_sorted (py_set (map lpos rows))) with (np_unique (map lpos rows)). rewrite unique_self; auto.
  rewrite Forall_forall in *. intros x Hx. apply in_map_iff in Hx. destruct Hx as (r & <- & Hr). auto.
Qed.

Lemma designates_comps a cs : designates a cs -> components a = Ok cs.
Proof. destruct 1 as [|c|c|c|cs]; cbn; auto; try (destruct c; reflexivity). induction cs as [|c cs IH]; cbn in *; auto. now rewrite IH. Qed.

Theorem read_back qs (rows : list (lrow T)) ps a cs : designates a cs ->
  Forall (fun r => neqb (lpos r) (lpos r) = true) rows -> load_positions (Some rows) = Ok ps ->
  get_load qs (Some rows) (PosList ps) None a =
  Ok (Some (map (fun r => (lpos r, map (fun c => Some (load_of c r)) cs)) rows)).
Proof.
  intros D H [= <-]. rewrite read_back_gen by auto. rewrite (designates_comps a cs D). reflexivity.
Qed.

Theorem read_input qs (rows : list (lrow T)) ps a : a <> CNone -> (forall l, a <> CList l) ->
  Forall (fun r => neqb (lpos r) (lpos r) = true) rows -> load_positions (Some rows) = Ok ps ->
  input_loads (Some rows) a = get_load qs (Some rows) (PosList ps) None a.
Proof.
  intros N1 N2 H [= <-]. rewrite read_back_gen by auto. destruct a as [|s|z|c|l]; cbn; [congruence| | |reflexivity|].
  - destruct (comp_of_name s); reflexivity.
  - destruct (comp_of_value z); reflexivity.
  - exfalso. now apply (N2 l).
Qed.

Theorem read_count qs (lc : lcase T) ps a out n : num_positions lc = Ok n -> load_positions lc = Ok ps ->
  Forall (fun p => neqb p p = true) ps ->
  get_load qs lc (PosList ps) None a = Ok (Some out) -> List.length ps = n /\ List.length out = n.
Proof.
  unfold num_positions. intros Hn Hp. rewrite Hp in Hn. cbn in Hn. injection Hn as <-.
  destruct lc as [rows|]; [|discriminate]. cbn in Hp. injection Hp as <-. intros F G. split; auto.
  rewrite Forall_map in F. rewrite read_back_gen in G by auto. destruct (components a); [|discriminate].
  cbn in G. injection G as <-. now rewrite !map_length.
Qed.

(** *** A load case is refused exactly if it is not listed *)
Lemma quiet_interp1 x s l r : quiet (interp1 x s l r : res T).
Proof. unfold interp1. destruct (map _ s) as [|[? ?] ?]; hush. destruct (nltb _ _); hush. Qed.
Lemma quiet_np xs xp fp l r : quiet (np_interp xs xp fp l r : res (list T)).
Proof. unfold np_interp. destruct (Nat.eqb _ _); hush. apply quiet_interp1. Qed.
Lemma quiet_multi xs xp fp l r : quiet (multi_interp (XArr xs) xp (Fp2 fp) l r : res (list (list T))).
Proof. unfold multi_interp. destruct fp; [hush|]. apply quiet_mapM. intros. apply quiet_np. Qed.

Lemma get_quiet qs (lc : lcase T) position mp a cs : designates a cs -> quiet (get_load qs lc position mp a).
Proof.
  intros D. unfold get_load. apply quiet_bind.
  - unfold list_positions. destruct position as [|x|l], mp as [n|]; hush; auto.
    + unfold load_positions. destruct lc; hush.
    + unfold linspace. destruct (n <? 0)%Z; hush.
    + destruct (Z.ltb _ _); hush.
    + destruct (nisfloat x); hush.
  - intros ps _. destruct lc as [rows|]; [|hush]. rewrite (designates_comps a cs D). cbn [bind].
    destruct (array_equal _ _); hush.
    all: repeat (match goal with |- quiet (match ?x with _ => _ end) => destruct x end; hush).
    apply quiet_multi.
Qed.

Context {Sec : Type}.
Implicit Types b : beam_t T Sec.

Lemma dict_missing {V} c (d : list (Z * V)) : ~ In c (map fst d) -> dict_get c d = Err KeyError.
Proof.
  induction d as [|[i v] d IH]; intros H; auto. cbn in *. destruct (Z.eqb_spec c i) as [->|N]; [tauto|]. apply IH. tauto.
Qed.

Lemma cases_of inp b cs : beam inp = Ok b -> beam_load_cases b = Ok cs -> forall e, In e b -> el_load_cases e = cs.
Proof.
  intros H E e He. apply C13_accept in H. destruct H as (_ & N & C).
  destruct b as [|e0 b]; [congruence|]. cbn in E. injection E as <-. apply C; auto. now left.
Qed.

Theorem unlisted inp b cs qs c position mp a rows : beam inp = Ok b -> beam_load_cases b = Ok cs -> ~ In c cs ->
  beam_get_loads qs b c position mp a <> Ok (Some rows).
Proof.
  intros H E N. unfold beam_get_loads. destruct (beam_list_positions b position mp (Some c)) as [locs|]; [|discriminate].
  cbn [bind]. destruct locs as [|[[p i] l] locs]; [discriminate|]. cbn [accumulate].
  destruct (py_index b i) as [e|] eqn:Ei; [|discriminate]. cbn [bind]. unfold el_get_loads.
  assert (He : In e b).
  { unfold py_index in Ei. destruct (_ || _); [discriminate|]. destruct (nth_error b _) eqn:G; [|discriminate].
    injection Ei as <-. eapply nth_error_In; eauto. }
  rewrite dict_missing; [discriminate|]. fold (el_load_cases e). now rewrite (cases_of inp b cs H E e He).
Qed.

Lemma quiet_index {A} (l : list A) i : quiet (py_index l i).
Proof. unfold py_index. destruct (_ || _); hush. destruct (nth_error _ _); hush. Qed.
Lemma quiet_add (x : T) y : quiet (add_opt x y).
Proof. destruct y; cbn; hush. Qed.
Lemma quiet_ends_from b : forall p, quiet (ends_from p b).
Proof. induction b as [|e b IH]; intros p; cbn; hush. destruct p; hush; auto using quiet_add. Qed.
Lemma quiet_ends b : quiet (element_ends b).
Proof. destruct b; cbn; hush. apply quiet_ends_from. Qed.
Lemma quiet_start b i : quiet (element_start_end b i).
Proof. unfold element_start_end. hush; auto using quiet_ends, quiet_index. Qed.
Lemma quiet_local b p i : quiet (beam_to_local b p i).
Proof.
  unfold beam_to_local. hush; auto using quiet_start, quiet_index. destruct (nltb _ _); hush.
  destruct (elength _); hush. destruct (nltb _ _); hush. destruct (neqb _ _); hush.
Qed.
Lemma quiet_beam b p i : quiet (local_to_beam b p i).
Proof.
  unfold local_to_beam. destruct (_ || _); hush; auto using quiet_start, quiet_index. destruct (elength _); hush.
Qed.
Lemma quiet_length b : quiet (beam_length b).
Proof.
  unfold beam_length. generalize (nint 0 : T). induction b as [|e b IH]; intros x; cbn; hush; auto using quiet_add.
Qed.
Lemma quiet_check b ps : quiet (check_on_beam b ps).
Proof.
  induction ps as [|p ps IH]; cbn; hush. destruct (nltb _ _); hush; auto using quiet_length. destruct (nltb _ _); hush; auto.
Qed.
Lemma quiet_in b p : quiet (in_elements b p).
Proof.
  unfold in_elements. hush; auto using quiet_ends. clear H. generalize 0%Z as i.
  induction a as [|[x y] l IH]; intros i; cbn [in_ends]; hush; auto. destruct (nleb x p); hush. destruct y; hush.
Qed.

Section Listed.
Variables (b : beam_t T Sec) (c : Z).
Hypothesis Hc : forall e, In e b -> exists lc, dict_get c (eloads e) = Ok lc.

Lemma quiet_stored e : In e b -> quiet (el_load_positions e c).
Proof using Hc. intros He. destruct (Hc e He) as (lc & E). unfold el_load_positions. rewrite E. cbn. destruct lc; cbn; hush. Qed.

Lemma quiet_at p i : quiet (locations_at b (Some c) p i).
Proof using Hc.
  unfold locations_at. apply quiet_bind; [apply quiet_index|]. intros e Ei.
  assert (He : In e b).
  { unfold py_index in Ei. destruct (_ || _); [discriminate|]. destruct (nth_error b _) eqn:G; [|discriminate].
    injection Ei as <-. eapply nth_error_In; eauto. }
  destruct (elength e); [|hush; apply quiet_local]. destruct (neqb _ _); hush; try apply quiet_local.
  unfold zero_length_positions. apply quiet_bind; [now apply quiet_stored|]. intros [|p0 l] _; hush.
Qed.

Lemma quiet_locations ps : quiet (locations b (Some c) ps).
Proof using Hc. unfold locations. hush; auto using quiet_in, quiet_at. Qed.

Lemma quiet_list position mp : quiet (beam_list_positions b position mp (Some c)).
Proof using Hc.
  unfold beam_list_positions. destruct position as [|x|l], mp as [n|]; hush; auto using quiet_length, quiet_ends, quiet_check, quiet_locations.
  - unfold linspace. destruct (n <? 0)%Z; hush.
  - assert (G : forall es i, (forall e, In e es -> In e b) -> quiet (real_positions b (Some c) i es)).
    { induction es as [|e es IH]; intros i Hes; cbn; hush; auto using quiet_beam.
      - apply quiet_stored. apply Hes. now left.
      - apply IH. intros; apply Hes; now right. }
    apply G. auto.
  - destruct (nisfloat x); hush; auto using quiet_check, quiet_locations.
Qed.

Theorem listed_quiet qs position mp a cs : designates a cs -> quiet (beam_get_loads qs b c position mp a).
Proof using Hc.
  intros D. unfold beam_get_loads. apply quiet_bind; [apply quiet_list|]. intros locs _.
  generalize (@None (list (orow T))) as acc. induction locs as [|[[p i] l] locs IH]; intros acc; cbn [accumulate]; [hush|].
  apply quiet_bind; [apply quiet_index|]. intros e Ei.
  assert (He : In e b).
  { unfold py_index in Ei. destruct (_ || _); [discriminate|]. destruct (nth_error b _) eqn:G; [|discriminate].
    injection Ei as <-. eapply nth_error_In; eauto. }
  destruct (Hc e He) as (lc & E). apply quiet_bind.
  - unfold el_get_loads. rewrite E. cbn [bind]. now apply (get_quiet _ _ _ _ _ cs).
  - intros [rows|] _; hush; auto. destruct acc; hush. unfold vstack. destruct l0, (set_position _ _); hush.
    destruct (Nat.eqb _ _); hush.
Qed.
End Listed.

Theorem listed inp b cs qs c position mp a xs : beam inp = Ok b -> beam_load_cases b = Ok cs -> In c cs ->
  designates a xs -> beam_get_loads qs b c position mp a <> Err KeyError.
Proof.
  intros H E Hc D. apply (listed_quiet b c) with xs; auto. intros e He. eapply C13_answers; eauto.
Qed.

(** *** Counts *)
Theorem counts inp b : beam inp = Ok b -> exists es, gives inp es /\
  no_elements b = List.length es /\ List.length (beam_sections b) = no_elements b /\
  (forall ends, element_ends b = Ok ends -> List.length ends = no_elements b) /\
  exists cs, beam_load_cases b = Ok cs /\ no_load_cases b = Ok (List.length cs) /\
    forall e, In e b -> el_load_cases e = cs.
Proof.
  intros H. pose proof H as H0. apply C13_accept in H0. destruct H0 as (G & N & _). exists b. split; auto. split; auto.
  unfold no_elements, beam_sections. rewrite map_length. split; auto. split.
  - intros ends. destruct b as [|e b]; [congruence|]. cbn. intros E.
    assert (K : forall (l : list (elem T Sec)) p r, ends_from p l = Ok r -> List.length r = List.length l).
    { induction l as [|x l IH]; intros p r; cbn; [intros [= <-]; auto|]. destruct p as [p|]; [|discriminate].
      destruct (add_opt p (elength x)) as [q|]; [|discriminate]. cbn. destruct (ends_from (Some q) l) eqn:F; [|discriminate].
      cbn. intros [= <-]. cbn. f_equal. eauto. }
    destruct (ends_from (elength e) b) eqn:F; [|discriminate]. cbn in E. injection E as <-. cbn. f_equal. eauto.
  - destruct b as [|e b]; [congruence|]. exists (el_load_cases e). split; [reflexivity|]. split; [reflexivity|].
    intros x Hx. eapply cases_of; eauto.
Qed.

End Any.

(** *** On reals an unlisted load case is refused with a KeyError *)
Section Refused.
Context {Sec : Type}.
Variables (b : beam_t R Sec) (ls : list R) (c : Z).
Hypothesis Hl : has_lengths b ls.
Hypothesis Hb : b <> [].
Hypothesis Hc : forall e, In e b -> dict_get c (eloads e) = Err KeyError.

Definition refused {A} (m : res (list A)) : Prop := m = Err KeyError \/ exists l, m = Ok l /\ l <> [].

Lemma refused_mapM {A B} (f : A -> res (list B)) l : l <> [] -> (forall a, In a l -> refused (f a)) ->
  refused (let! r := mapM f l in Ok (List.concat r)).
Proof using.
  intros N H. assert (G : mapM f l = Err KeyError \/ exists r, mapM f l = Ok r /\ List.concat r <> []).
  { destruct l as [|a l]; [congruence|]. clear N. revert a H. induction l as [|a' l IH]; intros a H.
    - cbn. destruct (H a) as [->|(r & -> & Nr)]; [now left|now left|]. right. exists [r]. split; auto. cbn. now rewrite app_nil_r.
    - cbn [mapM]. destruct (H a) as [->|(r & -> & Nr)]; [now left|now left|]. cbn [bind].
      destruct (IH a') as [E|(r' & E & Nr')]; [intros; apply H; now right| |]; cbn [mapM] in E; rewrite E; cbn [bind]; [now left|].
      right. exists (r :: r'). split; auto. cbn. intros X. apply app_eq_nil in X. tauto. }
  destruct G as [->|(r & -> & Nr)]; [now left|]. right. exists (List.concat r). auto.
Qed.

Lemma refused_at p i : covers ls i p -> refused (locations_at b (Some c) p (Z.of_nat i)).
Proof using Hl Hb Hc.
  intros Cp. pose proof Cp as [Hi Hp].
  assert (D : designated (List.length b) (Z.of_nat i) i).
  { apply designated_nat. now rewrite (lengths_len b ls Hl). }
  destruct (designated_elem b ls (Z.of_nat i) i Hl D) as (el & E & En & Elen & Pos & _).
  unfold locations_at. rewrite E. cbn [bind]. rewrite Elen. cbn [neqb nint RNum]. change (IZR 0) with 0%R.
  destruct (Reqb (nth i ls 0%R) 0) eqn:Z.
  - left. unfold zero_length_positions, el_load_positions. rewrite (Hc el (nth_error_In _ _ En)). reflexivity.
  - rewrite (beam_to_local_R b ls p (Z.of_nat i) i Hl D). rewrite Z.
    assert (in_ext ls p i = true) as ->.
    { unfold in_ext. apply andb_true_iff. rewrite !Rleb_true. tauto. }
    cbn [bind]. right. eexists. split; [reflexivity|discriminate].
Qed.

Lemma refused_locations ps : ps <> [] -> (forall p, In p ps -> (0 <= p <= span ls)%R) -> refused (locations b (Some c) ps).
Proof using Hl Hb Hc.
  intros N H. unfold locations. apply refused_mapM; auto. intros p Hp.
  rewrite (in_elements_R b ls p Hl). cbn [bind]. apply refused_mapM.
  - destruct (some_cover ls p) as (i & Ci).
    + intros ->. inversion Hl. subst. congruence.
    + apply (lengths_nonneg b ls Hl).
    + auto.
    + intros X. apply map_eq_nil in X. destruct (ids_spec ls p) as [_ I]. apply I in Ci. rewrite X in Ci. destruct Ci.
  - intros z Hz. apply in_map_iff in Hz. destruct Hz as (i & <- & Hi). apply refused_at. now apply ids_spec.
Qed.

Lemma refused_loads qs a position mp : refused (beam_list_positions b position mp (Some c)) ->
  beam_get_loads qs b c position mp a = Err KeyError.
Proof using Hl Hb Hc.
  unfold beam_get_loads. intros [->|(locs & E & N)]; [reflexivity|]. pose proof (locs_indexed b ls position mp (Some c) locs Hl E) as X.
  rewrite E. cbn [bind]. destruct locs as [|[[p z] l] locs]; [congruence|]. apply Forall_inv in X. destruct X as (i & Ei & Hi).
  cbn in Ei. subst z. cbn [accumulate].
  assert (D : designated (List.length b) (Z.of_nat i) i) by now apply designated_nat.
  destruct (designated_elem b ls (Z.of_nat i) i Hl D) as (el & Ee & En & _). rewrite Ee. cbn [bind].
  unfold el_get_loads. now rewrite (Hc el (nth_error_In _ _ En)).
Qed.
End Refused.

Theorem unlisted_refused Sec inp (b : beam_t R Sec) ls cs qs c position ps a : beam inp = Ok b -> has_lengths b ls ->
  beam_load_cases b = Ok cs -> ~ In c cs -> requested position ps -> ps <> [] ->
  Forall (fun p => 0 <= p <= span ls)%R ps ->
  beam_get_loads qs b c position None a = Err KeyError.
Proof.
  intros H Hl E N Rq Np F. assert (Nb : b <> []) by (now apply C13_accept in H).
  assert (Hc : forall e, In e b -> dict_get c (eloads e) = Err KeyError).
  { intros e He. apply dict_missing. fold (el_load_cases e). now rewrite (cases_of inp b cs H E e He). }
  apply (refused_loads b ls c Hl Nb Hc). rewrite (explicit_R b position ps _ Rq). rewrite Forall_forall in F.
  destruct (check_on_beam_R b ls ps Hl) as [[-> _]|[_ (p & Hp & X)]]; [|specialize (F p Hp); lra].
  cbn [bind]. apply (refused_locations b ls c Hl Nb Hc).
  - destruct ps as [|p ps]; [congruence|]. intros X.
    assert (Y : In p (py_sorted (py_set (p :: ps)))) by (apply Rin_sorted_set; now left). rewrite X in Y. destruct Y.
  - intros p Hp. apply F. now apply Rin_sorted_set.
Qed.

Theorem unlisted_refused_many Sec inp (b : beam_t R Sec) ls cs qs c n a : beam inp = Ok b -> has_lengths b ls ->
  beam_load_cases b = Ok cs -> ~ In c cs -> (0 <= n)%Z ->
  beam_get_loads qs b c PosNone (Some n) a = Err KeyError.
Proof.
  intros H Hl E N Hn. assert (Nb : b <> []) by (now apply C13_accept in H).
  assert (Hc : forall e, In e b -> dict_get c (eloads e) = Err KeyError).
  { intros e He. apply dict_missing. fold (el_load_cases e). now rewrite (cases_of inp b cs H E e He). }
  unfold beam_get_loads, beam_list_positions. rewrite (beam_length_R b ls Hl). cbn [bind]. unfold linspace.
  destruct (Z.ltb_spec n 0); [lia|]. cbn [bind]. rewrite (element_ends_R b ls Hl). cbn [bind].
  destruct b as [|e0 b0]; [congruence|]. cbn [real_positions]. unfold el_load_positions.
  rewrite (Hc e0) by now left. reflexivity.
Qed.
