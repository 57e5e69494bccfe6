(** Int and float element lengths: list_positions, get_loads and the utilisation at
    explicit float positions do not see the difference (C77). *)

From Coq Require Import ZArith List Bool String Lia Floats.SpecFloat.
From Verif Require Import Base Num PyNum Numpy LoadCase OrdFacts LoadFacts Beam BeamSpec BeamFacts BeamPositions BeamProofs BeamLoads BeamMisc BeamFloat
  Material AS4100 AS4100Spec AS4100Facts AS4100Scale IntFloat.
Import ListNotations.
Open Scope Z_scope.

(** The int among the lengths. *)
Definition int_part (l : option pynum) : Z := match l with Some (PInt z) => z | _ => 0 end.

(** [b'] is [b] with some int lengths written as floats; the ints are non-negative and
    their total is below 2^53. *)
Definition length_floated (l l' : option pynum) : Prop :=
  l' = l \/ exists z, l = Some (PInt z) /\ l' = Some (nfloat (PInt z)).
Definition lengths_floated {Sec} (b b' : beam_t pynum Sec) : Prop :=
  Forall2 (fun e e' => length_floated (elength e) (elength e') /\
             esection e' = esection e /\ eloads e' = eloads e) b b' /\
  Forall (fun e => 0 <= int_part (elength e)) b /\
  fold_right Z.add 0 (map (fun e => int_part (elength e)) b) < limit.

(** A value up to [s] and its possibly floated version. *)
Definition near (s : Z) (x y : pynum) : Prop :=
  (exists f, x = PFlt f /\ y = PFlt f) \/
  (exists z, 0 <= z <= s /\ x = PInt z /\ (y = PInt z \/ y = PFlt (sf_of_Z z))).

Lemma near_tofl s x y : near s x y -> tofl y = tofl x.
Proof. intros [(f & -> & ->)|(z & _ & -> & [->| ->])]; reflexivity. Qed.

Lemma near_leb s x y w : s < limit -> near s x y -> py_leb y w = py_leb x w /\ py_leb w y = py_leb w x.
Proof.
  intros Hs [(f & -> & ->)|(z & Hz & -> & [->| ->])]; auto. apply ext_of_int. lia.
Qed.
Lemma near_ltb s x y w : s < limit -> near s x y -> py_ltb y w = py_ltb x w /\ py_ltb w y = py_ltb w x.
Proof. intros Hs N. destruct (near_leb s x y w Hs N) as [E1 E2]. unfold py_ltb. now rewrite E1, E2. Qed.
Lemma near_eqb s x y w : s < limit -> near s x y -> py_eqb y w = py_eqb x w.
Proof. intros Hs N. destruct (near_leb s x y w Hs N) as [E1 E2]. unfold py_eqb. now rewrite E1, E2. Qed.

Lemma near_add s t x y l l' : near s x y -> near t l l' -> s + t < limit -> near (s + t) (nadd x l) (nadd y l').
Proof.
  intros N M H. cbn [nadd PNum]. unfold arith2.
  destruct N as [(f & -> & ->)|(z & Hz & -> & Hy)].
  - left. exists (SFadd f64 e64 f (tofl l)). split; [destruct l; reflexivity|].
    destruct l'; cbn [tofl]; rewrite <- (near_tofl t l _ M); reflexivity.
  - destruct M as [(f & -> & ->)|(w & Hw & -> & Hl)].
    + left. exists (SFadd f64 e64 (sf_of_Z z) f). split; [reflexivity|]. destruct Hy as [->| ->]; reflexivity.
    + right. exists (z + w). split; [lia|]. split; [reflexivity|].
      destruct Hy as [->| ->], Hl as [->| ->]; auto; right; cbn [tofl]; now rewrite sf_add by lia.
Qed.

Lemma near_weaken s t x y : s <= t -> near s x y -> near t x y.
Proof. intros H [?|(z & Hz & ?)]; [now left|]. right. exists z. split; [lia|auto]. Qed.

Definition near_opt (s : Z) (l l' : option pynum) : Prop :=
  match l, l' with Some x, Some y => near s x y | None, None => True | _, _ => False end.

Lemma floated_near l l' : length_floated l l' -> 0 <= int_part l < limit -> near_opt (int_part l) l l'.
Proof.
  intros [->|(z & -> & ->)] H.
  - destruct l as [[z|f]|]; cbn in *; auto; [|left; eauto]. right. exists z. split; [lia|auto].
  - cbn in *. right. exists z. split; [lia|auto].
Qed.

Section Beams.
Context {Sec : Type}.
Implicit Types b : beam_t pynum Sec.

Definition elem_floated (e e' : elem pynum Sec) : Prop :=
  (length_floated (elength e) (elength e') /\ 0 <= int_part (elength e) < limit) /\
  esection e' = esection e /\ eloads e' = eloads e.
Definition total b : Z := fold_right Z.add 0 (map (fun e => int_part (elength e)) b).

Lemma floated_elems b b' : lengths_floated b b' -> Forall2 elem_floated b b'.
Proof.
  intros (F & P & L). induction F as [|e e' b b' (H1 & H2 & H3) F IH]; constructor.
  - pose proof (Forall_inv P) as P0. split; auto. split; auto. split; auto.
    cbn [map fold_right] in L. apply Forall_inv_tail in P.
    assert (0 <= fold_right Z.add 0 (map (fun e => int_part (elength e)) b)); [|lia].
    clear - P. induction P; cbn; lia.
  - apply Forall_cons_iff in P. destruct P as [P0 P]. apply IH; auto. cbn [map fold_right] in L. lia.
Qed.

Lemma total_nonneg b b' : Forall2 elem_floated b b' -> 0 <= total b.
Proof. induction 1 as [|e e' b b' ((_ & H) & _) F IH]; cbn; [lia|]. unfold total in IH. lia. Qed.

Lemma floated_sum b b' : Forall2 elem_floated b b' -> forall s x y, near s x y -> s + total b < limit ->
  match sum_lengths x b, sum_lengths y b' with
  | Ok u, Ok v => near (s + total b) u v
  | Err e, Err e' => e = e'
  | _, _ => False
  end.
Proof.
  intros F. induction F as [|e e' b b' ((Hl & Hp) & _) F IH]; intros s x y N L.
  - cbn. eapply near_weaken; [|exact N]. lia.
  - pose proof (total_nonneg b b' F) as T0.
    assert (Et : total (e :: b) = int_part (elength e) + total b) by reflexivity. rewrite Et in *.
    pose proof (floated_near _ _ Hl Hp) as M. cbn [sum_lengths].
    destruct (elength e) as [l|], (elength e') as [l'|]; try (destruct M; fail); cbn [add_opt bind]; auto.
    cbn [near_opt] in M. specialize (IH (s + int_part (Some l)) _ _ (near_add _ _ _ _ _ _ N M ltac:(lia)) ltac:(lia)).
    destruct (sum_lengths (nadd x l) b), (sum_lengths (nadd y l') b'); auto.
    eapply near_weaken; [|exact IH]. lia.
Qed.

Definition near_end (s : Z) (p q : pynum * option pynum) : Prop :=
  near s (fst p) (fst q) /\ near_opt s (snd p) (snd q).

Lemma near_opt_weaken s t l l' : s <= t -> near_opt s l l' -> near_opt t l l'.
Proof. intros H. destruct l, l'; cbn; auto. now apply near_weaken. Qed.

Lemma floated_ends_from b b' : Forall2 elem_floated b b' -> forall s x y, near_opt s x y -> s + total b < limit ->
  match ends_from x b, ends_from y b' with
  | Ok u, Ok v => Forall2 (near_end (s + total b)) u v
  | Err e, Err e' => e = e'
  | _, _ => False
  end.
Proof.
  intros F. induction F as [|e e' b b' ((Hl & Hp) & _) F IH]; intros s x y N L; [constructor|].
  pose proof (total_nonneg b b' F) as T0.
  assert (Et : total (e :: b) = int_part (elength e) + total b) by reflexivity.
  rewrite Et in *. pose proof (floated_near _ _ Hl Hp) as M. cbn [ends_from].
  destruct x as [x|], y as [y|]; try (destruct N; fail); auto. cbn in N.
  destruct (elength e) as [l|], (elength e') as [l'|]; try (destruct M; fail); cbn [add_opt bind]; auto.
  cbn [near_opt] in M. pose proof (near_add _ _ _ _ _ _ N M ltac:(lia)) as Na.
  specialize (IH (s + int_part (Some l)) (Some (nadd x l)) (Some (nadd y l')) Na ltac:(lia)).
  destruct (ends_from (Some (nadd x l)) b), (ends_from (Some (nadd y l')) b'); cbn [bind]; auto.
  rewrite Z.add_assoc. constructor; auto. split; cbn [fst snd near_opt].
  - eapply near_weaken; [|exact N]. lia.
  - eapply near_weaken; [|exact Na]. lia.
Qed.

Lemma floated_ends b b' : Forall2 elem_floated b b' -> total b < limit ->
  match element_ends b, element_ends b' with
  | Ok u, Ok v => Forall2 (near_end (total b)) u v
  | Err e, Err e' => e = e'
  | _, _ => False
  end.
Proof.
  intros F L. destruct F as [|e e' b b' ((Hl & Hp) & _) F]; [constructor|].
  pose proof (total_nonneg b b' F) as T0.
  assert (Et : total (e :: b) = int_part (elength e) + total b) by reflexivity. rewrite Et in *.
  cbn [element_ends]. pose proof (floated_near _ _ Hl Hp) as M.
  pose proof (floated_ends_from b b' F _ _ _ M L) as K.
  destruct (ends_from (elength e) b), (ends_from (elength e') b'); cbn [bind]; auto. constructor; auto.
  split; cbn [fst snd].
  - left. eexists. split; reflexivity.
  - eapply near_opt_weaken; [|exact M]. lia.
Qed.

Section Fixed.
Variables b b' : beam_t pynum Sec.
Hypothesis HF : Forall2 elem_floated b b'.
Hypothesis HL : total b < limit.

Lemma floated_in_elements p : in_elements b' p = in_elements b p.
Proof.
  unfold in_elements. pose proof (floated_ends b b' HF HL) as K.
  destruct (element_ends b) as [u|], (element_ends b') as [v|]; cbn [bind]; try contradiction; [|congruence].
  generalize 0. clear HF. induction K as [|[s e] [s' e'] u v [N1 N2] F IH]; intros i; auto. cbn [in_ends fst snd] in *.
  change (@nleb pynum PNum) with py_leb. rewrite (proj1 (near_leb _ _ _ p HL N1)).
  assert (E : match e' with Some e => Ok (py_leb p e) | None => Err TypeError end
            = match e with Some e => Ok (py_leb p e) | None => Err TypeError end).
  { destruct e as [e|], e' as [e'|]; cbn in N2; try contradiction; auto. now rewrite (proj2 (near_leb _ _ _ p HL N2)). }
  rewrite E, IH. reflexivity.
Qed.

Lemma floated_to_local f i : beam_to_local b' (PFlt f) i = beam_to_local b (PFlt f) i.
Proof.
  unfold beam_to_local, element_start_end. pose proof (floated_ends b b' HF HL) as K.
  destruct (element_ends b) as [u|], (element_ends b') as [v|]; cbn [bind]; try contradiction; [|congruence].
  pose proof (py_index_Forall2 _ u v i K) as Ki. destruct (py_index u i) as [se|], (py_index v i) as [se'|]; cbn [bind]; try contradiction; [|congruence].
  pose proof (py_index_Forall2 _ b b' i HF) as Kb. destruct (py_index b i) as [e|], (py_index b' i) as [e'|]; cbn [bind]; try contradiction; [|congruence].
  destruct Ki as [N1 _]. destruct Kb as ((Hl & Hp) & _).
  assert (Es : nsub (PFlt f) (fst se') = nsub (PFlt f) (fst se)).
  { cbn [nsub PNum]. unfold arith2. now rewrite (near_tofl _ _ _ N1). }
  rewrite Es. destruct (nltb _ (nint 0)); auto.
  pose proof (floated_near _ _ Hl Hp) as M.
  destruct (elength e) as [l|], (elength e') as [l'|]; try (destruct M; fail); auto. cbn [near_opt] in M.
  set (q := nsub (PFlt f) (fst se)). change (@nltb pynum PNum) with py_ltb. change (@neqb pynum PNum) with py_eqb.
  destruct Hp as [_ Hp]. rewrite (proj1 (near_ltb _ _ _ q Hp M)), (near_eqb _ _ _ (nflt 0 1) Hp M).
  assert (Ed : ndiv q l' = ndiv q l) by (cbn [ndiv PNum]; now rewrite (near_tofl _ _ _ M)). now rewrite Ed.
Qed.

Lemma floated_check ps : check_on_beam b' ps = check_on_beam b ps.
Proof.
  induction ps as [|p ps IH]; auto. cbn [check_on_beam]. rewrite IH. unfold beam_length.
  assert (N0 : near 0 (@nint pynum PNum 0) (@nint pynum PNum 0)).
  { right. exists 0. split; [lia|]. split; [reflexivity|]. now left. }
  pose proof (floated_sum b b' HF 0 _ _ N0 HL) as K.
  destruct (sum_lengths (nint 0) b), (sum_lengths (nint 0) b'); cbn [bind]; try contradiction; [|now rewrite K].
  change (@nltb pynum PNum) with py_ltb. now rewrite (proj1 (near_ltb _ _ _ p HL K)).
Qed.

Lemma floated_locations_at lc f i : locations_at b' lc (PFlt f) i = locations_at b lc (PFlt f) i.
Proof.
  unfold locations_at. rewrite floated_to_local.
  pose proof (py_index_Forall2 _ b b' i HF) as Kb. destruct (py_index b i) as [e|], (py_index b' i) as [e'|]; cbn [bind]; try contradiction; [|congruence].
  destruct Kb as ((Hl & Hp) & _ & El). pose proof (floated_near _ _ Hl Hp) as M.
  destruct (elength e) as [l|], (elength e') as [l'|]; try (destruct M; fail); auto. cbn [near_opt] in M.
  change (@neqb pynum PNum) with py_eqb. destruct Hp as [_ Hp]. rewrite (near_eqb _ _ _ (nint 0) Hp M).
  destruct (py_eqb l (nint 0)); auto. unfold zero_length_positions, el_load_positions. now rewrite El.
Qed.

Lemma floated_locations lc ps : Forall (fun p => nisfloat p = true) ps -> locations b' lc ps = locations b lc ps.
Proof.
  intros H. unfold locations. f_equal. apply mapM_ext. intros p Hp. rewrite floated_in_elements.
  rewrite Forall_forall in H. specialize (H p Hp). destruct p as [|f]; [discriminate H|].
  destruct (in_elements b (PFlt f)); [|reflexivity]. cbn [bind]. f_equal. apply mapM_ext. intros i _. apply floated_locations_at.
Qed.

Definition float_position (position : pos_arg pynum) : Prop :=
  match position with
  | PosNone => False
  | PosNum x => nisfloat x = true
  | PosList l => Forall (fun p => nisfloat p = true) l
  end.

Lemma floated_list_positions position mp lc : float_position position ->
  beam_list_positions b' position mp lc = beam_list_positions b position mp lc.
Proof.
  intros H. unfold beam_list_positions. destruct position as [|x|l]; [destruct H| |]; destruct mp; auto.
  - cbn in H. rewrite floated_check. change (nisfloat x = true) in H. rewrite H.
    rewrite floated_locations; auto. apply Forall_forall. intros p Hp. apply sorted_set_incl in Hp. destruct Hp as [<-|[]]. auto.
  - rewrite floated_check, floated_locations; auto. apply Forall_forall. intros p Hp. apply sorted_set_incl in Hp.
    cbn in H. rewrite Forall_forall in H. exact (H p Hp).
Qed.

Lemma floated_get_loads qs c position mp a : float_position position ->
  beam_get_loads qs b' c position mp a = beam_get_loads qs b c position mp a.
Proof.
  intros H. unfold beam_get_loads. rewrite floated_list_positions by auto.
  destruct (beam_list_positions b position mp (Some c)) as [locs|]; [|reflexivity]. cbn [bind].
  generalize (@None (list (orow pynum))). induction locs as [|[[p e] l] locs IH]; intros acc; auto. cbn [accumulate].
  pose proof (py_index_Forall2 _ b b' e HF) as Kb. destruct (py_index b e) as [x|], (py_index b' e) as [x'|]; cbn [bind]; try contradiction; [|congruence].
  destruct Kb as (_ & _ & El).
  assert (Eg : el_get_loads qs x' c (PosNum l) None a = el_get_loads qs x c (PosNum l) None a) by (unfold el_get_loads; now rewrite El).
  rewrite Eg. destruct (el_get_loads qs x c (PosNum l) None a) as [[rows|]|]; cbn [bind]; auto.
  destruct acc as [r|]; cbn [bind]; auto. destruct (vstack r (set_position p rows)); cbn [bind]; auto.
Qed.

Lemma floated_sections : map esection b' = map esection b.
Proof. pose proof HF as G. clear HL HF. induction G as [|e e' d d' (_ & H & _) F IH]; cbn; congruence. Qed.

Lemma floated_cases : beam_load_cases b' = beam_load_cases b.
Proof. destruct HF as [|e e' d d' (_ & _ & H) F]; auto. cbn. unfold el_load_cases. now rewrite H. Qed.
End Fixed.
End Beams.

(** ** C77 *)
Section Check.
Variables b b' : beam_t pynum (section pynum).
Hypothesis HF : lengths_floated b b'.

Lemma floated_make phi au kt s a : make_as4100 phi au kt (Some b) s = Ok a ->
  make_as4100 phi au kt (Some b') s
  = Ok (mk_as4100 (Some b') (cc_section a) (assessment_points a) (cc_as_sections a) (phi_steel a) (alpha_u a) (k_t a)).
Proof.
  intros H. apply make_ok in H. destruct H as (_ & ws & F & ->). apply make_ok. split; [intros [E _]; discriminate E|].
  exists ws. split; auto. cbn [checked_sections] in *. rewrite floated_sections with (b := b); auto. now apply floated_elems.
Qed.

Lemma C77_partial_lemma qs phi au kt s a lc position : make_as4100 phi au kt (Some b) s = Ok a ->
  float_position position ->
  exists a', make_as4100 phi au kt (Some b') s = Ok a' /\ tension_utilisation qs a' lc position = tension_utilisation qs a lc position.
Proof.
  intros Hm Hp. eexists. split; [exact (floated_make phi au kt s a Hm)|].
  set (a' := mk_as4100 _ _ _ _ _ _ _). pose proof (make_beam _ _ _ _ _ _ Hm) as Eb.
  pose proof (floated_elems b b' HF) as F. assert (L : total b < limit) by apply HF.
  assert (C : forall p, nisfloat p = true -> tension_capacity a' (PosNum p) = tension_capacity a (PosNum p)).
  { intros p Hf. assert (S : sections_at a' (PosNum p) = sections_at a (PosNum p)).
    { unfold sections_at, get_as4100_section. rewrite Eb. cbn [cc_beam a'].
      rewrite (floated_list_positions b b' F L) by exact Hf. reflexivity. }
    unfold tension_capacity, phiNt, Nt, Nty, Ntu. rewrite S. reflexivity. }
  assert (G : forall c p, nisfloat p = true -> get_tension qs a' c (PosNum p) None = get_tension qs a c (PosNum p) None).
  { intros c p Hf. unfold get_tension. rewrite Eb. cbn [cc_beam a']. now rewrite (floated_get_loads b b' F L) by exact Hf. }
  assert (U : forall ps, Forall (fun p => nisfloat p = true) ps -> forall cs, util_loop qs a' b' (Some ps) cs = util_loop qs a b (Some ps) cs).
  { intros ps Hps cs. induction cs as [|c cs IH]; auto. cbn [util_loop bind]. rewrite IH.
    rewrite (mapM_ext (utils_at qs a' c) (utils_at qs a c)); auto.
    intros p Ip. rewrite Forall_forall in Hps. unfold utils_at. rewrite C, G by auto. reflexivity. }
  unfold tension_utilisation. rewrite Eb. cbn [cc_beam a']. rewrite (floated_cases b b' F L).
  destruct lc as [|z|l]; [destruct (beam_load_cases b) as [cs|]; [|reflexivity]| |]; cbn [bind];
    (destruct position as [|x|ps]; [destruct Hp| |]; cbn [bind];
     [cbn in Hp; change (nisfloat x = true) in Hp; rewrite Hp; cbn [bind]; rewrite U by (constructor; auto)
     |rewrite U by exact Hp]; reflexivity).
Qed.
End Check.
