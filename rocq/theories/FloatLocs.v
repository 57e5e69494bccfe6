(** C17, C18, C24 on doubles: the triples of [Beam.list_positions] and the loads there. *)

From Coq Require Import ZArith Reals List Bool Sorted Permutation Lra Lia Floats.SpecFloat.
From Verif Require Import Base Num RNum PyNum Numpy LoadCase OrdFacts LoadFacts LoadSpec LoadProofs
  Beam BeamSpec BeamFacts BeamPositions BeamProofs BeamLoads BeamMisc BeamFloat
  IntFloat FloatSpec FloatRound FloatOps FloatFacts FloatBeam.
Import ListNotations.
Open Scope R_scope.

Section P.
Context {Sec : Type}.

(** ** The triples *)
Lemma at_fst (b : beam_t pynum Sec) lc p e ts : locations_at b lc p e = Ok ts ->
  (forall t, In t ts -> fst t = (p, e)) /\ (forall el : elem pynum Sec, zero_length_positions el lc = Ok [] -> False) /\ ts <> [].
Proof.
  intros H. assert (Z : forall el : elem pynum Sec, zero_length_positions el lc = Ok [] -> False).
  { intros el. unfold zero_length_positions. destruct lc as [c|]; [|discriminate].
    destruct (el_load_positions el c) as [[|p0 lp]|]; try discriminate. cbn [bind]. cbv zeta.
    intros [= E]. destruct (negb _); apply (f_equal (@List.length _)) in E; rewrite ?map_length in E;
      destruct (negb _); cbn in E; try discriminate; rewrite ?map_length in E; discriminate. }
  unfold locations_at in H. destruct (py_index b e) as [el|]; [|discriminate]. cbn [bind] in H.
  assert (S : (let! l := beam_to_local b p e in Ok [(p, e, l)]) = Ok ts -> (forall t, In t ts -> fst t = (p, e)) /\ ts <> []).
  { destruct (beam_to_local b p e); [|discriminate]. cbn [bind]. intros [= <-]. split; [|discriminate]. intros t [<-|[]]. reflexivity. }
  destruct (elength el) as [len|]; [|destruct (S H); auto].
  destruct (neqb len (nint 0)); [|destruct (S H); auto].
  destruct (zero_length_positions el lc) as [xs|] eqn:E; [|discriminate]. cbn [bind] in H. injection H as <-. split.
  - intros t Ht. apply in_map_iff in Ht. destruct Ht as (x & <- & _). reflexivity.
  - split; auto. intros N. destruct xs; [|discriminate]. exact (Z el E).
Qed.

Lemma locations_in (b : beam_t pynum Sec) lc ps locs : locations b lc ps = Ok locs ->
  forall p e x, In (p, e, x) locs <-> exists is ts, In p ps /\ in_elements b p = Ok is /\ In e is /\
    locations_at b lc p e = Ok ts /\ In (p, e, x) ts.
Proof.
  unfold locations. intros E p e x. destruct (mapM _ ps) as [tss|] eqn:M; [|discriminate]. cbn [bind] in E.
  injection E as <-. apply mapM_inv in M. rewrite in_concat. split.
  - intros (ts & Hts & Ht). destruct (Forall2_In_r _ _ _ ts M Hts) as (q & Hq & Eq).
    destruct (in_elements b q) as [is|] eqn:Ei; [|discriminate]. cbn [bind] in Eq.
    destruct (mapM (locations_at b lc q) is) as [rs|] eqn:Mr; [|discriminate]. cbn [bind] in Eq. injection Eq as <-.
    apply in_concat in Ht. destruct Ht as (r & Hr & Ht). apply mapM_inv in Mr.
    destruct (Forall2_In_r _ _ _ r Mr Hr) as (i & Hi & Er).
    pose proof (proj1 (at_fst _ _ _ _ _ Er) _ Ht) as F. cbn [fst] in F. injection F as -> ->.
    exists is, r. auto.
  - intros (is & ts & Hp & Ei & He & Et & Ht). destruct (Forall2_In_l _ _ _ p M Hp) as (tts & Htt & Eq).
    rewrite Ei in Eq. cbn [bind] in Eq. destruct (mapM (locations_at b lc p) is) as [rs|] eqn:Mr; [|discriminate].
    cbn [bind] in Eq. injection Eq as <-. apply mapM_inv in Mr. destruct (Forall2_In_l _ _ _ e Mr He) as (r & Hr & Er).
    assert (r = ts) as -> by congruence. exists (List.concat rs). split; auto. apply in_concat. eauto.
Qed.

Lemma locations_all (b : beam_t pynum Sec) lc ps locs : locations b lc ps = Ok locs ->
  forall p is e, In p ps -> in_elements b p = Ok is -> In e is -> exists ts, locations_at b lc p e = Ok ts.
Proof.
  unfold locations. intros E p is e Hp Ei He. destruct (mapM _ ps) as [tss|] eqn:M; [|discriminate]. clear E.
  apply mapM_inv in M. destruct (Forall2_In_l _ _ _ p M Hp) as (tts & _ & Eq). rewrite Ei in Eq. cbn [bind] in Eq.
  destruct (mapM (locations_at b lc p) is) as [rs|] eqn:Mr; [|discriminate]. apply mapM_inv in Mr.
  destruct (Forall2_In_l _ _ _ e Mr He) as (r & _ & Er). eauto.
Qed.

Lemma SS_app_le (l m : list pynum) : StronglySorted (fun a b => nleb a b = true) l -> StronglySorted (fun a b => nleb a b = true) m ->
  (forall a b, In a l -> In b m -> nleb a b = true) -> StronglySorted (fun a b => nleb a b = true) (l ++ m).
Proof.
  intros Hl Hm H. induction Hl as [|x l S IH F]; cbn; auto. constructor; [apply IH; intros; apply H; auto; now right|].
  apply Forall_app. split; auto. apply Forall_forall. intros y Hy. apply H; auto. now left.
Qed.

Lemma const_sorted (l : list pynum) p : nisnan p = false -> (forall x, In x l -> x = p) ->
  StronglySorted (fun a b => nleb a b = true) l.
Proof.
  intros F1. induction l as [|x l IHl]; intros A; constructor.
  - apply IHl. intros y Hy. apply A. now right.
  - apply Forall_forall. intros y Hy. rewrite (A x (or_introl eq_refl)), (A y (or_intror Hy)). now apply le_refl.
Qed.

Lemma locations_sorted (b : beam_t pynum Sec) lc ps : StronglySorted (fun a b => nleb a b = true) ps -> Forall (fun p => nisnan p = false) ps ->
  forall locs, locations b lc ps = Ok locs -> StronglySorted (fun a b => nleb a b = true) (points locs).
Proof.
  intros S F. induction S as [|p ps S IH Fp]; intros locs E.
  - unfold locations in E. cbn in E. injection E as <-. constructor.
  - assert (K : exists ts rest, (let! es := in_elements b p in let! ls := mapM (locations_at b lc p) es in Ok (List.concat ls)) = Ok ts
       /\ locations b lc ps = Ok rest /\ locs = ts ++ rest).
    { unfold locations in *. cbn [mapM] in E. destruct (bind (in_elements b p) _) as [ts|]; [|discriminate]. cbn [bind] in E.
      destruct (mapM _ ps) as [r|]; [|discriminate]. cbn [bind] in *. injection E as <-. exists ts, (List.concat r). auto. }
    destruct K as (ts & rest & E1 & E2 & ->). inversion F as [|? ? F1 F2]; subst.
    assert (Pt : forall t, In t ts -> fst (fst t) = p).
    { intros t Ht. destruct (in_elements b p) as [is|]; [|discriminate]. cbn [bind] in E1.
      destruct (mapM (locations_at b lc p) is) as [rs|] eqn:Mr; [|discriminate]. cbn [bind] in E1. injection E1 as <-.
      apply in_concat in Ht. destruct Ht as (r & Hr & Ht). apply mapM_inv in Mr.
      destruct (Forall2_In_r _ _ _ r Mr Hr) as (i & Hi & Er). pose proof (proj1 (at_fst _ _ _ _ _ Er) _ Ht) as Q. now rewrite Q. }
    unfold points. rewrite map_app. apply SS_app_le.
    + assert (A : forall x, In x (map (fun t => fst (fst t)) ts) -> x = p).
      { intros x Hx. apply in_map_iff in Hx. destruct Hx as (t & <- & Ht). auto. }
      exact (const_sorted _ p F1 A).
    + apply IH; auto.
    + intros x y Hx Hy. apply in_map_iff in Hx. destruct Hx as (t & <- & Ht). rewrite (Pt t Ht).
      apply in_map_iff in Hy. destruct Hy as (t' & <- & Ht').
      rewrite Forall_forall in Fp. apply Fp. apply (locations_pos b lc ps rest E2 t' Ht').
Qed.

Lemma fb_tiles (b : beam_t pynum Sec) ls ends total : float_beam b ls ends total -> rounded_tiles (fl 0 1) ls ends total.
Proof.
  intros (F & L & N & E1 & E2 & _). destruct (float_tiles b ls F L N) as (e' & t' & A & B & R). congruence.
Qed.

Lemma fb_finite (b : beam_t pynum Sec) ls ends total i s t : float_beam b ls ends total -> nth_error ends i = Some (s, Some t) ->
  nnp s /\ nnp t /\ nisinf s = false /\ nisinf t = false /\ nleb (fl 0 1) s = true /\ nleb s t = true /\ nleb t total = true.
Proof.
  intros H E. pose proof (fb_tiles _ _ _ _ H) as R. destruct H as (F & L & N & E1 & E2 & I).
  destruct (tiles_nn R L nnp_zero) as (T1 & _ & T). destruct (T i s t E) as (A & B & C & D & G).
  assert (K : forall x, nnp x -> nleb x total = true -> nisinf x = false).
  { intros x (f & -> & Nf) Lx. destruct (nn_fin f Nf) as [Ff| ->]; [destruct f; auto; contradiction|].
    destruct T1 as (g & -> & Ng). destruct (nn_fin g Ng) as [Fg| ->]; [|discriminate I].
    destruct g as [[]| | |[]]; try contradiction; discriminate Lx. }
  repeat split; auto. apply K; auto. eapply le_trans; eauto.
Qed.

Lemma fb_index (b : beam_t pynum Sec) ls ends total p is i : float_beam b ls ends total -> in_elements b p = Ok is ->
  In (Z.of_nat i) is <-> exists s t, nth_error ends i = Some (s, Some t) /\ nleb s p = true /\ nleb p t = true.
Proof.
  intros (F & L & N & E1 & E2 & _) H. destruct (C15_double b ls p F L N) as (js & ends' & total' & A & B & _ & _ & C & _).
  rewrite A in H. injection H as <-. rewrite E1 in B. injection B as <-. rewrite <- C. rewrite in_map_iff. split.
  - intros (j & E & Hj). apply Nat2Z.inj in E. now subst.
  - eauto.
Qed.

Lemma fb_ids (b : beam_t pynum Sec) ls ends total p : float_beam b ls ends total -> exists js, in_elements b p = Ok (map Z.of_nat js) /\
  (js <> [] <-> nleb (fl 0 1) p = true /\ nleb p total = true).
Proof.
  intros (F & L & N & E1 & E2 & _). destruct (C15_double b ls p F L N) as (js & ends' & total' & A & _ & B & _ & _ & C & _).
  rewrite E2 in B. injection B as <-. eauto.
Qed.

Lemma between_finite p s t : double p -> nnp s -> nnp t -> nisinf t = false -> nleb s p = true -> nleb p t = true -> finite_double p.
Proof.
  intros D (sf & -> & Ns) (tf & -> & Nt) I A B. split; auto. destruct D as (f & -> & V).
  destruct (valid_cases f V) as [F|[[x ->]| ->]].
  - destruct f; try contradiction; auto.
  - exfalso. destruct x.
    + destruct sf as [[]|[]| |[]]; try contradiction; discriminate A.
    + destruct tf as [[]|[]| |[]]; try contradiction; try discriminate B; discriminate I.
  - exfalso. cbn [nleb PNum] in B. unfold py_leb in B. discriminate B.
Qed.

(** The triples found for any doubles. *)
Lemma triples_core (b : beam_t pynum Sec) ls ends total lc ps locs : float_beam b ls ends total -> Forall double ps ->
  locations b lc ps = Ok locs ->
  (forall p e x, In (p, e, x) locs -> exists i s t, e = Z.of_nat i /\ nth_error ends i = Some (s, Some t) /\
     nleb s p = true /\ nleb p t = true /\ In p ps /\ (neqb (nth i ls (fl 0 1)) (fl 0 1) = false -> unit_double x /\ x = ndiv (nsub p s) (nth i ls (fl 0 1)))) /\
  (forall p i s t, In p ps -> nth_error ends i = Some (s, Some t) -> nleb s p = true -> nleb p t = true ->
     exists x, In (p, Z.of_nat i, x) locs) /\
  (forall p, In p ps -> nleb (fl 0 1) p = true -> nleb p total = true -> In p (points locs)).
Proof.
  intros H Dp E. pose proof (fb_tiles _ _ _ _ H) as R. destruct (tiles_some R) as [_ Ln].
  assert (All : forall p i s t, In p ps -> nth_error ends i = Some (s, Some t) -> nleb s p = true -> nleb p t = true ->
     exists x, In (p, Z.of_nat i, x) locs).
  { intros p i s t Hp En A B. destruct (fb_ids b ls ends total p H) as (js & Ej & _).
    assert (Hi : In (Z.of_nat i) (map Z.of_nat js)) by (apply (fb_index b ls ends total p _ i H Ej); eauto).
    destruct (locations_all b lc ps locs E p _ _ Hp Ej Hi) as (ts & Et). destruct (at_fst _ _ _ _ _ Et) as (F & _ & NE).
    destruct ts as [|[[p' e'] x] ts]; [now contradiction NE|]. pose proof (F _ (or_introl eq_refl)) as Q. cbn [fst] in Q. injection Q as -> ->.
    exists x. apply (locations_in b lc ps locs E). exists (map Z.of_nat js), ((p, Z.of_nat i, x) :: ts). repeat split; auto. now left. }
  split; [|split; auto].
  - intros p e x Hin. apply (locations_in b lc ps locs E) in Hin. destruct Hin as (is & ts & Hp & Ei & He & Et & Ht).
    destruct (fb_ids b ls ends total p H) as (js & Ej & _). assert (is = map Z.of_nat js) as -> by congruence.
    apply in_map_iff in He. destruct He as (i & <- & Hi). apply (in_map Z.of_nat) in Hi.
    apply (fb_index b ls ends total p _ i H Ej) in Hi. destruct Hi as (s & t & En & A & B).
    exists i, s, t. split; auto. split; auto. split; auto. split; auto. split; auto. intros NZ.
    destruct (fb_finite _ _ _ _ _ _ _ H En) as (Ns & Nt & Is & It & _).
    assert (Fp : finite_double p) by (rewrite Forall_forall in Dp; exact (between_finite p s t (Dp p Hp) Ns Nt It A B)).
    destruct H as (F & L & N & E1 & E2 & _).
    assert (Lb : List.length b = List.length ls) by (clear - F; induction F; cbn; congruence).
    assert (D : designated (List.length b) (Z.of_nat i) i).
    { apply designated_nat. rewrite Lb, <- Ln. apply nth_error_Some. congruence. }
    destruct (elem_at b ls (Z.of_nat i) i F L D) as (el & l & ends' & s' & total' & G1 & G2 & G3 & _).
    unfold locations_at in Et. rewrite G1 in Et. cbn [bind] in Et. rewrite G2 in Et.
    assert (Nth : nth i ls (fl 0 1) = l) by (now apply nth_error_nth). rewrite Nth in NZ.
    change (neqb l (nint 0)) with (neqb l (fl 0 1)) in Et. rewrite NZ in Et.
    destruct (beam_to_local b p (Z.of_nat i)) as [y|] eqn:El; [|discriminate]. cbn [bind] in Et. injection Et as <-.
    destruct Ht as [Q|[]]. injection Q as ->.
    destruct (C16_double_local b ls p (Z.of_nat i) i ends s t F L D E1 En Is Fp) as (_ & U & _).
    rewrite Nth in U. rewrite Nth. now apply U.
  - intros p Hp A B. destruct (fb_ids b ls ends total p H) as (js & Ej & C). destruct js as [|j js].
    { exfalso. apply (proj2 C); auto. }
    assert (Hj : In (Z.of_nat j) (map Z.of_nat (j :: js))) by (left; reflexivity).
    apply (fb_index b ls ends total p _ j H Ej) in Hj. destruct Hj as (s & t & En & A' & B').
    destruct (All p j s t Hp En A' B') as (x & Hx). unfold points. apply in_map_iff. exists (p, Z.of_nat j, x). auto.
Qed.

(** ** Evenly spaced doubles *)
Lemma rounds_Pok v f : rounds v f -> double (PFlt f) /\ Pok (PFlt f).
Proof.
  intros H. split; [eexists; split; [reflexivity|eapply rounds_valid; eauto]|]. apply rounds_nan in H. now destruct f.
Qed.

Lemma plus_zero f : double (PFlt f) /\ Pok (PFlt f) ->
  double (nadd (PFlt f) (PFlt (S754_zero false))) /\ Pok (nadd (PFlt f) (PFlt (S754_zero false))).
Proof.
  intros [(g & E & V) K]. injection E as <-. cbn [nadd PNum arith2 tofl].
  destruct f as [[]|s| |s c x]; cbn [SFadd Bool.eqb]; try contradiction; (split; [eexists; split; [reflexivity|exact V]|exact I]).
Qed.

Lemma small_int z : (0 <= z <= 2 ^ 53)%Z -> fin64 (sf_of_Z z) /\ sfR (sf_of_Z z) = IZR z.
Proof.
  intros H. pose proof (of_Z_rounds z) as Rz. replace (IZR z) with (IZR z * bp 0) in Rz by (rewrite bp_0; ring).
  destruct (rounds_exact z 0 (sf_of_Z z)) as [A B]; auto; try lia.
  - rewrite bp_0, Rmult_1_r, Rabs_right by (apply Rle_ge, IZR_le; lia). apply Rle_lt_trans with (bp 53); [|apply bp_lt; lia].
    rewrite bp_Z by lia. apply IZR_le. lia.
  - split; auto. rewrite B, bp_0. ring.
Qed.

Lemma lin_doubles total n lin : nnp total -> nisinf total = false -> (n <= 2 ^ 52)%Z -> linspace (fl 0 1) total n = Ok lin ->
  Forall (fun q => double q /\ Pok q) lin.
Proof.
  intros Nt It Hn E. destruct (finite_start total Nt It) as (tf & -> & Ft & Nf). unfold linspace in E.
  destruct (n <? 0)%Z eqn:N0; [discriminate|]. apply Z.ltb_ge in N0. apply Ok_same in E. subst lin. cbv zeta.
  change (nfloat (fl 0 1)) with (PFlt (S754_zero false)). change (nfloat (PFlt tf)) with (PFlt tf).
  assert (D : nsub (PFlt tf) (PFlt (S754_zero false)) = PFlt tf).
  { cbn [nsub PNum arith2 tofl]. destruct tf as [[]| | |]; try contradiction; reflexivity. }
  rewrite D.
  assert (A : forall i, (Z.of_nat i <= n)%Z -> let q := lin_entry (PFlt (S754_zero false)) (PFlt tf) n i in double q /\ Pok q).
  { intros i Hi. cbv zeta. unfold lin_entry. cbv zeta. change (nfloat (nint (Z.of_nat i))) with (PFlt (sf_of_Z (Z.of_nat i))).
    destruct (small_int (Z.of_nat i) ltac:(lia)) as [Fi Vi].
    destruct (1 <? n)%Z eqn:N1.
    - apply Z.ltb_lt in N1. change (nfloat (nint (n - 1))) with (PFlt (sf_of_Z (n - 1))).
      destruct (small_int (n - 1) ltac:(lia)) as [Fd Vd].
      assert (Zd : sfR (sf_of_Z (n - 1)) <> 0) by (rewrite Vd; apply not_0_IZR; lia).
      assert (Dv : 1 <= IZR (n - 1)) by (apply IZR_le; lia).
      assert (S : fin64 (SFdiv f64 e64 tf (sf_of_Z (n - 1)))).
      { pose proof (div_rounds tf _ Ft Fd Zd) as Rq. apply nn_value in Nf.
        apply (rounds_between _ _ (S754_zero false) tf Rq I Ft). cbn [sfR]. rewrite Vd.
        assert (0 < / IZR (n - 1) <= 1).
        { split; [apply Rinv_0_lt_compat; lra|]. rewrite <- Rinv_1. apply Rinv_le_contravar; lra. }
        unfold Rdiv. split; nra. }
      assert (S' : fin64 (SFdiv f64 e64 (sf_of_Z (Z.of_nat i)) (sf_of_Z (n - 1)))).
      { pose proof (div_rounds _ _ Fi Fd Zd) as Rq.
        apply (rounds_between _ _ (S754_zero false) (sf_of_Z (Z.of_nat i)) Rq I Fi). cbn [sfR]. rewrite Vd, Vi.
        assert (0 <= IZR (Z.of_nat i)) by (apply IZR_le; lia).
        assert (0 < / IZR (n - 1) <= 1).
        { split; [apply Rinv_0_lt_compat; lra|]. rewrite <- Rinv_1. apply Rinv_le_contravar; lra. }
        unfold Rdiv. split; nra. }
      destruct (neqb _ _); apply plus_zero; cbn [ndiv nmul PNum arith2 tofl]; eapply rounds_Pok; apply mul_rounds; auto.
    - apply plus_zero. cbn [nmul PNum arith2 tofl]. eapply rounds_Pok. apply mul_rounds; auto. }
  assert (Z : Z.of_nat (Z.to_nat n) = n) by (apply Z2Nat.id; lia).
  destruct (1 <? n)%Z.
  - apply Forall_app. split; [|repeat constructor; eapply rounds_Pok, rounds_self; auto].
    apply Forall_map, Forall_forall. intros i Hi. apply in_seq in Hi. apply A. lia.
  - apply Forall_map, Forall_forall. intros i Hi. apply in_seq in Hi. apply A. lia.
Qed.

(** ** C17 *)
Lemma finite_Pok x : finite_double x -> Pok x.
Proof. intros H. apply finite_double_fin in H. destruct H as (f & -> & F). now destruct f. Qed.

Lemma check_inv (b : beam_t pynum Sec) total ps : beam_length b = Ok total -> nisnan total = false -> Forall Pok ps ->
  check_on_beam b ps = Ok tt -> Forall (fun p => nleb (fl 0 1) p = true /\ nleb p total = true) ps.
Proof.
  intros Hb Nt. induction 1 as [|p ps Hp _ IH]; intros H; constructor; cbn [check_on_beam] in H.
  - assert (Np : nisnan p = false) by (destruct p as [|[]]; try contradiction; auto).
    destruct (nltb p (nint 0)) eqn:A; [discriminate|]. rewrite Hb in H. cbn [bind] in H.
    destruct (nltb total p) eqn:B; [discriminate|]. split.
    + change (nleb (nint 0) p = true). apply lt_or; auto.
    + apply lt_or; auto.
  - destruct (nltb p (nint 0)) eqn:A; [discriminate|]. rewrite Hb in H. cbn [bind] in H.
    destruct (nltb total p) eqn:B; [discriminate|]. auto.
Qed.

Lemma fb_total (b : beam_t pynum Sec) ls ends total : float_beam b ls ends total -> nnp total.
Proof.
  intros H. pose proof (fb_tiles _ _ _ _ H) as R. destruct H as (F & L & _). now destruct (tiles_nn R L nnp_zero).
Qed.

Lemma Pok_nan x : Pok x -> nisnan x = false.
Proof. destruct x as [|[]]; cbn; auto; contradiction. Qed.

Lemma SS_of_sorted l : OrdFacts.sorted (T := pynum) (fun x => x) l -> StronglySorted (fun a b => nleb a b = true) l.
Proof. intros H. exact H. Qed.

Lemma C17_double (b : beam_t pynum Sec) ls ends total position ps lc locs : float_beam b ls ends total -> asked position ps ->
  Forall finite_double ps -> beam_list_positions b position None lc = Ok locs ->
  Forall (well_placed ls ends) locs /\
  StronglySorted (fun a b => nleb a b = true) (points locs) /\
  (forall p, In p (points locs) -> In p ps) /\
  (forall q, In q ps -> exists p, In p (points locs) /\ neqb q p = true) /\
  (forall p i s t, In p (points locs) -> nth_error ends i = Some (s, Some t) -> nleb s p = true -> nleb p t = true ->
     exists x, In (p, Z.of_nat i, x) locs).
Proof.
  intros H A Fp E.
  assert (K : check_on_beam b ps = Ok tt /\ locations b lc (py_sorted (py_set ps)) = Ok locs).
  { destruct A as [p|ps]; cbn [beam_list_positions] in E.
    - destruct (nisfloat p); [|discriminate]. destruct (check_on_beam b [p]) as [[]|]; [|discriminate]. auto.
    - destruct (check_on_beam b ps) as [[]|]; [|discriminate]. auto. }
  clear E. destruct K as [C E]. set (qs := py_sorted (py_set ps)) in *.
  assert (Ok : Forall Pok ps) by (eapply Forall_impl; [|exact Fp]; apply finite_Pok).
  assert (Qin : forall q, In q qs -> In q ps) by (intros q; apply sorted_set_incl).
  assert (Qd : Forall double qs).
  { apply Forall_forall. intros q Hq. apply Qin in Hq. rewrite Forall_forall in Fp. now apply Fp. }
  destruct (triples_core b ls ends total lc qs locs H Qd E) as (T1 & T2 & T3).
  pose proof (check_inv b total ps (proj1 (proj2 (proj2 (proj2 (proj2 H))))) (nnp_nan _ (fb_total _ _ _ _ H)) Ok C) as On.
  assert (Pin : forall p, In p (points locs) -> In p qs).
  { intros p Hp. unfold points in Hp. apply in_map_iff in Hp. destruct Hp as ([[q e] x] & <- & Hin). cbn [fst].
    destruct (T1 q e x Hin) as (i & s & t & _ & _ & _ & _ & G & _). exact G. }
  split; [|split; [|split; [|split]]].
  - apply Forall_forall. intros [[p e] x] Hin. destruct (T1 p e x Hin) as (i & s & t & -> & G1 & G2 & G3 & _ & G4).
    exists i, s, t. cbn [fst snd]. auto.
  - apply (locations_sorted b lc qs); auto.
    + pose proof (sorted_set_ascending ps Ok) as As. fold qs in As. clear - As. induction As as [|x l S IH F]; constructor; auto.
      eapply Forall_impl; [|exact F]. intros y Hy. cbn [nltb nleb PNum] in *. unfold py_ltb in Hy. apply andb_true_iff in Hy. tauto.
    + apply Forall_forall. intros q Hq. apply Pok_nan. apply Qin in Hq. rewrite Forall_forall in Ok. auto.
  - intros p Hp. auto.
  - intros q Hq. destruct (sorted_set_has ps q Ok Hq) as (p & Hp & Ep). fold qs in Hp. exists p. split; auto.
    rewrite Forall_forall in On. destruct (On p (Qin p Hp)). apply T3; auto.
  - intros p i s t Hp. apply T2. auto.
Qed.

(** ** C18 *)
Lemma stored_ok (b : beam_t pynum Sec) lc el : tables_ok b lc -> In el b ->
  match lc with None => Ok [nflt 0 1; nflt 1 1] | Some c => el_load_positions el c end = Ok (stored_points el lc) /\
  Forall unit_double (stored_points el lc).
Proof.
  intros H Hin. destruct lc as [c|].
  - destruct (H el Hin) as (rows & E & _ & F). unfold el_load_positions, stored_points. rewrite E. cbn [bind load_positions].
    split; auto. now apply Forall_map.
  - split; auto. repeat constructor; try reflexivity;
      (eexists; split; [reflexivity|vm_compute; reflexivity]).
Qed.

Lemma real_ok (b : beam_t pynum Sec) ls ends total lc : float_beam b ls ends total -> tables_ok b lc ->
  forall es k, skipn k b = es -> exists real, real_positions b lc (Z.of_nat k) es = Ok real /\
    Forall (fun q => double q /\ nleb (fl 0 1) q = true /\ nleb q total = true) real /\
    (forall i el x, (k <= i)%nat -> nth_error b i = Some el -> In x (stored_points el lc) ->
       exists q, local_to_beam b x (Z.of_nat i) = Ok q /\ In q real).
Proof.
  intros H HT. pose proof (fb_tiles _ _ _ _ H) as R. destruct (tiles_some R) as [_ Ln].
  assert (Lb : List.length b = List.length ls) by (destruct H as [F _]; clear - F; induction F; cbn; congruence).
  induction es as [|el es IH]; intros k Ek.
  - exists []. split; [reflexivity|]. split; [constructor|]. intros i el x Hi Ei. exfalso.
    assert (i < List.length b)%nat by (apply nth_error_Some; congruence).
    apply (f_equal (@List.length _)) in Ek. rewrite skipn_length in Ek. cbn in Ek. lia.
  - assert (Eb : nth_error b k = Some el /\ skipn (S k) b = es).
    { clear - Ek. revert b Ek. induction k as [|k IH]; intros [|x b] E; cbn in *; try discriminate; [injection E as -> ->; auto|].
      apply IH in E. exact E. }
    destruct Eb as [Eb Es]. destruct (IH (S k) Es) as (rest & Er & Fr & Hr).
    assert (Hin : In el b) by (eapply nth_error_In; eauto).
    destruct (stored_ok b lc el HT Hin) as [Sp Su]. cbn [real_positions]. rewrite Sp. cbn [bind].
    assert (Hk : (k < List.length b)%nat) by (apply nth_error_Some; congruence).
    destruct (nth_error ls k) as [l|] eqn:El; [|apply nth_error_None in El; lia].
    destruct (tiles_step R k l El) as (s & En).
    destruct (fb_finite _ _ _ _ _ _ _ H En) as (Ns & Nt & Is & It & G1 & G2 & G3).
    assert (M : forall xs, Forall unit_double xs -> exists q, mapM (fun p => local_to_beam b p (Z.of_nat k)) xs = Ok q /\
      Forall (fun q => double q /\ nleb (fl 0 1) q = true /\ nleb q total = true) q /\
      forall x, In x xs -> exists y, local_to_beam b x (Z.of_nat k) = Ok y /\ In y q).
    { intros xs. induction 1 as [|x xs Hx _ IHx]; [exists []; split; [reflexivity|split; [constructor|contradiction]]|].
      destruct IHx as (q & Eq & Fq & Hq). destruct H as (F & L & N & E1 & E2 & _).
      destruct (C16_double_beam b ls x (Z.of_nat k) k ends s _ F L (designated_nat _ _ Hk) E1 En Hx) as (p & Ep & P1 & P2 & P3).
      cbn [mapM]. rewrite Ep, Eq. cbn [bind]. exists (p :: q). split; auto. split.
      - constructor; auto. split; auto. split; [eapply le_trans; eauto|eapply le_trans; eauto].
      - intros y [<-|Hy]; [exists p; split; auto; now left|]. destruct (Hq y Hy) as (z & Z1 & Z2). exists z. split; auto. now right. }
    destruct (M _ Su) as (q & Eq & Fq & Hq). rewrite Eq. cbn [bind].
    replace (Z.of_nat k + 1)%Z with (Z.of_nat (S k)) by lia. rewrite Er. cbn [bind]. exists (q ++ rest). split; auto.
    split; [apply Forall_app; auto|]. intros i el' x Hi Ei Hx. destruct (Nat.eq_dec i k) as [->|NE].
    + rewrite Eb in Ei. injection Ei as <-. destruct (Hq x Hx) as (y & Y1 & Y2). exists y. split; auto. apply in_app_iff. auto.
    + destruct (Hr i el' x ltac:(lia) Ei Hx) as (y & Y1 & Y2). exists y. split; auto. apply in_app_iff. auto.
Qed.

(** The positions considered for [min_positions], and that all of them are doubles. *)
Lemma min_points (b : beam_t pynum Sec) ls ends total lc n : float_beam b ls ends total -> tables_ok b lc -> (0 <= n <= 2 ^ 52)%Z ->
  exists lin real qs, linspace (fl 0 1) total n = Ok lin /\
    beam_list_positions b PosNone (Some n) lc = locations b lc qs /\
    Forall (fun q => double q /\ Pok q) qs /\
    (forall q, In q lin \/ In q real \/ (exists i s t, nth_error ends i = Some (s, Some t) /\ (q = s \/ q = t)) ->
       exists p, In p qs /\ neqb q p = true) /\
    Forall (fun q => double q /\ nleb (fl 0 1) q = true /\ nleb q total = true) real /\
    (forall i el x, nth_error b i = Some el -> In x (stored_points el lc) ->
       exists q, local_to_beam b x (Z.of_nat i) = Ok q /\ In q real) /\
    StronglySorted (fun a b => nleb a b = true) qs.
Proof.
  intros H HT Hn. destruct (real_ok b ls ends total lc H HT b 0%nat eq_refl) as (real & Er & Fr & Hr).
  pose proof (fb_total _ _ _ _ H) as Nt. pose proof (fb_tiles _ _ _ _ H) as R. destruct (tiles_some R) as [So _].
  pose proof H as (F & L & N & E1 & E2 & It).
  assert (El : exists lin, linspace (fl 0 1) total n = Ok lin).
  { unfold linspace. destruct (n <? 0)%Z eqn:Q; [apply Z.ltb_lt in Q; lia|]. eauto. }
  destruct El as [lin El]. pose proof (lin_doubles total n lin Nt It ltac:(lia) El) as Fl.
  set (qs := py_sorted (set_update (py_set (flatten_ends ends ++ real)) lin)).
  assert (Fe : Forall (fun q => double q /\ Pok q) (flatten_ends ends)).
  { apply Forall_forall. intros q Hq. unfold flatten_ends in Hq. apply in_flat_map in Hq. destruct Hq as ([s [t|]] & Hst & Hq).
    - apply In_nth_error in Hst. destruct Hst as [i Ei]. destruct (fb_finite _ _ _ _ _ _ _ H Ei) as (Ns & Nt' & Is & It' & _).
      assert (K : forall x, nnp x -> nisinf x = false -> double x /\ Pok x).
      { intros x Nx Ix. destruct (finite_start x Nx Ix) as (f & -> & Ff & _). eapply rounds_Pok, rounds_self; auto. }
      cbn [fst snd] in Hq. destruct Hq as [<-|[<-|[]]]; apply K; auto.
    - rewrite Forall_forall in So. exfalso. apply (So _ Hst). reflexivity. }
  assert (Fr' : Forall (fun q => double q /\ Pok q) real).
  { eapply Forall_impl; [|exact Fr]. intros q (D & A & B). split; auto.
    apply finite_Pok. apply (between_finite q (fl 0 1) total); auto using nnp_zero. }
  assert (Fb : Forall (fun q => double q /\ Pok q) (flatten_ends ends ++ real)) by (apply Forall_app; auto).
  assert (Sub : forall q, In q qs -> In q (flatten_ends ends ++ real) \/ In q lin).
  { intros q Hq. unfold qs in Hq. apply sort_in in Hq. apply set_update_incl in Hq. destruct Hq as [Hq|Hq]; auto.
    apply py_set_incl in Hq. auto. }
  assert (Fq : Forall (fun q => double q /\ Pok q) qs).
  { apply Forall_forall. intros q Hq. apply Sub in Hq. rewrite Forall_forall in Fb, Fl. destruct Hq; auto. }
  exists lin, real, qs. split; auto. split.
  { cbn [beam_list_positions]. rewrite E2. cbn [bind]. fold (fl 0 1). rewrite El. cbn [bind]. rewrite E1. cbn [bind].
    change 0%Z with (Z.of_nat 0). rewrite Er.
    reflexivity. }
  split; auto. split.
  { intros q Hq.
    assert (OkB : Forall Pok (flatten_ends ends ++ real)) by (eapply Forall_impl; [|exact Fb]; tauto).
    assert (OkL : Forall Pok lin) by (eapply Forall_impl; [|exact Fl]; tauto).
    assert (B : In q lin \/ In q (flatten_ends ends ++ real)).
    { destruct Hq as [Hq|[Hq|(i & s & t & Ei & Hq)]]; auto; right; apply in_app_iff; auto. left.
      unfold flatten_ends. apply in_flat_map. exists (s, Some t). split; [eapply nth_error_In; eauto|]. cbn. destruct Hq as [->| ->]; auto. }
    destruct B as [B|B].
    - destruct (set_update_has lin (py_set (flatten_ends ends ++ real)) q OkL B) as (p & Hp & Ep). exists p. split; auto.
      unfold qs. now apply sort_in.
    - destruct (py_set_has _ q OkB B) as (p & Hp & Ep). exists p. split; auto. unfold qs. apply sort_in.
      now apply set_update_mono. }
  split; auto. split; [intros i el x; apply Hr; lia|].
  unfold qs. assert (OkQ : Forall Pok (set_update (py_set (flatten_ends ends ++ real)) lin)).
  { apply Forall_forall. intros q Hq. rewrite Forall_forall in Fq. apply Fq. unfold qs. now apply sort_in. }
  exact (sort_sorted (fun x : pynum => x) _ OkQ).
Qed.

Lemma neqb_le q p : neqb q p = true -> nleb q p = true /\ nleb p q = true.
Proof. cbn [neqb nleb PNum]. unfold py_eqb. intros H. now apply andb_true_iff in H. Qed.

Lemma C18_double (b : beam_t pynum Sec) ls ends total lc n locs : float_beam b ls ends total -> tables_ok b lc ->
  (0 <= n <= 2 ^ 52)%Z -> beam_list_positions b PosNone (Some n) lc = Ok locs ->
  Forall (well_placed ls ends) locs /\
  StronglySorted (fun a b => nleb a b = true) (points locs) /\
  (forall i s t, nth_error ends i = Some (s, Some t) ->
     (exists p, In p (points locs) /\ neqb s p = true) /\ (exists p, In p (points locs) /\ neqb t p = true)) /\
  (forall i el x, nth_error b i = Some el -> In x (stored_points el lc) ->
     exists q p, local_to_beam b x (Z.of_nat i) = Ok q /\ In p (points locs) /\ neqb q p = true) /\
  (exists lin, linspace (fl 0 1) total n = Ok lin /\
     forall q, In q lin -> nleb (fl 0 1) q = true -> nleb q total = true -> exists p, In p (points locs) /\ neqb q p = true) /\
  (forall p i s t, In p (points locs) -> nth_error ends i = Some (s, Some t) -> nleb s p = true -> nleb p t = true ->
     exists x, In (p, Z.of_nat i, x) locs).
Proof.
  intros H HT Hn E. destruct (min_points b ls ends total lc n H HT Hn) as (lin & real & qs & El & Eq & Fq & Has & Fr & Hr & Ss).
  rewrite Eq in E.
  assert (Qd : Forall double qs) by (eapply Forall_impl; [|exact Fq]; tauto).
  destruct (triples_core b ls ends total lc qs locs H Qd E) as (T1 & T2 & T3).
  assert (Pin : forall p, In p (points locs) -> In p qs).
  { intros p Hp. unfold points in Hp. apply in_map_iff in Hp. destruct Hp as ([[q e] x] & <- & Hin). cbn [fst].
    destruct (T1 q e x Hin) as (i & s & t & _ & _ & _ & _ & G & _). exact G. }
  assert (Here : forall q p, In p qs -> neqb q p = true -> nleb (fl 0 1) q = true -> nleb q total = true -> In p (points locs)).
  { intros q p Hp Ep A B. apply neqb_le in Ep. destruct Ep as [Ep1 Ep2]. apply T3; auto; eapply le_trans; eauto. }
  split; [|split; [|split; [|split; [|split]]]].
  - apply Forall_forall. intros [[p e] x] Hin. destruct (T1 p e x Hin) as (i & s & t & -> & G1 & G2 & G3 & _ & G4).
    exists i, s, t. cbn [fst snd]. auto.
  - apply (locations_sorted b lc qs); auto. eapply Forall_impl; [|exact Fq]. intros q [_ K]. now apply Pok_nan.
  - intros i s t En. destruct (fb_finite _ _ _ _ _ _ _ H En) as (Ns & Nt & Is & It & G1 & G2 & G3). split.
    + destruct (Has s) as (p & Hp & Ep); [right; right; exists i, s, t; auto|]. exists p. split; auto.
      apply (Here s p); auto. eapply le_trans; eauto.
    + destruct (Has t) as (p & Hp & Ep); [right; right; exists i, s, t; auto|]. exists p. split; auto.
      apply (Here t p); auto. eapply le_trans; eauto.
  - intros i el x Ei Hx. destruct (Hr i el x Ei Hx) as (q & Q1 & Q2). destruct (Has q) as (p & Hp & Ep); auto.
    exists q, p. split; auto. split; auto. rewrite Forall_forall in Fr. destruct (Fr q Q2) as (_ & A & B). apply (Here q p); auto.
  - exists lin. split; auto. intros q Hq A B. destruct (Has q) as (p & Hp & Ep); auto. exists p. split; auto. apply (Here q p); auto.
  - intros p i s t Hp. apply T2. auto.
Qed.
End P.
