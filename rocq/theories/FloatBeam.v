(** C15, C16, C17, C18, C24 on doubles: beams of several elements. *)

From Coq Require Import ZArith Reals List Bool Sorted Permutation Lra Lia Floats.SpecFloat.
From Verif Require Import Base Num RNum PyNum Numpy LoadCase OrdFacts LoadFacts LoadSpec LoadProofs
  Beam BeamSpec BeamFacts BeamPositions BeamProofs BeamLoads BeamMisc BeamFloat
  IntFloat FloatSpec FloatRound FloatOps FloatFacts.
Import ListNotations.
Open Scope R_scope.

(** ** C15 *)
Definition holds (p : pynum) (ends : list (pynum * option pynum)) (i : nat) : bool :=
  match nth_error ends i with Some (a, Some e) => nleb a p && nleb p e | _ => false end.

Lemma filter_map_S (f : nat -> bool) l : filter f (map S l) = map S (filter (fun i => f (S i)) l).
Proof. induction l as [|x l IH]; cbn; auto. destruct (f (S x)); cbn; now rewrite IH. Qed.

Lemma in_ends_filter p ends : Forall (fun se => snd se <> None) ends -> forall k,
  in_ends p k ends = Ok (map (fun i => (k + Z.of_nat i)%Z) (filter (holds p ends) (seq 0 (List.length ends)))).
Proof.
  induction 1 as [|[a [e|]] ends H F IH]; intros k; [reflexivity| |now contradiction H].
  cbn [in_ends List.length seq]. rewrite <- seq_shift. cbn [filter].
  rewrite filter_map_S. specialize (IH (k + 1)%Z).
  assert (E : holds p ((a, Some e) :: ends) 0 = (nleb a p && nleb p e)) by reflexivity. rewrite E.
  assert (E2 : filter (fun i => holds p ((a, Some e) :: ends) (S i)) (seq 0 (List.length ends))
    = filter (holds p ends) (seq 0 (List.length ends))) by reflexivity. rewrite E2.
  assert (M : map (fun i => (k + Z.of_nat i)%Z) (map S (filter (holds p ends) (seq 0 (List.length ends))))
    = map (fun i => (k + 1 + Z.of_nat i)%Z) (filter (holds p ends) (seq 0 (List.length ends)))).
  { rewrite map_map. apply map_ext. intros i. lia. }
  rewrite IH. destruct (nleb a p); cbn [bind andb].
  - destruct (nleb p e); cbn [map]; rewrite M; [do 2 f_equal; lia|reflexivity].
  - rewrite M. reflexivity.
Qed.

Lemma tiles_some {ls s ends f} : @rounded_tiles pynum _ s ls ends f -> Forall (fun se => snd se <> None) ends /\ List.length ends = List.length ls.
Proof. induction 1 as [|s l ls r f H [IH1 IH2]]; split; cbn; auto. constructor; auto. discriminate. Qed.

(** A non-negative double, possibly infinite. *)
Definition nnp (x : pynum) : Prop := exists f, x = PFlt f /\ nn64 f.

Lemma nnp_add s l : nnp s -> length_double l -> nnp (nadd s l) /\ nleb s (nadd s l) = true /\ nleb l (nadd s l) = true.
Proof.
  intros (f & -> & Hf) Hl. apply length_nn in Hl. destruct Hl as (g & -> & Hg & _).
  destruct (nn_add f g Hf Hg) as (A & B & C). cbn [nadd PNum arith2 tofl]. split; [eexists; eauto|]. split; assumption.
Qed.

Lemma nnp_zero : nnp (fl 0 1).
Proof. eexists. split; [reflexivity|exact I]. Qed.
Lemma nnp_nan x : nnp x -> nisnan x = false.
Proof. intros (f & -> & H). destruct f as [[]|[]| |[] c x]; cbn in *; auto; contradiction. Qed.

Lemma le_trans (x y z : pynum) : nleb x y = true -> nleb y z = true -> nleb x z = true.
Proof. apply ext_trans. Qed.

Lemma le_refl x : nisnan x = false -> nleb x x = true.
Proof. intros H. destruct (cmp_total x x H H); auto. Qed.

Lemma first_pair {A B} (a a' : A) (b b' : B) : Some (a, Some b) = Some (a', Some b') -> a' = a /\ b' = b.
Proof. intros H. injection H as -> ->. auto. Qed.

Lemma tiles_nn {ls s ends f} : rounded_tiles s ls ends f -> Forall length_double ls -> nnp s ->
  nnp f /\ nleb s f = true /\
  forall i a e, nth_error ends i = Some (a, Some e) -> nnp a /\ nnp e /\ nleb s a = true /\ nleb a e = true /\ nleb e f = true.
Proof.
  induction 1 as [s|s l ls r f H IH]; intros Hl Hs.
  - split; auto. split; [apply le_refl, nnp_nan; auto|]. intros [|i] a e E; discriminate.
  - inversion Hl as [|? ? L1 L2]; subst. destruct (nnp_add s l Hs L1) as (A1 & A2 & _).
    destruct (IH L2 A1) as (B1 & B2 & B3). split; auto. split; [eapply le_trans; eauto|].
    intros [|i] a e E; cbn [nth_error] in E.
    + destruct (first_pair _ _ _ _ E) as [-> ->]. split; auto. split; auto. split; [apply le_refl, nnp_nan; auto|]. auto.
    + destruct (B3 i a e E) as (C1 & C2 & C3 & C4 & C5). repeat split; auto. eapply le_trans; eauto.
Qed.

Lemma tiles_mono {ls s ends f} : rounded_tiles s ls ends f -> Forall length_double ls -> nnp s ->
  forall i j a e a' e', (i <= j)%nat -> nth_error ends i = Some (a, Some e) -> nth_error ends j = Some (a', Some e') ->
  nleb a a' = true /\ nleb e e' = true.
Proof.
  induction 1 as [s|s l ls r f H IH]; intros Hl Hs i j a e a' e' L E E'; [destruct i; discriminate|].
  inversion Hl as [|? ? L1 L2]; subst. destruct (nnp_add s l Hs L1) as (A1 & A2 & _).
  destruct (tiles_nn H L2 A1) as (B1 & B2 & B3).
  destruct i as [|i], j as [|j]; cbn [nth_error] in E, E'; try lia.
  - destruct (first_pair _ _ _ _ E) as [-> ->]. destruct (first_pair _ _ _ _ E') as [-> ->]. split; apply le_refl, nnp_nan; auto.
  - destruct (first_pair _ _ _ _ E) as [-> ->]. destruct (B3 j a' e' E') as (C1 & C2 & C3 & C4 & C5). split; [eapply le_trans; eauto|].
    eapply le_trans; [exact C3|exact C4].
  - apply (IH L2 A1 i j); auto. lia.
Qed.

Lemma tiles_cover {ls s ends f} p : rounded_tiles s ls ends f -> Forall length_double ls -> nnp s -> ends <> [] ->
  nleb s p = true -> nleb p f = true -> exists i, (i < List.length ends)%nat /\ holds p ends i = true.
Proof.
  induction 1 as [s|s l ls r f H IH]; intros Hl Hs NE P1 P2; [now contradiction NE|].
  inversion Hl as [|? ? L1 L2]; subst. destruct (nnp_add s l Hs L1) as (A1 & A2 & _).
  destruct (nleb p (nadd s l)) eqn:E.
  { exists 0%nat. split; [cbn; lia|]. unfold holds. cbn [nth_error]. now rewrite P1, E. }
  assert (Np : nisnan p = false).
  { destruct p as [|[]]; try reflexivity. exfalso. cbn [nleb PNum] in P1. unfold py_leb in P1. cbn [to_ext] in P1.
    destruct (to_ext s); discriminate P1. }
  destruct (cmp_total p (nadd s l) Np (nnp_nan _ A1)) as [T|T]; [cbn [nleb PNum] in E; congruence|].
  destruct r as [|x r].
  - inversion H; subst. congruence.
  - destruct (IH L2 A1 ltac:(discriminate) T P2) as (i & I1 & I2). exists (S i). split; [cbn in *; lia|exact I2].
Qed.

Section P.
Context {Sec : Type}.

Lemma float_tiles (b : beam_t pynum Sec) ls : with_lengths b ls -> Forall length_double ls -> b <> [] ->
  exists ends total, element_ends b = Ok ends /\ beam_length b = Ok total /\ rounded_tiles (fl 0 1) ls ends total.
Proof.
  intros F L NE. destruct ls as [|l0 ls]; [inversion F; subst; now contradiction NE|].
  inversion L as [|? ? L0 L']; subst. destruct L0 as (D & _ & M).
  destruct (C14_float b l0 ls F M) as (rest & total & E1 & E2 & R).
  exists ((fl 0 1, Some l0) :: rest), total. split; auto. split; auto.
  assert (Z : nadd (fl 0 1) l0 = l0).
  { destruct D as ((f & -> & _) & _). rewrite fl_zero. destruct f as [[]| | |]; try reflexivity. now contradiction M. }
  rewrite <- Z at 2. constructor. now rewrite Z.
Qed.

Lemma SS_filter_lt (f : nat -> bool) n : forall k, StronglySorted Peano.lt (filter f (seq k n)).
Proof.
  induction n as [|n IH]; intros k; cbn [seq filter]; [constructor|]. destruct (f k); auto. constructor; auto.
  apply Forall_forall. intros x H. apply filter_In in H. destruct H as [H _]. apply in_seq in H. lia.
Qed.

Lemma C15_double (b : beam_t pynum Sec) ls p : with_lengths b ls -> Forall length_double ls -> b <> [] ->
  exists is ends total, in_elements b p = Ok (map Z.of_nat is) /\ element_ends b = Ok ends /\ beam_length b = Ok total /\
    StronglySorted Peano.lt is /\
    (forall i, In i is <-> exists s e, nth_error ends i = Some (s, Some e) /\ nleb s p = true /\ nleb p e = true) /\
    (is <> [] <-> nleb (fl 0 1) p = true /\ nleb p total = true) /\
    (forall i j k, In i is -> In k is -> (i <= j <= k)%nat -> In j is).
Proof.
  intros F L NE. destruct (float_tiles b ls F L NE) as (ends & total & E1 & E2 & R).
  destruct (tiles_some R) as [So Ln]. set (is := filter (holds p ends) (seq 0 (List.length ends))).
  assert (IN : forall i, In i is <-> exists s e, nth_error ends i = Some (s, Some e) /\ nleb s p = true /\ nleb p e = true).
  { intros i. unfold is. rewrite filter_In, in_seq. unfold holds. split.
    - intros [_ H]. destruct (nth_error ends i) as [[a [e|]]|]; try discriminate. apply andb_true_iff in H. exists a, e. tauto.
    - intros (a & e & E & A & B). rewrite E, A, B. split; auto. split; [lia|]. cbn. apply nth_error_Some. congruence. }
  exists is, ends, total. split. { unfold in_elements. rewrite E1. cbn [bind]. rewrite in_ends_filter by auto. fold is. reflexivity. }
  split; auto. split; auto. split; [apply SS_filter_lt|]. split; auto. split.
  - split.
    + intros N. destruct is as [|i r]; [now contradiction N|]. destruct (proj1 (IN i) (or_introl eq_refl)) as (a & e & E & A & B).
      destruct (tiles_nn R L nnp_zero) as (_ & _ & T). destruct (T i a e E) as (_ & _ & C3 & _ & C5).
      split; eapply le_trans; eauto.
    + intros [A B] N. assert (NE' : ends <> []).
      { destruct ends; [|discriminate]. destruct ls; [inversion F; subst; now contradiction NE|discriminate]. }
      destruct (tiles_cover p R L nnp_zero NE' A B) as (i & I1 & I2).
      assert (In i is) by (unfold is; apply filter_In; split; auto; apply in_seq; lia). rewrite N in H. contradiction.
  - intros i j k Hi Hk J. apply IN in Hi, Hk. destruct Hi as (a & e & E & A & B), Hk as (a' & e' & E' & A' & B').
    apply IN. destruct (nth_error ends j) as [[a2 [e2|]]|] eqn:E2'.
    + exists a2, e2. split; auto.
      destruct (tiles_mono R L nnp_zero j k _ _ _ _ ltac:(lia) E2' E') as [M1 _].
      destruct (tiles_mono R L nnp_zero i j _ _ _ _ ltac:(lia) E E2') as [_ M2].
      split; [exact (le_trans _ _ _ M1 A')|exact (le_trans _ _ _ B M2)].
    + exfalso. rewrite Forall_forall in So. apply (So (a2, None)); auto. eapply nth_error_In; eauto.
    + exfalso. apply nth_error_None in E2'. assert (k < List.length ends)%nat by (apply nth_error_Some; congruence). lia.
Qed.

(** ** C16 *)
Lemma tiles_step {ls s ends f} : @rounded_tiles pynum _ s ls ends f -> forall i l, nth_error ls i = Some l ->
  exists a, nth_error ends i = Some (a, Some (nadd a l)).
Proof.
  induction 1 as [s|s l' ls r f H IH]; intros [|i] l E; cbn [nth_error] in *; try discriminate.
  - injection E as ->. eauto.
  - now apply IH.
Qed.

Lemma elem_at (b : beam_t pynum Sec) ls e i : with_lengths b ls -> Forall length_double ls ->
  designated (List.length b) e i ->
  exists el l ends s total, py_index b e = Ok el /\ elength el = Some l /\ nth_error ls i = Some l /\ length_double l /\
    element_ends b = Ok ends /\ nth_error ends i = Some (s, Some (nadd s l)) /\ py_index ends e = Ok (s, Some (nadd s l)) /\
    beam_length b = Ok total /\ rounded_tiles (fl 0 1) ls ends total /\ nnp s.
Proof.
  intros F L D. assert (NE : b <> []) by (intros ->; destruct D as [D _]; cbn in D; lia).
  destruct (float_tiles b ls F L NE) as (ends & total & E1 & E2 & R).
  assert (Lb : List.length b = List.length ls) by (clear - F; induction F; cbn; congruence).
  destruct (tiles_some R) as [_ Ln]. destruct D as [Di De].
  destruct (nth_error b i) as [el|] eqn:Eb; [|apply nth_error_None in Eb; lia].
  destruct (nth_error ls i) as [l|] eqn:El; [|apply nth_error_None in El; lia].
  assert (EL : elength el = Some l).
  { clear - F Eb El. revert i Eb El. induction F as [|x y b ls H F IH]; intros [|i] Eb El; cbn in *; try discriminate; try congruence. eauto. }
  destruct (tiles_step R i l El) as (s & Es).
  exists el, l, ends, s, total. split.
  { rewrite (py_index_ok b e i) by (split; auto). now rewrite Eb. }
  split; auto. split; auto. split; [rewrite Forall_forall in L; apply L; eapply nth_error_In; eauto|].
  split; auto. split; auto. split.
  { rewrite (py_index_ok ends e i) by (rewrite Ln, <- Lb; split; auto). now rewrite Es. }
  split; auto. split; auto. destruct (tiles_nn R L nnp_zero) as (_ & _ & T). now destruct (T i s _ Es).
Qed.

Lemma finite_start s : nnp s -> nisinf s = false -> exists f, s = PFlt f /\ fin64 f /\ nn64 f.
Proof. intros (f & -> & N) I. exists f. split; auto. split; auto. destruct (nn_fin f N) as [F| ->]; auto. discriminate. Qed.

Lemma tiny_fin s : fin64 (S754_finite s 1 (-1074)).
Proof. reflexivity. Qed.

(** Subtracting doubles gives zero only for equal ones. *)
Lemma sub_negative p s : fin64 p -> fin64 s -> sfR p < sfR s -> fle (SFsub f64 e64 p s) (S754_finite true 1 (-1074)) = true.
Proof.
  intros Hp Hs L. eapply rounds_mono; [apply sub_rounds; auto|apply rounds_self; apply tiny_fin|].
  destruct (sfR_quantum p Hp) as (q & x & E & _ & X), (sfR_quantum s Hs) as (q' & x' & E' & _ & X').
  assert (K : forall q x, (-1074 <= x)%Z -> IZR q * bp x = IZR (q * 2 ^ (x + 1074)) * bp (-1074)).
  { intros a y Y. rewrite mult_IZR, <- bp_Z, Rmult_assoc, <- bp_add by lia. do 2 f_equal. lia. }
  rewrite E, E', (K q x X), (K q' x' X') in *. cbn [sfR signed]. pose proof (bp_pos (-1074)) as B.
  assert (IZR (q * 2 ^ (x + 1074)) < IZR (q' * 2 ^ (x' + 1074))) as H by nra. apply lt_IZR in H.
  assert (q * 2 ^ (x + 1074) + 1 <= q' * 2 ^ (x' + 1074))%Z as H' by lia. apply IZR_le in H'. rewrite plus_IZR in H'. nra.
Qed.

Lemma lt_zero_tiny f : fle f (S754_finite true 1 (-1074)) = true -> nltb (PFlt f) (nint 0) = true.
Proof.
  intros H. cbn [nltb PNum]. unfold py_ltb. unfold fle in H.
  assert (A : py_leb (PFlt f) (nint 0) = true) by (eapply ext_trans; [exact H|reflexivity]). rewrite A.
  destruct (py_leb (nint 0) (PFlt f)) eqn:E; auto.
  assert (B : py_leb (nint 0) (PFlt (S754_finite true 1 (-1074))) = true) by (eapply ext_trans; eauto).
  vm_compute in B. discriminate B.
Qed.

Lemma pint0 x : py_leb (PInt 0) x = py_leb (fl 0 1) x /\ py_leb x (PInt 0) = py_leb x (fl 0 1).
Proof. split; reflexivity. Qed.

(** What [beam_to_local_position] answers, given the numbers involved. *)
Lemma local_spec p s l : fin64 p -> fin64 s -> nn64 l -> fin64 l -> sfR l <> 0 ->
  sfR s <= sfR p ->
  nltb (nsub (PFlt p) (PFlt s)) (nint 0) = false /\
  (sfR p - sfR s <= sfR l -> nltb (PFlt l) (nsub (PFlt p) (PFlt s)) = false) /\
  (nltb (PFlt l) (nsub (PFlt p) (PFlt s)) = false -> unit_double (ndiv (nsub (PFlt p) (PFlt s)) (PFlt l))).
Proof.
  intros Hp Hs Nl Fl Zl L. cbn [nsub ndiv PNum arith2 tofl].
  pose proof (sub_rounds p s Hp Hs) as Rd. set (d := SFsub f64 e64 p s) in *. apply nn_value in Nl.
  assert (D0 : py_leb (nint 0) (PFlt d) = true).
  { change (fle (S754_zero false) d = true). eapply rounds_mono; [apply rounds_self; exact I|exact Rd|]. cbn [sfR]. lra. }
  split; [apply (not_lt (nint 0) (PFlt d)); exact D0|]. split.
  - intros U. apply (not_lt (PFlt d) (PFlt l)). change (fle d l = true).
    eapply rounds_mono; [exact Rd|apply rounds_self; exact Fl|exact U].
  - intros U. assert (U' : fle d l = true).
    { apply (lt_or (PFlt d) (PFlt l)); auto; [|destruct l; auto; contradiction].
      apply rounds_nan in Rd. destruct d; auto; now contradiction Rd. }
    assert (Fd : fin64 d).
    { destruct (rounds_fin _ _ Rd) as [|[t E]]; auto. rewrite E in *. destruct t; [discriminate D0|].
      destruct l as [| | |[] c x]; try contradiction; discriminate U'. }
    assert (V0 : 0 <= sfR d) by (apply (fle_R (S754_zero false) d I Fd) in D0; exact D0).
    assert (V1 : sfR d <= sfR l) by (apply fle_R; auto).
    pose proof (div_rounds d l Fd Fl Zl) as Rq.
    destruct (rounds_between _ _ (S754_zero false) (S754_finite false 4503599627370496 (-52)) Rq) as (Fq & Q1 & Q2).
    + exact I.
    + reflexivity.
    + cbn [sfR signed] in *. pose proof one_val as O1. cbn [sfR signed] in O1. rewrite O1. split.
      * apply Rmult_le_pos; [lra|]. apply Rlt_le, Rinv_0_lt_compat. lra.
      * apply Rmult_le_reg_r with (sfR l); [lra|]. unfold Rdiv. rewrite Rmult_assoc, Rinv_l by auto. lra.
    + split; [apply finite_double_fin; eauto|]. split.
      * change (fle (S754_zero false) (SFdiv f64 e64 d l) = true). apply fle_R; auto. exact I.
      * rewrite one_fin. change (fle (SFdiv f64 e64 d l) (S754_finite false 4503599627370496 (-52)) = true).
        apply fle_R; auto. reflexivity.
Qed.

Lemma Ok_same {A} (a b : A) : Ok a = Ok b -> b = a.
Proof. congruence. Qed.

Lemma C16_double_local (b : beam_t pynum Sec) ls p e i ends s t : with_lengths b ls -> Forall length_double ls ->
  designated (List.length b) e i -> element_ends b = Ok ends -> nth_error ends i = Some (s, Some t) -> nisinf s = false ->
  finite_double p ->
  (nltb p s = true -> beam_to_local b p e = Err PositionNotInElementError) /\
  (forall x, beam_to_local b p e = Ok x -> unit_double x /\ x = ndiv (nsub p s) (nth i ls (fl 0 1))) /\
  (forall x, beam_to_local b p e = Err x -> x = PositionNotInElementError \/ (x = ElementLengthError /\ neqb (nth i ls (fl 0 1)) (fl 0 1) = true)).
Proof.
  intros F L D Ee En Is Fp. destruct (elem_at b ls e i F L D) as (el & l & ends' & s' & total & E1 & E2 & E3 & Ll & E4 & E5 & E6 & _ & _ & Ns).
  rewrite Ee in E4. injection E4 as <-. rewrite En in E5. destruct (first_pair _ _ _ _ E5) as [-> <-]. clear E5.
  destruct (finite_start s Ns Is) as (sf & -> & Fs & Nsf). apply finite_double_fin in Fp. destruct Fp as (pf & -> & Fp).
  apply length_nn in Ll. destruct Ll as (lf & -> & Nl & Fl).
  unfold beam_to_local, element_start_end. rewrite Ee. cbn [bind]. rewrite E6. cbn [bind fst]. rewrite E1. cbn [bind].
  cbv zeta. rewrite E2.
  assert (Nth : nth i ls (fl 0 1) = PFlt lf) by (now apply nth_error_nth). rewrite Nth.
  destruct (Rle_lt_dec (sfR sf) (sfR pf)) as [G|G].
  - split.
    + intros H. exfalso. assert (nleb (PFlt sf) (PFlt pf) = true) as Q by (apply (fle_R sf pf); auto).
      apply (not_lt (PFlt sf) (PFlt pf)) in Q. cbn [nltb PNum] in *. congruence.
    + destruct (Req_dec (sfR lf) 0) as [Zl|Zl].
      * assert (ZZ : neqb (PFlt lf) (nflt 0 1) = true).
        { cbn [neqb PNum]. unfold py_eqb. apply andb_true_iff. split;
            [apply (fle_R lf (S754_zero false))|apply (fle_R (S754_zero false) lf)]; auto; try exact I; cbn [sfR]; lra. }
        rewrite ZZ. fold (fl 0 1) in ZZ. destruct (nltb _ (nint 0)); [split; intros x [=]; auto|].
        destruct (nltb (PFlt lf) _); [split; intros x [=]; auto|]. split; intros x [=]. subst. auto.
      * destruct (local_spec pf sf lf Fp Fs Nl Fl Zl G) as (A1 & _ & A3). rewrite A1.
        destruct (nltb (PFlt lf) _) eqn:U; [split; intros x [=]; auto|]. specialize (A3 eq_refl).
        assert (ZZ : neqb (PFlt lf) (nflt 0 1) = false).
        { cbn [neqb PNum]. unfold py_eqb. apply andb_false_iff. left.
          destruct (py_leb (PFlt lf) (nflt 0 1)) eqn:Q; auto. apply (fle_R lf (S754_zero false)) in Q; auto; [|exact I].
          apply nn_value in Nl. cbn [sfR] in Q. lra. }
        rewrite ZZ. split; intros x Ex; [|discriminate Ex]. apply Ok_same in Ex. subst x. split; auto.
  - pose proof (lt_zero_tiny _ (sub_negative pf sf Fp Fs G)) as Q.
    change (nsub (PFlt pf) (PFlt sf)) with (PFlt (SFsub f64 e64 pf sf)). rewrite Q.
    split; auto. split; intros x [=]; auto.
Qed.

Lemma fle_trans f g h : fle f g = true -> fle g h = true -> fle f h = true.
Proof. apply ext_trans. Qed.

Lemma C16_double_beam (b : beam_t pynum Sec) ls x e i ends s t : with_lengths b ls -> Forall length_double ls ->
  designated (List.length b) e i -> element_ends b = Ok ends -> nth_error ends i = Some (s, Some t) ->
  unit_double x -> exists p, local_to_beam b x e = Ok p /\ nleb s p = true /\ nleb p t = true /\ double p.
Proof.
  intros F L D Ee En (Fx & X0 & X1). destruct (elem_at b ls e i F L D) as (el & l & ends' & s' & total & E1 & E2 & E3 & Ll & E4 & E5 & E6 & _ & _ & Ns).
  rewrite Ee in E4. injection E4 as <-. rewrite En in E5. destruct (first_pair _ _ _ _ E5) as [-> <-]. clear E5.
  apply finite_double_fin in Fx. destruct Fx as (xf & -> & Fx).
  apply length_nn in Ll. destruct Ll as (lf & -> & Nl & Fl). destruct Ns as (sf & -> & Ns).
  unfold local_to_beam, element_start_end. change (nint 0) with (PInt 0).
  assert (A0 : nltb (PFlt xf) (PInt 0) = false) by (apply (not_lt (PInt 0) (PFlt xf)); exact X0).
  assert (A1 : nltb (nflt 1 1) (PFlt xf) = false) by (apply (not_lt (PFlt xf) (fl 1 1)); exact X1).
  rewrite A0, A1. cbn [orb]. rewrite Ee. cbn [bind]. rewrite E6. cbn [bind fst]. rewrite E1. cbn [bind]. rewrite E2.
  eexists. split; [reflexivity|]. cbn [nadd nmul PNum arith2 tofl].
  assert (V0 : 0 <= sfR xf) by (apply (fle_R (S754_zero false) xf I Fx) in X0; exact X0).
  assert (V1 : sfR xf <= 1).
  { rewrite one_fin in X1. rewrite <- one_val. apply (fle_R xf (S754_finite false 4503599627370496 (-52))); auto. reflexivity. }
  pose proof (mul_rounds xf lf Fx Fl) as Rm. set (m := SFmul f64 e64 xf lf) in *. apply nn_value in Nl as Vl.
  destruct (rounds_between _ _ (S754_zero false) lf Rm I Fl) as (Fm & M0 & M1); [cbn [sfR]; split; nra|].
  cbn [sfR] in M0. destruct (nn_fin sf Ns) as [Fs| ->].
  - pose proof (add_rounds sf m Fs Fm) as Ra. pose proof (add_rounds sf lf Fs Fl) as Rl.
    split; [change (fle sf (SFadd f64 e64 sf m) = true); eapply rounds_mono; [apply rounds_self; exact Fs|exact Ra|lra]|].
    split; [change (fle (SFadd f64 e64 sf m) (SFadd f64 e64 sf lf) = true); eapply rounds_mono; [exact Ra|exact Rl|lra]|].
    eexists. split; [reflexivity|]. eapply rounds_valid; eauto.
  - destruct m as [| | |]; try contradiction; destruct lf as [[]| | |[] ? ?]; try contradiction; cbn [SFadd];
      (split; [reflexivity|]; split; [reflexivity|]; eexists; split; reflexivity).
Qed.
End P.
