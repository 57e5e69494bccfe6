(** Concrete beams used as examples and counterexamples in P_Beam.v. *)

From Coq Require Import ZArith Reals List Bool Sorted Lra Lia Floats.SpecFloat.
From Verif Require Import Base Num RNum PyNum Numpy LoadCase LoadSpec LoadProofs
  Beam BeamSpec BeamFacts BeamPositions BeamProofs BeamLoads BeamMisc BeamFloat.
Import ListNotations.
Open Scope R_scope.

(** Lengths 2, 0 and 3; the loads of the middle one reach from 0 to 1. *)
Definition ex_elem (l : R) (s : nat) : elem R nat := mk_elem (Some l) (Some s) [(7%Z, Some tab4)].
Definition ex_beam : beam_t R nat := [ex_elem 2 10; ex_elem 0 11; ex_elem 3 12].
Definition ex_lengths : list R := [2; 0; 3].

Lemma ex_has_lengths : has_lengths ex_beam ex_lengths.
Proof. repeat constructor; cbn; lra. Qed.
Lemma ex_loaded : loaded ex_beam 7.
Proof.
  intros e He. exists tab4. assert (E : eloads e = [(7%Z, Some tab4)]).
  { cbn in He. destruct He as [<-|[<-|[<-|[]]]]; reflexivity. }
  rewrite E. split; [reflexivity|]. split; [apply tab4_accepted|discriminate].
Qed.
Lemma ex_query : exists locs, beam_list_positions ex_beam (PosList [2; 1; 5]) None (Some 7%Z) = Ok locs /\ In 2 (positions_of locs).
Proof.
  assert (E : exists locs, beam_list_positions ex_beam (PosList [2; 1; 5]) None (Some 7%Z) = Ok locs).
  { destruct (beam_list_positions ex_beam (PosList [2; 1; 5]) None (Some 7%Z)) as [locs|e] eqn:E; [eauto|].
    destruct (C24_explicit stable_argsort ex_beam ex_lengths 7 (PosList [2; 1; 5]) [2; 1; 5] CNone
      [VX; VY; N; MX; MY; T_]) as (out & Eo).
    - apply stable_argsort_ok.
    - apply ex_has_lengths.
    - apply ex_loaded.
    - constructor.
    - discriminate.
    - constructor.
    - unfold span, ex_lengths. cbn. repeat constructor; lra.
    - unfold beam_get_loads in Eo. rewrite E in Eo. discriminate. }
  destruct E as (locs & E). exists locs. split; auto.
  apply (list_positions_triples ex_beam ex_lengths _ _ _ _ ex_has_lengths E) with (ps := [2; 1; 5]).
  - discriminate.
  - constructor.
  - now left.
Qed.

(** A zero-length element whose loads stop at 1/2. *)
Definition half_table : list (lrow R) := [mk_lrow 0 1 1 1 1 1 1; mk_lrow (1/2) 2 2 2 2 2 2].
Definition half_beam : beam_t R nat := [mk_elem (Some 0) (Some 10%nat) [(7%Z, Some half_table)]].
Lemma half_lengths : has_lengths half_beam [0].
Proof. repeat constructor; cbn; lra. Qed.
Lemma half_accepted : accepted (Some half_table).
Proof. apply accepted_rows. split; repeat constructor; cbn; lra. Qed.

Lemma C20_counterexample :
  ~ (forall (b : beam_t R nat) ls position mp c locs p i rows,
     has_lengths b ls -> beam_list_positions b position mp (Some c) = Ok locs ->
     In p (positions_of locs) -> covers ls i p -> nth i ls 0 = 0 ->
     stored_table b c i rows -> accepted (Some rows) -> rows <> [] ->
     good_locals locs p i rows).
Proof.
  intros H.
  assert (E : exists locs, beam_list_positions half_beam (PosList [0]) None (Some 7%Z) = Ok locs).
  { rewrite (explicit_R half_beam (PosList [0]) [0] (Some 7%Z)) by constructor.
    destruct (check_on_beam_R half_beam [0] [0] half_lengths) as [[-> _]|[_ (p & [<-|[]] & Off)]].
    - cbn [bind]. apply (locations_total half_beam [0]); [apply half_lengths|].
      intros [|[|i]] e He; try discriminate. injection He as <-. intros _. right. exists 7%Z. cbn. eauto.
    - unfold span in Off. cbn in Off. lra. }
  destruct E as (locs & E).
  assert (Hp : In 0 (positions_of locs)).
  { apply (list_positions_triples half_beam [0] _ _ _ _ half_lengths E) with (ps := [0]); [discriminate|constructor|now left]. }
  assert (C : covers [0] 0 0) by (split; [cbn; lia|unfold start_of, end_of, span; cbn; lra]).
  assert (St : stored_table half_beam 7 0 half_table) by (eexists; split; reflexivity).
  assert (G : good_locals locs 0 0 half_table).
  { apply (H half_beam [0] (PosList [0]) None 7%Z); auto.
    - apply half_lengths.
    - apply half_accepted.
    - discriminate. }
  apply (C20_iff half_beam [0] (PosList [0]) None 7 locs 0 0 _ _ half_lengths E Hp C eq_refl St half_accepted) in G.
  destruct G as [_ G]. cbn in G. lra.
Qed.

(** Element of ex_beam cut at a quarter of its length. *)
Definition cut_row : lrow R := mk_lrow (1/4) (3/2) 2 (5/2) 3 (7/2) 4.
Definition cut_left : list (lrow R) := map (move (fun x => x / (1/4))) ([mk_lrow 0 1 2 3 4 5 6] ++ [cut_row]).
Definition cut_right : list (lrow R) :=
  map (move (fun x => (x - 1/4) / (1 - 1/4))) ([cut_row] ++ [mk_lrow (1/2) 2 2 2 2 2 2; mk_lrow (1/2) 3 0 3 0 3 0;
   mk_lrow 1 (-1) (-2) (-3) 4 5 6]).
Lemma ex_cut : element_cut 7 (1/4) (ex_elem 3 12)
  (mk_elem (Some (1/4 * 3)) (Some 12%nat) [(7%Z, Some cut_left)])
  (mk_elem (Some ((1 - 1/4) * 3)) (Some 12%nat) [(7%Z, Some cut_right)]).
Proof.
  exists 3, tab4, cut_left, cut_right. repeat split; auto using tab4_accepted; try discriminate.
  exists [cut_row]. split; [|split].
  - apply cut_between.
    + cbn. intros r [<-|[<-|[<-|[<-|[]]]]]; cbn; lra.
    + reflexivity.
    + intros c.
      assert (B : interpolates tab4 c (1/4)
        (nadd (nmul (ndiv (nsub (load_of c (mk_lrow (1/2) 2 2 2 2 2 2)) (load_of c (mk_lrow 0 1 2 3 4 5 6)))
                          (nsub (lpos (mk_lrow (1/2) 2 2 2 2 2 2)) (lpos (mk_lrow 0 1 2 3 4 5 6))))
                    (nsub (1/4) (lpos (mk_lrow 0 1 2 3 4 5 6)))) (load_of c (mk_lrow 0 1 2 3 4 5 6)))).
      { apply (between _ _ _ []) with (l' := skipn 2 tab4); [reflexivity| |]; cbn; apply Rltb_true; cbn; lra. }
      match type of B with interpolates _ _ _ ?v => replace (load_of c cut_row) with v; [exact B|] end.
      destruct c; cbn; lra.
  - unfold cut_left. f_equal. f_equal. unfold tab4. cbn [filter lpos].
    rewrite (proj2 (Rltb_true 0 (1/4))), (proj2 (Rltb_false (1/2) (1/4))), (proj2 (Rltb_false 1 (1/4))) by lra. reflexivity.
  - unfold cut_right. f_equal. f_equal. unfold tab4. cbn [filter lpos].
    rewrite (proj2 (Rltb_false (1/4) 0)), (proj2 (Rltb_true (1/4) (1/2))), (proj2 (Rltb_true (1/4) 1)) by lra. reflexivity.
Qed.

(** Doubles. *)
Close Scope R_scope.
Definition fl_elem (l : pynum) : elem pynum nat := mk_elem (Some l) None [(7%Z, Some ftab)].
(** Lengths 0.1 and 0.2; their sum is 0.30000000000000004. *)
Definition fl_beam : beam_t pynum nat := [fl_elem (fl 1 10); fl_elem (fl 2 10)].
Definition fl_length : pynum := nadd (fl 1 10) (fl 2 10).

Lemma ftab_good : good_table ftab.
Proof. split; [apply ftab_rows|]. split; [apply ftab_sorted|discriminate]. Qed.

Lemma fl_positive n d m e : fl n d = PFlt (S754_finite false m e) -> positive_float (fl n d).
Proof. intros H. exists m, e. exact H. Qed.

Definition all_queries_answered (b : beam_t pynum nat) (c : Z) : Prop :=
  forall qs len p, any_argsort qs -> beam_length b = Ok len -> nisfloat p = true ->
    nleb (fl 0 1) p = true -> nleb p len = true ->
    exists out, beam_get_loads qs b c (PosNum p) None CNone = Ok out.
Definition all_minimums_answered (b : beam_t pynum nat) (c : Z) : Prop :=
  forall qs n, any_argsort qs -> (0 <= n)%Z ->
    exists out, beam_get_loads qs b c PosNone (Some n) CNone = Ok out.
Definition float_beam (b : beam_t pynum nat) (c : Z) : Prop :=
  Forall (fun e => (exists l, elength e = Some l /\ positive_float l) /\
                   exists rows, dict_get c (eloads e) = Ok (Some rows) /\ good_table rows) b.

Lemma fl_beam_float : float_beam fl_beam 7.
Proof.
  repeat constructor; try (eexists; split; [reflexivity|]); try apply ftab_good;
    eapply fl_positive; vm_compute; reflexivity.
Qed.

Lemma C24_counterexample :
  ~ (forall b c, float_beam b c -> all_queries_answered b c) /\
  ~ (forall b c, float_beam b c -> all_minimums_answered b c).
Proof.
  split; intros H; specialize (H fl_beam 7%Z fl_beam_float).
  - destruct (H stable_argsort fl_length fl_length) as (out & E); try (vm_compute; reflexivity).
    + apply stable_argsort_ok.
    + vm_compute in E. discriminate.
  - destruct (H stable_argsort 2%Z) as (out & E); [apply stable_argsort_ok|discriminate|].
    vm_compute in E. discriminate.
Qed.

(** A table of ints on a beam of length 2.5. *)
Definition int_row (p v : Z) : lrow pynum := mk_lrow (PInt p) (PInt v) (PInt v) (PInt v) (PInt v) (PInt v) (PInt v).
Definition int_beam : beam_t pynum nat := [mk_elem (Some (fl 25 10)) None [(7%Z, Some [int_row 0 1; int_row 1 2])]].

Lemma C23_counterexample :
  ~ (forall qs (b : beam_t pynum nat) c ps a out, any_argsort qs ->
     Forall (fun p => nisfloat p = true) ps ->
     beam_get_loads qs b c (PosList ps) None a = Ok (Some out) ->
     Forall (fun o => exists p, In p ps /\ neqb (fst o) p = true) out).
Proof.
  intros H.
  assert (E : beam_get_loads stable_argsort int_beam 7 (PosList [fl 25 10]) None (CEnum N)
              = Ok (Some [(PInt 2, [Some (PInt 2)])])) by (vm_compute; reflexivity).
  assert (Hf : Forall (fun p : pynum => nisfloat p = true) [fl 25 10]) by (constructor; [reflexivity|constructor]).
  specialize (H stable_argsort int_beam 7%Z [fl 25 10] (CEnum N) [(PInt 2, [Some (PInt 2)])] stable_argsort_ok Hf E).
  apply Forall_inv in H. destruct H as (p & [<-|[]] & H). vm_compute in H. discriminate H.
Qed.
