(** C161: how long the answers of LoadCase and Beam get. *)

From Coq Require Import ZArith Reals List Bool Lia Lra.
From Verif Require Import Base Num RNum PyNum Numpy LoadCase LoadSpec LoadProofs Beam BeamSpec BeamPositions BeamLoads BeamMisc BeamFloat BeamCases Sizes.
Import ListNotations.
Open Scope R_scope.

(** [tables_of b c ts]: element by element, the accepted non-empty table of load case [c]. *)
Definition stored (ts : list (list (lrow R))) : nat := list_sum (map (@List.length (lrow R)) ts).

(** C161.  Full statement: no query returns more rows than the positions asked for, the rows stored and two per element.
    False for [Beam.get_loads], with whatever constants: an element of zero length reports all rows stored at a position
    once for each of them, so the answer grows with the square of the rows stored. *)
Theorem C161_refuted : forall qs f g h, any_argsort qs ->
  ~ (forall (b : beam_t R nat) ls c ts position ps out, has_lengths b ls -> tables_of b c ts -> requested position ps ->
     beam_get_loads qs b c position None CNone = Ok (Some out) ->
     (List.length out <= f * List.length ps + g * stored ts + h * List.length b)%nat).
Proof.
  intros qs f g h Hq H. set (k := (f + g + h + 1)%nat). destruct (stack_query qs k Hq) as (out & E & L).
  specialize (H (stack_beam (S k)) [0] 7%Z [stack (S k)] (PosNum 0) [0] out (stack_lengths (S k)) (stack_tables (S k)) (r_num 0) E).
  rewrite L in H. unfold stored, stack in H. cbn [map list_sum fold_right List.length stack_beam] in H.
  rewrite repeat_length in H. unfold k in H. nia.
Qed.
Print Assumptions C161_refuted.

(** What holds.  The positions listed (which is what sections are looked up at), zero-length elements included. *)
Theorem C161_listed : forall Sec (b : beam_t R Sec) ls c ts n locs, has_lengths b ls -> tables_of b c ts ->
  beam_list_positions b PosNone (Some n) (Some c) = Ok locs ->
  (List.length locs <= Z.to_nat n + stored ts + 2 * List.length b)%nat.
Proof. exact @list_bound. Qed.
Print Assumptions C161_listed.

Theorem C161_listed_at : forall Sec (b : beam_t R Sec) ls c ts position ps locs, has_lengths b ls -> tables_of b c ts ->
  requested position ps -> beam_list_positions b position None (Some c) = Ok locs ->
  (List.length locs <= List.length ps + stored ts + 2 * List.length b)%nat.
Proof. exact @at_bound. Qed.
Print Assumptions C161_listed_at.

Theorem C161_listed_without_case : forall Sec (b : beam_t R Sec) ls n locs, has_lengths b ls ->
  beam_list_positions b PosNone (Some n) None = Ok locs -> (List.length locs <= Z.to_nat n + 2 * List.length b)%nat.
Proof. exact @list_none_bound. Qed.
Print Assumptions C161_listed_without_case.

(** The rows of [Beam.get_loads].  Missing: an element of zero length counts with the square of its rows ([weights]). *)
Theorem C161_partial : forall Sec qs (b : beam_t R Sec) ls c ts n a cs out, any_argsort qs -> has_lengths b ls ->
  tables_of b c ts -> designates a cs -> cs <> [] ->
  beam_get_loads qs b c PosNone (Some n) a = Ok (Some out) ->
  (List.length out <= Z.to_nat n + list_sum (weights ls ts) + 2 * List.length b)%nat.
Proof. exact @loads_bound. Qed.
Print Assumptions C161_partial.

Theorem C161_at_partial : forall Sec qs (b : beam_t R Sec) ls c ts position ps a cs out, any_argsort qs -> has_lengths b ls ->
  tables_of b c ts -> designates a cs -> cs <> [] -> requested position ps ->
  beam_get_loads qs b c position None a = Ok (Some out) ->
  (List.length out <= List.length ps + list_sum (weights ls ts) + 2 * List.length b)%nat.
Proof. exact @loads_at_bound. Qed.
Print Assumptions C161_at_partial.

(** Hence the bound as stated when no element has zero length. *)
Theorem C161_positive_partial : forall Sec qs (b : beam_t R Sec) ls c ts n a cs out, any_argsort qs -> has_lengths b ls ->
  Forall (fun l => 0 < l) ls -> tables_of b c ts -> designates a cs -> cs <> [] ->
  beam_get_loads qs b c PosNone (Some n) a = Ok (Some out) ->
  (List.length out <= Z.to_nat n + stored ts + 2 * List.length b)%nat.
Proof.
  intros Sec qs b ls c ts n a cs out Hq H Hp HT Hd Hc E. pose proof (loads_bound qs b ls c ts n a cs out Hq H HT Hd Hc E) as L.
  now rewrite (weights_positive b ls c ts H HT Hp) in L.
Qed.
Print Assumptions C161_positive_partial.

(** [LoadCase.get_load], any numbers; the stored positions equal themselves (no NaN among them). *)
Theorem C161_table : forall T (NT : Num T) qs (rows : list (lrow T)) n a out, any_argsort qs ->
  Forall (fun r => neqb (lpos r) (lpos r) = true) rows ->
  get_load qs (Some rows) PosNone (Some n) a = Ok (Some out) ->
  (List.length out <= Z.to_nat n + List.length rows)%nat.
Proof. exact @get_load_min_size. Qed.
Print Assumptions C161_table.

Theorem C161_table_at : forall T (NT : Num T) qs (rows : list (lrow T)) ps a out, any_argsort qs ->
  get_load qs (Some rows) (PosList ps) None a = Ok (Some out) ->
  (List.length out <= List.length ps + List.length rows)%nat.
Proof. exact @get_load_at_size. Qed.
Print Assumptions C161_table_at.

(** A beam with an element of zero length and tables of four rows; a table of two rows on doubles asked for three positions,
    which gives exactly the three; and one asked for two positions that are not stored, where the bound is reached. *)
Definition two_rows : list (lrow pynum) :=
  [mk_lrow (fl 1 4) (PInt 1) (PInt 1) (PInt 1) (PInt 1) (PInt 1) (PInt 1); mk_lrow (fl 3 4) (PInt 2) (PInt 2) (PInt 2) (PInt 2) (PInt 2) (PInt 2)].
Example C161_case : any_argsort (T := R) stable_argsort /\ has_lengths ex_beam ex_lengths /\ tables_of ex_beam 7 [tab4; tab4; tab4]
  /\ stored [tab4; tab4; tab4] = 12%nat /\ list_sum (weights ex_lengths [tab4; tab4; tab4]) = 24%nat /\ any_argsort (T := pynum) stable_argsort
  /\ Forall (fun r => neqb (lpos r) (lpos r) = true) two_rows
  /\ (exists out, get_load stable_argsort (Some two_rows) PosNone (Some 2%Z) CNone = Ok (Some out) /\ List.length out = 4%nat)
  /\ (exists out, get_load stable_argsort (Some two_rows) (PosList [fl 1 2; fl 1 4; fl 1 2]) None CNone = Ok (Some out)
      /\ List.length out = 2%nat).
Proof.
  split; [apply stable_argsort_ok|]. split; [apply ex_has_lengths|]. split.
  { repeat constructor; try apply tab4_accepted; discriminate. }
  split; [reflexivity|]. split.
  { unfold weights, weight, ex_lengths. cbn [combine map fst snd].
    rewrite Reqb_refl, (proj2 (Reqb_false 2 0)), (proj2 (Reqb_false 3 0)) by lra. reflexivity. }
  split; [apply stable_argsort_ok|]. split; [repeat constructor|].
  split; eexists; (split; [vm_compute; reflexivity|reflexivity]).
Qed.

(** Lengths 2 and 3: asked for the loads at 1, where the first table has two rows. *)
Example C161_positive_case : has_lengths [ex_elem 2 10; ex_elem 3 12] [2; 3] /\ Forall (fun l => 0 < l) [2; 3]
  /\ tables_of [ex_elem 2 10; ex_elem 3 12] 7 [tab4; tab4] /\ designates (CEnum N) [N] /\ requested (PosNum 1) [1]
  /\ exists out, beam_get_loads stable_argsort [ex_elem 2 10; ex_elem 3 12] 7 (PosNum 1) None (CEnum N) = Ok (Some out).
Proof.
  assert (H : has_lengths [ex_elem 2 10; ex_elem 3 12] [2; 3]) by (repeat constructor; cbn; lra).
  assert (L : loaded [ex_elem 2 10; ex_elem 3 12] 7).
  { intros e [<-|[<-|[]]]; exists tab4; (split; [reflexivity|]; split; [apply tab4_accepted|discriminate]). }
  split; [exact H|]. split; [repeat constructor; lra|]. split.
  { repeat constructor; try apply tab4_accepted; discriminate. }
  split; [constructor|]. split; [constructor|].
  destruct (C24_explicit stable_argsort [ex_elem 2 10; ex_elem 3 12] [2; 3] 7 (PosNum 1) [1] (CEnum N) [N]) as (out & Eo); auto.
  - apply stable_argsort_ok.
  - constructor.
  - discriminate.
  - constructor.
  - unfold span. cbn. repeat constructor; lra.
  - destruct out as [out|]; [eauto|]. exfalso.
    destruct (C21_inv stable_argsort _ [2; 3] 7 _ _ _ _ H Eo) as (locs & blocks & El & _ & Ec).
    destruct locs; [|discriminate].
    destruct (list_positions_triples _ [2; 3] _ _ _ _ H El) as (_ & _ & _ & X).
    exact (proj2 (X ltac:(discriminate) [1] (r_num 1) 1) (or_introl eq_refl)).
Qed.
