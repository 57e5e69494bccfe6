(** A beam whose loads depend on the end from which it is described. *)

From Coq Require Import String ZArith Reals Lra Lia List Bool Sorted.
From Verif Require Import Base Num RNum Numpy LoadCase LoadFacts LoadSpec LoadProofs Beam BeamSpec BeamFacts
  BeamPositions BeamProofs BeamLoads BeamCases TransformSpec BeamJoin BeamMirror.
Import ListNotations.
Open Scope R_scope.

Lemma ids_point : ids [0] 0 = [0%nat].
Proof.
  apply lt_sorted_unique; [apply ids_spec|repeat constructor|]. intros i. rewrite in_ids. unfold covers. cbn [List.length].
  split; [intros [H _]; left; lia|]. intros [<-|[]]. split; [lia|]. unfold start_of, end_of, span. cbn. lra.
Qed.

(** Loads of a beam with one element of no length. *)
Lemma point_loads tab locals : accepted (Some tab) -> tab <> [] ->
  zero_length_positions (mk_elem (Some 0) (Some 10%nat) [(7%Z, Some tab)]) (Some 7%Z) = Ok locals -> locals <> [] ->
  beam_get_loads stable_argsort [mk_elem (Some 0) (Some 10%nat) [(7%Z, Some tab)]] 7 (PosNum 0) None (CEnum N) =
  Ok (Some (List.concat (map (fun l => at_position 0 (block tab [N] l)) locals))).
Proof.
  intros A Nt Z Nl. set (e := mk_elem (Some 0) (Some 10%nat) [(7%Z, Some tab)]) in *.
  assert (H : has_lengths [e] [0]) by (repeat constructor; cbn; lra).
  assert (L : loaded [e] 7) by (intros x [<-|[]]; exists tab; auto).
  assert (P : 0 <= 0 <= span [0]) by (unfold span; cbn; lra).
  assert (El : beam_list_positions [e] (PosNum 0) None (Some 7%Z) = Ok (map (fun l => (0, 0%Z, l)) locals)).
  { rewrite (list_positions_one [e] [0] (Some 7%Z) 0 H P). unfold locs_at. rewrite ids_point. cbn [mapM].
    rewrite (locations_at_R [e] [0] (Some 7%Z) 0 0 e H); [|apply in_ids; rewrite ids_point; now left|reflexivity].
    unfold locals_at. cbn [nth]. rewrite (proj2 (Reqb_true 0 0) eq_refl), Z. cbn [rmap bind List.concat].
    now rewrite app_nil_r. }
  assert (D : designates (CEnum N) [N]) by constructor.
  destruct (C21_total stable_argsort [e] [0] 7 (PosNum 0) None (CEnum N) [N] _ stable_argsort_ok H L D ltac:(discriminate) El)
    as (blocks & F & ->).
  assert (B : blocks = map (fun l => at_position 0 (block tab [N] l)) locals).
  { apply (rows_functional stable_argsort [e] 7 (CEnum N) (map (fun l => (0, 0%Z, l)) locals)); auto.
    clear - A Nt D. induction locals as [|l locals IH]; cbn [map]; constructor; auto.
    exists e, (block tab [N] l). split; [reflexivity|]. split; [lia|]. split; auto.
    apply el_get_loads_block; auto; [apply stable_argsort_ok|discriminate]. }
  rewrite B. destruct locals; [congruence|]. reflexivity.
Qed.

Lemma mirror_counterexample :
  ~ (forall (b : beam_t R nat) ls c position mp comp cs,
     has_lengths b ls -> b <> [] -> loaded b c -> designates comp cs -> cs <> [] ->
     beam_get_loads stable_argsort (mirror_beam b) c (mirror_pos (span ls) position) mp comp =
     rmap (option_map (mirror_rows (span ls))) (beam_get_loads stable_argsort b c position mp comp)).
Proof.
  intros H. specialize (H half_beam [0] 7%Z (PosNum 0) None (CEnum N) [N] half_lengths ltac:(discriminate)).
  assert (L : loaded half_beam 7).
  { intros x [<-|[]]. exists half_table. split; auto. split; [apply half_accepted|discriminate]. }
  specialize (H L ltac:(constructor) ltac:(discriminate)).
  assert (Z1 : zero_length_positions (mk_elem (Some 0) (Some 10%nat) [(7%Z, Some half_table)]) (Some 7%Z) = Ok [0 + 1 / 1; 1 / 2 + 1 / 1]).
  { unfold zero_length_positions, el_load_positions. cbn [eloads dict_get Z.eqb Pos.eqb bind load_positions half_table map lpos].
    cbn [neqb nint RNum]. rewrite (proj2 (Reqb_true 0 0) eq_refl). cbn [negb last].
    assert (Reqb (1 / 2) (nflt 1 1) = false) as -> by (apply Reqb_false; cbn; lra). reflexivity. }
  assert (Z2 : zero_length_positions (mk_elem (Some 0) (Some 10%nat) [(7%Z, Some (mirror_table half_table))]) (Some 7%Z)
     = Ok [0 / 1 + (1 - 1 / 2); 0 / 1 + (1 - 0)]).
  { unfold zero_length_positions, el_load_positions. cbn [eloads dict_get Z.eqb Pos.eqb bind load_positions half_table mirror_table map rev app move lpos].
    cbn [neqb nint RNum]. assert (Reqb (1 - 1 / 2) 0 = false) as -> by (apply Reqb_false; lra). cbn [negb map last].
    cbn [nadd nflt RNum].
    assert (Reqb (0 / 1 + (1 - 0)) (1 / 1) = true) as -> by (apply Reqb_true; lra). reflexivity. }
  pose proof (point_loads half_table _ half_accepted ltac:(discriminate) Z1 ltac:(discriminate)) as E1.
  pose proof (point_loads (mirror_table half_table) _ (mirror_accepted _ half_accepted) ltac:(discriminate) Z2 ltac:(discriminate)) as E2.
  change (mirror_beam half_beam) with [mk_elem (Some 0) (Some 10%nat) [(7%Z, Some (mirror_table half_table))]] in H.
  change half_beam with [mk_elem (Some 0) (Some 10%nat) [(7%Z, Some half_table)]] in H.
  cbn [mirror_pos] in H. replace (span [0] - 0) with 0 in H by (unfold span; cbn; lra).
  rewrite E1, E2 in H. cbn [rmap option_map map List.concat] in H.
  assert (K : forall x, x = 0 / 1 + (1 - 0) -> block (mirror_table half_table) [N] x = [(1 - 0, [Some 1])]).
  { intros x ->. unfold block, half_table, mirror_table. cbn [map rev app move lpos].
    assert (py_in (0 / 1 + (1 - 0)) [1 - 1 / 2; 1 - 0] = true) as -> by (apply py_in_R; right; left; lra).
    cbn [filter move lpos neqb RNum].
    assert (Reqb (1 - 1 / 2) (0 / 1 + (1 - 0)) = false) as -> by (apply Reqb_false; lra).
    assert (Reqb (1 - 0) (0 / 1 + (1 - 0)) = true) as -> by (apply Reqb_true; lra). reflexivity. }
  assert (K2 : block half_table [N] (0 + 1 / 1) = [(0 + 1 / 1, [Some 2])]).
  { unfold block, half_table. cbn [map lpos].
    assert (py_in (0 + 1 / 1) [0; 1 / 2] = false) as ->.
    { destruct (py_in _ _) eqn:E; auto. apply py_in_R in E. destruct E as [E|[E|[]]]; lra. }
    cbn [map]. f_equal. f_equal. f_equal. f_equal. unfold interp_val. cbn [map interp_from lpos].
    cbn [nltb nleb RNum]. assert (Rltb (0 + 1 / 1) 0 = false) as -> by (apply Rltb_false; lra).
    assert (Rleb (1 / 2) (0 + 1 / 1) = true) as -> by (apply Rleb_true; lra).
    destruct (Rltb _ _); reflexivity. }
  rewrite (K _ eq_refl), K2 in H.
  assert (Q : forall x y : list (orow R), Ok (Some x) = Ok (Some y) -> last x (0, []) = last y (0, [])) by congruence.
  apply Q in H. unfold mirror_rows in H. cbn [at_position map app fst snd] in H. rewrite app_nil_r in H.
  rewrite last_last in H. cbn [rev] in H. rewrite last_last in H. injection H as _ H. lra.
Qed.
