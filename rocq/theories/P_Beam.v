(** C07, C10, C13-C25: beams.  The vocabulary is BeamSpec.v; [R] theorems are about exact
    arithmetic, [pynum] theorems about IEEE doubles and ints. *)

From Coq Require Import ZArith Reals List Bool Sorted Lra Lia.
From Verif Require Import Base Num RNum PyNum Numpy LoadCase LoadSpec LoadProofs
  Beam BeamSpec BeamFacts BeamPositions BeamProofs BeamLoads BeamCut BeamMisc BeamFloat BeamCases BeamCutAt.
Import ListNotations.
Open Scope R_scope.

(** C07, the Beam part (any numbers, any section objects). *)
Theorem C07_beam_list_positions :
  forall T (NT : Num T) Sec (b : beam_t T Sec) position mp lc,
  beam_list_positions b position mp lc = Err InvalidPositionError <->
  (position = PosNone <-> mp = None).
Proof. exact @C07_list. Qed.
Print Assumptions C07_beam_list_positions.

Theorem C07_beam_get_loads :
  forall T (NT : Num T) Sec qs (b : beam_t T Sec) c position mp a,
  beam_get_loads qs b c position mp a = Err InvalidPositionError <->
  (position = PosNone <-> mp = None).
Proof. exact @C07_loads. Qed.
Print Assumptions C07_beam_get_loads.

Theorem C07_beam_get_section :
  forall T (NT : Num T) Sec (b : beam_t T Sec) position mp lc,
  beam_get_section b position mp lc = Err InvalidPositionError <->
  (position = PosNone <-> mp = None).
Proof. exact @C07_section. Qed.
Print Assumptions C07_beam_get_section.

Example C07_beam_case : (PosNone (T := R) = PosNone <-> @None Z = None)
  /\ ~ (PosNum 1 = PosNone <-> @None Z = None).
Proof. split; [tauto|]. intros [_ H]. now specialize (H eq_refl). Qed.

(** C10, the Beam part. *)
Theorem C10_constant_load_beam :
  forall Sec qs case_id vx vy n mx my t len (s : option Sec) ps,
  any_argsort qs -> 0 < len -> ps <> [] -> Forall (fun p => 0 <= p <= len) ps ->
  exists e b at_ps, constant_load_element case_id vx vy n mx my t (Some len) s = Ok e /\
    beam (BElem e) = Ok b /\ distinct_ascending ps at_ps /\
    beam_get_loads qs b case_id (PosList ps) None CNone
    = Ok (Some (map (fun p => (p, map Some [vx; vy; n; mx; my; t])) at_ps)).
Proof. exact @C10_beam. Qed.
Print Assumptions C10_constant_load_beam.

Example C10_beam_case : Forall (fun p => 0 <= p <= 5) [5; 1/3; 0; 1/3].
Proof. repeat constructor; lra. Qed.

(** C13 (any numbers, any section objects). *)
Theorem C13_accepted_exactly_when_consistent :
  forall T Sec (inp : beam_input T Sec) b,
  beam inp = Ok b <-> gives inp b /\ b <> [] /\ consistent b.
Proof. exact @C13_accept. Qed.
Print Assumptions C13_accepted_exactly_when_consistent.

Theorem C13_errors_otherwise :
  forall T Sec (inp : beam_input T Sec) e, beam inp = Err e ->
  (e = ElementError /\ (inp = BNone \/ inp = BList [] \/ exists l, inp = BList l /\ In None l)) \/
  (e = ElementCaseError /\ exists es, gives inp es /\ es <> [] /\ ~ consistent es).
Proof. exact @C13_errors. Qed.
Print Assumptions C13_errors_otherwise.

Theorem C13_every_element_answers_every_load_case :
  forall T Sec (inp : beam_input T Sec) b cs,
  beam inp = Ok b -> beam_load_cases b = Ok cs ->
  forall c e, In c cs -> In e b -> exists lc, dict_get c (eloads e) = Ok lc.
Proof. exact @C13_answers. Qed.
Print Assumptions C13_every_element_answers_every_load_case.

Example C13_case : beam (BList (map Some ex_beam)) = Ok ex_beam /\ beam_load_cases ex_beam = Ok [7%Z]
  /\ beam (BList [Some (ex_elem 2 10); None]) = Err ElementError
  /\ beam (BList [Some (ex_elem 2 10); Some (mk_elem (Some 1) None [(8%Z, Some tab4)])]) = Err ElementCaseError.
Proof. repeat split. Qed.

(** C14. *)
Theorem C14_elements_tile_the_beam :
  forall Sec (b : beam_t R Sec) ls, has_lengths b ls ->
  exists ends total, element_ends b = Ok ends /\ beam_length b = Ok total /\ tiles 0 ls ends total.
Proof. exact @C14_real. Qed.
Print Assumptions C14_elements_tile_the_beam.

(** On Python numbers: every element starts at the very number where the previous one
    ends, and the last end is the very number Beam.length (a first length of -0.0 is the
    one exception). *)
Theorem C14_floats :
  forall Sec (b : beam_t pynum Sec) l0 ls,
  Forall2 (fun e l => elength e = Some l) b (l0 :: ls) -> l0 <> minus_zero ->
  exists rest total, element_ends b = Ok ((fl 0 1, Some l0) :: rest) /\ beam_length b = Ok total /\
    rounded_tiles l0 ls rest total.
Proof. exact @C14_float. Qed.
Print Assumptions C14_floats.

Example C14_case : has_lengths ex_beam ex_lengths
  /\ Forall2 (fun e l => elength e = Some l) fl_beam [fl 1 10; fl 2 10] /\ fl 1 10 <> minus_zero.
Proof. split; [apply ex_has_lengths|]. split; [repeat constructor|discriminate]. Qed.

(** C15. *)
Theorem C15_in_elements_finds_exactly_the_containing_elements :
  forall Sec (b : beam_t R Sec) ls p, has_lengths b ls -> b <> [] ->
  exists is, in_elements b p = Ok (map Z.of_nat is) /\ ids_at ls p is /\
    (is <> [] <-> 0 <= p <= span ls) /\
    (forall i j k, In i is -> In k is -> (i <= j <= k)%nat -> In j is) /\
    (forall i, (i < List.length b)%nat -> start_of ls i < p < end_of ls i -> is = [i]).
Proof. exact @C15_real. Qed.
Print Assumptions C15_in_elements_finds_exactly_the_containing_elements.

Example C15_case : has_lengths ex_beam ex_lengths /\ ex_beam <> [] /\ 0 <= 2 <= span ex_lengths.
Proof. split; [apply ex_has_lengths|]. split; [discriminate|]. unfold span, ex_lengths. cbn. lra. Qed.

(** C16. *)
Theorem C16_beam_to_local :
  forall Sec (b : beam_t R Sec) ls p e i,
  has_lengths b ls -> designated (List.length b) e i -> 0 < nth i ls 0 ->
  (start_of ls i <= p <= end_of ls i ->
     exists x, beam_to_local b p e = Ok x /\ 0 <= x <= 1 /\ local_to_beam b x e = Ok p) /\
  (~ start_of ls i <= p <= end_of ls i -> beam_to_local b p e = Err PositionNotInElementError).
Proof. exact @C16_to_local. Qed.
Print Assumptions C16_beam_to_local.

Theorem C16_local_to_beam :
  forall Sec (b : beam_t R Sec) ls x e i,
  has_lengths b ls -> designated (List.length b) e i -> 0 < nth i ls 0 ->
  (0 <= x <= 1 -> exists p, local_to_beam b x e = Ok p /\ start_of ls i <= p <= end_of ls i /\
                            beam_to_local b p e = Ok x) /\
  (~ 0 <= x <= 1 -> local_to_beam b x e = Err PositionNotInElementError).
Proof. exact @C16_to_beam. Qed.
Print Assumptions C16_local_to_beam.

Theorem C16_zero_length_elements :
  forall Sec (b : beam_t R Sec) ls p e i,
  has_lengths b ls -> designated (List.length b) e i -> nth i ls 0 = 0 ->
  beam_to_local b p e
  = Err (if Req_EM_T p (start_of ls i) then ElementLengthError else PositionNotInElementError).
Proof. exact @C16_zero. Qed.
Print Assumptions C16_zero_length_elements.

Theorem C16_no_such_element :
  forall Sec (b : beam_t R Sec) ls p e,
  has_lengths b ls -> (forall i, ~ designated (List.length b) e i) ->
  beam_to_local b p e = Err IndexError /\ (0 <= p <= 1 -> local_to_beam b p e = Err IndexError).
Proof. exact @C16_bad_id. Qed.
Print Assumptions C16_no_such_element.

Example C16_case : designated (List.length ex_beam) (-1) 2 /\ 0 < nth 2 ex_lengths 0
  /\ start_of ex_lengths 2 <= 3 <= end_of ex_lengths 2
  /\ designated (List.length ex_beam) 1 1 /\ nth 1 ex_lengths 0 = 0
  /\ (forall i, ~ designated (List.length ex_beam) 3 i).
Proof.
  split; [split; cbn; lia|]. split; [cbn; lra|]. split; [unfold start_of, end_of, span; cbn; lra|].
  split; [split; cbn; lia|]. split; [reflexivity|]. intros i [H1 H2]. cbn in *. lia.
Qed.

(** C17. *)
Theorem C17_triples_are_consistent :
  forall Sec (b : beam_t R Sec) ls position mp lc locs,
  has_lengths b ls -> beam_list_positions b position mp lc = Ok locs ->
  (forall p e l, In (p, e, l) locs -> exists i, e = Z.of_nat i /\ covers ls i p /\
     (0 < nth i ls 0 -> l * nth i ls 0 = p - start_of ls i)) /\
  StronglySorted Rle (positions_of locs) /\
  (forall p i, In p (positions_of locs) -> covers ls i p -> exists l, In (p, Z.of_nat i, l) locs) /\
  (b <> [] -> forall ps, requested position ps -> forall p, In p (positions_of locs) <-> In p ps).
Proof. exact @list_positions_triples. Qed.
Print Assumptions C17_triples_are_consistent.

(** The exact arrangement: per distinct position, per element containing it. *)
Theorem C17_arrangement :
  forall Sec (b : beam_t R Sec) ls position mp lc locs,
  has_lengths b ls -> beam_list_positions b position mp lc = Ok locs ->
  exists at_ps tss, StronglySorted Rlt at_ps /\ Forall2 (triples_at ls) at_ps tss /\
    locs = List.concat tss /\
    (forall ps, requested position ps -> forall p, In p at_ps <-> In p ps).
Proof. exact @list_positions_arranged. Qed.
Print Assumptions C17_arrangement.

Example C17_case : has_lengths ex_beam ex_lengths /\ exists locs,
  beam_list_positions ex_beam (PosList [2; 1; 5]) None (Some 7%Z) = Ok locs /\ In 2 (positions_of locs).
Proof. split; [apply ex_has_lengths|apply ex_query]. Qed.

(** C18. *)
Theorem C18_min_positions_misses_no_discontinuity :
  forall Sec (b : beam_t R Sec) ls c n,
  has_lengths b ls -> b <> [] -> loaded b c -> (0 <= n)%Z ->
  exists locs, beam_list_positions b PosNone (Some n) (Some c) = Ok locs /\
    (forall p, In p (positions_of locs) <->
       (exists i, (i < List.length b)%nat /\ (p = start_of ls i \/ p = end_of ls i)) \/
       (exists i rows r, stored_table b c i rows /\ In r rows /\
                         p = start_of ls i + lpos r * nth i ls 0) \/
       (exists k, (Z.of_nat k < n)%Z /\ p = even_point n k * span ls)) /\
    (0 < span ls -> exists ps, NoDup ps /\ incl ps (positions_of locs) /\
                               (n <= Z.of_nat (List.length ps))%Z).
Proof. exact @C18_loads. Qed.
Print Assumptions C18_min_positions_misses_no_discontinuity.

Theorem C18_min_positions_without_load_case :
  forall Sec (b : beam_t R Sec) ls n, has_lengths b ls -> b <> [] -> (0 <= n)%Z ->
  exists locs, beam_list_positions b PosNone (Some n) None = Ok locs /\
    (forall p, In p (positions_of locs) <->
       (exists i, (i < List.length b)%nat /\ (p = start_of ls i \/ p = end_of ls i)) \/
       (exists k, (Z.of_nat k < n)%Z /\ p = even_point n k * span ls)) /\
    (0 < span ls -> exists ps, NoDup ps /\ incl ps (positions_of locs) /\
                               (n <= Z.of_nat (List.length ps))%Z).
Proof. exact @C18_ends. Qed.
Print Assumptions C18_min_positions_without_load_case.

Theorem C18_negative_number_is_ValueError :
  forall Sec (b : beam_t R Sec) ls lc n, has_lengths b ls -> (n < 0)%Z ->
  beam_list_positions b PosNone (Some n) lc = Err ValueError.
Proof. exact @C18_negative. Qed.
Print Assumptions C18_negative_number_is_ValueError.

Example C18_case : has_lengths ex_beam ex_lengths /\ ex_beam <> [] /\ loaded ex_beam 7
  /\ (0 <= 4)%Z /\ 0 < span ex_lengths.
Proof.
  split; [apply ex_has_lengths|]. split; [discriminate|]. split; [apply ex_loaded|]. split; [lia|].
  unfold span, ex_lengths. cbn. lra.
Qed.

(** C19. *)
Theorem C19_off_beam_list_positions :
  forall Sec (b : beam_t R Sec) ls position ps lc, has_lengths b ls -> requested position ps ->
  beam_list_positions b position None lc = Err PositionNotInBeamError <->
  exists p, In p ps /\ (p < 0 \/ span ls < p).
Proof. exact @C19_list. Qed.
Print Assumptions C19_off_beam_list_positions.

Theorem C19_off_beam_get_loads :
  forall Sec qs (b : beam_t R Sec) ls position ps c a, has_lengths b ls -> requested position ps ->
  beam_get_loads qs b c position None a = Err PositionNotInBeamError <->
  exists p, In p ps /\ (p < 0 \/ span ls < p).
Proof. exact @C19_loads. Qed.
Print Assumptions C19_off_beam_get_loads.

Theorem C19_off_beam_get_section :
  forall Sec (b : beam_t R Sec) ls position ps lc, has_lengths b ls -> requested position ps ->
  beam_get_section b position None lc = Err PositionNotInBeamError <->
  exists p, In p ps /\ (p < 0 \/ span ls < p).
Proof. exact @C19_section. Qed.
Print Assumptions C19_off_beam_get_section.

(** No other position error (PositionNotInElementError, ElementLengthError) ever leaves
    list_positions. *)
Theorem C19_no_other_position_error :
  forall Sec (b : beam_t R Sec) ls position mp lc e, has_lengths b ls ->
  (forall el c v, In el b -> dict_get c (eloads el) = Ok v -> accepted v) ->
  beam_list_positions b position mp lc = Err e ->
  e = InvalidPositionError /\ (position = PosNone <-> mp = None) \/
  e = PositionNotInBeamError /\ mp = None /\
    (exists ps p, requested position ps /\ In p ps /\ (p < 0 \/ span ls < p)) \/
  e = KeyError \/ e = TypeError \/ e = IndexError \/ e = ValueError.
Proof. exact @list_positions_errors. Qed.
Print Assumptions C19_no_other_position_error.

Example C19_case : has_lengths ex_beam ex_lengths /\ requested (PosList [1; 6]) [1; 6]
  /\ (exists p, In p [1; 6] /\ (p < 0 \/ span ex_lengths < p))
  /\ (forall el c v, In el ex_beam -> dict_get c (eloads el) = Ok v -> accepted v).
Proof.
  split; [apply ex_has_lengths|]. split; [constructor|]. split.
  - exists 6. split; [cbn; auto|]. right. unfold span, ex_lengths. cbn. lra.
  - intros el c v H. assert (E : eloads el = [(7%Z, Some tab4)]).
    { cbn in H. destruct H as [<-|[<-|[<-|[]]]]; reflexivity. }
    rewrite E. cbn. destruct (c =? 7)%Z; [|discriminate]. intros [= <-]. apply tab4_accepted.
Qed.

(** C20 is false: full statement, refuted. *)
Theorem C20_refuted :
  ~ (forall (b : beam_t R nat) ls position mp c locs p i rows,
     has_lengths b ls -> beam_list_positions b position mp (Some c) = Ok locs ->
     In p (positions_of locs) -> covers ls i p -> nth i ls 0 = 0 ->
     stored_table b c i rows -> accepted (Some rows) -> rows <> [] ->
     good_locals locs p i rows).
Proof. exact C20_counterexample. Qed.
Print Assumptions C20_refuted.

(** It holds exactly for tables that start at 0 and end at 1. *)
Theorem C20_iff_table_spans_the_element_partial :
  forall Sec (b : beam_t R Sec) ls position mp c locs p i r0 rows,
  has_lengths b ls -> beam_list_positions b position mp (Some c) = Ok locs ->
  In p (positions_of locs) -> covers ls i p -> nth i ls 0 = 0 ->
  stored_table b c i (r0 :: rows) -> accepted (Some (r0 :: rows)) ->
  good_locals locs p i (r0 :: rows) <-> lpos r0 = 0 /\ lpos (last rows r0) = 1.
Proof. exact @C20_iff. Qed.
Print Assumptions C20_iff_table_spans_the_element_partial.

(** Without a load case the local positions are 0 and 1. *)
Theorem C20_without_load_case :
  forall Sec (b : beam_t R Sec) ls position mp locs p i,
  has_lengths b ls -> beam_list_positions b position mp None = Ok locs ->
  In p (positions_of locs) -> covers ls i p -> nth i ls 0 = 0 ->
  forall l, In (p, Z.of_nat i, l) locs <-> l = 0 \/ l = 1.
Proof. exact @C20_none. Qed.
Print Assumptions C20_without_load_case.

Example C20_case : has_lengths ex_beam ex_lengths
  /\ (exists locs, beam_list_positions ex_beam (PosList [2; 1; 5]) None (Some 7%Z) = Ok locs /\ In 2 (positions_of locs))
  /\ covers ex_lengths 1 2 /\ nth 1 ex_lengths 0 = 0 /\ stored_table ex_beam 7 1 tab4.
Proof.
  split; [apply ex_has_lengths|]. split; [apply ex_query|]. split.
  - split; [cbn; lia|]. unfold start_of, end_of, span, ex_lengths. cbn. lra.
  - split; [reflexivity|]. eexists. split; reflexivity.
Qed.

(** C21. *)
Theorem C21_loads_are_those_of_the_triples :
  forall Sec qs (b : beam_t R Sec) ls c position mp a out, has_lengths b ls ->
  beam_get_loads qs b c position mp a = Ok out ->
  exists locs blocks, beam_list_positions b position mp (Some c) = Ok locs /\
    Forall2 (rows_of_triple qs b c a) locs blocks /\
    out = match locs with [] => None | _ => Some (List.concat blocks) end.
Proof. exact @C21_inv. Qed.
Print Assumptions C21_loads_are_those_of_the_triples.

Theorem C21_loaded_beams_always_answer :
  forall Sec qs (b : beam_t R Sec) ls c position mp a cs locs,
  any_argsort qs -> has_lengths b ls -> loaded b c -> designates a cs -> cs <> [] ->
  beam_list_positions b position mp (Some c) = Ok locs ->
  exists blocks, Forall2 (rows_of_triple qs b c a) locs blocks /\
    beam_get_loads qs b c position mp a =
    Ok (match locs with [] => None | _ => Some (List.concat blocks) end).
Proof. exact @C21_total. Qed.
Print Assumptions C21_loaded_beams_always_answer.

Example C21_case : any_argsort (T := R) stable_argsort /\ has_lengths ex_beam ex_lengths /\ loaded ex_beam 7
  /\ designates CNone [VX; VY; N; MX; MY; T_]
  /\ exists locs, beam_list_positions ex_beam (PosList [2; 1; 5]) None (Some 7%Z) = Ok locs.
Proof.
  split; [apply stable_argsort_ok|]. split; [apply ex_has_lengths|]. split; [apply ex_loaded|].
  split; [constructor|]. destruct ex_query as (locs & E & _). eauto.
Qed.

(** C22. *)
Theorem C22_cutting_an_element_changes_no_load :
  forall Sec qs c a cs (pre post : beam_t R Sec) e e1 e2 t l ls position ps,
  any_argsort qs -> designates a cs -> cs <> [] -> 0 < t < 1 -> elength e = Some l -> 0 < l ->
  element_cut c t e e1 e2 -> has_lengths (pre ++ e :: post) ls -> requested position ps ->
  ~ In (start_of ls (List.length pre) + t * l) ps ->
  beam_get_loads qs (pre ++ e1 :: e2 :: post) c position None a =
  beam_get_loads qs (pre ++ e :: post) c position None a.
Proof. exact @C22_real. Qed.
Print Assumptions C22_cutting_an_element_changes_no_load.

(** At the cut itself both pieces report, so every row appears twice. *)
Theorem C22_at_the_cut :
  forall Sec qs c a cs (pre post : beam_t R Sec) e e1 e2 t l ls,
  any_argsort qs -> designates a cs -> cs <> [] -> 0 < t < 1 -> elength e = Some l -> 0 < l ->
  element_cut c t e e1 e2 -> has_lengths (pre ++ e :: post) ls -> loaded (pre ++ e :: post) c ->
  let q := start_of ls (List.length pre) + t * l in
  exists rows, beam_get_loads qs (pre ++ e :: post) c (PosNum q) None a = Ok (Some rows) /\
    beam_get_loads qs (pre ++ e1 :: e2 :: post) c (PosNum q) None a = Ok (Some (rows ++ rows)).
Proof. exact @at_cut. Qed.
Print Assumptions C22_at_the_cut.

Example C22_case : 0 < 1/4 < 1 /\ element_cut 7 (1/4) (ex_elem 3 12)
  (mk_elem (Some (1/4 * 3)) (Some 12%nat) [(7%Z, Some cut_left)])
  (mk_elem (Some ((1 - 1/4) * 3)) (Some 12%nat) [(7%Z, Some cut_right)])
  /\ has_lengths ([ex_elem 2 10; ex_elem 0 11] ++ ex_elem 3 12 :: []) ex_lengths
  /\ loaded ([ex_elem 2 10; ex_elem 0 11] ++ ex_elem 3 12 :: []) 7
  /\ ~ In (start_of ex_lengths 2 + 1/4 * 3) [2; 3; 5].
Proof.
  split; [lra|]. split; [apply ex_cut|]. split; [apply ex_has_lengths|]. split; [apply ex_loaded|].
  unfold start_of, span, ex_lengths. cbn. intros [H|[H|[H|[]]]]; lra.
Qed.

(** C23 is false for integer tables: full statement, refuted. *)
Theorem C23_refuted :
  ~ (forall qs (b : beam_t pynum nat) c ps a out, any_argsort qs ->
     Forall (fun p => nisfloat p = true) ps ->
     beam_get_loads qs b c (PosList ps) None a = Ok (Some out) ->
     Forall (fun o => exists p, In p ps /\ neqb (fst o) p = true) out).
Proof. exact C23_counterexample. Qed.
Print Assumptions C23_refuted.

(** It holds for tables with float positions. *)
Theorem C23_float_tables_partial :
  forall Sec qs (b : beam_t pynum Sec) c ps a out, any_argsort qs ->
  (forall e lc, In e b -> dict_get c (eloads e) = Ok lc -> float_table lc) ->
  Forall (fun p => nisfloat p = true) ps ->
  beam_get_loads qs b c (PosList ps) None a = Ok (Some out) ->
  Forall (fun o => In (fst o) ps) out.
Proof. exact @C23_float. Qed.
Print Assumptions C23_float_tables_partial.

(** And in exact arithmetic: the positions of the triples, in order, none missing. *)
Theorem C23_exact_arithmetic_partial :
  forall Sec qs (b : beam_t R Sec) ls c position mp a out, has_lengths b ls ->
  beam_get_loads qs b c position mp a = Ok (Some out) ->
  exists locs, beam_list_positions b position mp (Some c) = Ok locs /\
    StronglySorted Rle (map fst out) /\
    (forall p, In p (map fst out) -> In p (positions_of locs)).
Proof. exact @C23_real. Qed.
Print Assumptions C23_exact_arithmetic_partial.

Theorem C23_exact_arithmetic_none_missing_partial :
  forall Sec qs (b : beam_t R Sec) ls c position mp a cs locs,
  any_argsort qs -> has_lengths b ls -> loaded b c -> designates a cs -> cs <> [] ->
  beam_list_positions b position mp (Some c) = Ok locs -> locs <> [] ->
  exists out, beam_get_loads qs b c position mp a = Ok (Some out) /\
    forall p, In p (map fst out) <-> In p (positions_of locs).
Proof. exact @C23_real_all. Qed.
Print Assumptions C23_exact_arithmetic_none_missing_partial.

Example C23_case : float_table (Some ftab)
  /\ exists out, beam_get_loads stable_argsort fl_beam 7 (PosList [fl 1 10; fl 5 100]) None (CEnum N) = Ok (Some out)
  /\ List.length out = 3%nat.
Proof.
  split; [repeat constructor|]. eexists. split; [vm_compute; reflexivity|reflexivity].
Qed.

(** C24 is false: full statement (both kinds of query), refuted. *)
Theorem C24_refuted :
  ~ (forall b c, float_beam b c -> all_queries_answered b c) /\
  ~ (forall b c, float_beam b c -> all_minimums_answered b c).
Proof. exact C24_counterexample. Qed.
Print Assumptions C24_refuted.

(** It holds in exact arithmetic. *)
Theorem C24_exact_arithmetic_partial :
  forall Sec qs (b : beam_t R Sec) ls c position ps a cs,
  any_argsort qs -> has_lengths b ls -> loaded b c -> designates a cs -> cs <> [] ->
  requested position ps -> Forall (fun p => 0 <= p <= span ls) ps ->
  exists out, beam_get_loads qs b c position None a = Ok out.
Proof. exact @C24_explicit. Qed.
Print Assumptions C24_exact_arithmetic_partial.

Theorem C24_exact_arithmetic_min_positions_partial :
  forall Sec qs (b : beam_t R Sec) ls c n a cs,
  any_argsort qs -> has_lengths b ls -> b <> [] -> loaded b c -> designates a cs -> cs <> [] ->
  (0 <= n)%Z -> exists out, beam_get_loads qs b c PosNone (Some n) a = Ok out.
Proof. exact @C24_min. Qed.
Print Assumptions C24_exact_arithmetic_min_positions_partial.

(** And on doubles for beams of a single element. *)
Theorem C24_single_element_floats_partial :
  forall Sec qs (e : elem pynum Sec) l c rows ps a cs, any_argsort qs ->
  elength e = Some l -> positive_float l -> dict_get c (eloads e) = Ok (Some rows) -> good_table rows ->
  designates a cs -> cs <> [] ->
  Forall (fun p => nisfloat p = true /\ nleb (fl 0 1) p = true /\ nleb p l = true) ps ->
  exists out, beam_get_loads qs [e] c (PosList ps) None a = Ok out.
Proof. exact @C24_single_explicit. Qed.
Print Assumptions C24_single_element_floats_partial.

Theorem C24_single_element_floats_min_positions_partial :
  forall Sec qs (e : elem pynum Sec) l c rows n a cs, any_argsort qs ->
  elength e = Some l -> positive_float l -> dict_get c (eloads e) = Ok (Some rows) -> good_table rows ->
  Forall (fun r => nleb (fl 0 1) (lpos r) = true /\ nleb (lpos r) (fl 1 1) = true) rows ->
  designates a cs -> cs <> [] -> (0 <= n)%Z ->
  exists out, beam_get_loads qs [e] c PosNone (Some n) a = Ok out.
Proof. exact @C24_single_min. Qed.
Print Assumptions C24_single_element_floats_min_positions_partial.

Example C24_case : positive_float (fl 3 10) /\ good_table ftab
  /\ Forall (fun p => nisfloat p = true /\ nleb (fl 0 1) p = true /\ nleb p (fl 3 10) = true) [fl 1 10; fl 3 10]
  /\ Forall (fun r => nleb (fl 0 1) (lpos r) = true /\ nleb (lpos r) (fl 1 1) = true) ftab.
Proof.
  split; [eapply fl_positive; vm_compute; reflexivity|]. split; [apply ftab_good|].
  split; repeat constructor; vm_compute; reflexivity.
Qed.

(** C25, the Beam part. *)
Theorem C25_get_section_pairs_positions_with_sections :
  forall Sec (b : beam_t R Sec) ls position mp lc locs, has_lengths b ls ->
  beam_list_positions b position mp lc = Ok locs ->
  exists secs, beam_get_section b position mp lc = Ok (positions_of locs, secs) /\
    Forall2 (fun t s => exists el, nth_error b (Z.to_nat (snd (fst t))) = Some el /\ s = esection el) locs secs.
Proof. exact @get_section_R. Qed.
Print Assumptions C25_get_section_pairs_positions_with_sections.

Example C25_case : has_lengths ex_beam ex_lengths /\ exists locs,
  beam_list_positions ex_beam (PosList [2; 1; 5]) None (Some 7%Z) = Ok locs /\ In 2 (positions_of locs).
Proof. split; [apply ex_has_lengths|apply ex_query]. Qed.
