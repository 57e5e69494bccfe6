(** C01-C12, C75, C76: load cases and interpolation.  The vocabulary is LoadSpec.v; [R]
    theorems are about exact arithmetic, [pynum] theorems about IEEE doubles. *)

From Coq Require Import ZArith Reals List Bool String Sorted Lra.
From Verif Require Import Base Num RNum PyNum Numpy LoadCase LoadSpec LoadProofs.
Import ListNotations.
Open Scope R_scope.

(** C01: accepted inputs are exactly None and the well-formed tables, stored as given. *)
Theorem C01_accepts_exactly_well_formed_tables :
  forall (inp : load_input R) lc,
  load_case inp = Ok lc <->
  (inp = InNone /\ lc = None) \/
  (exists rows, table_of inp rows /\ well_formed rows /\ lc = Some rows).
Proof. exact C01_accept. Qed.
Print Assumptions C01_accepts_exactly_well_formed_tables.

Theorem C01_wrong_width_is_LoadCaseError :
  forall inp : load_input R, wrong_width inp -> load_case inp = Err LoadCaseError.
Proof. exact C01_bad_width. Qed.
Print Assumptions C01_wrong_width_is_LoadCaseError.

Theorem C01_bad_positions_are_AssertionError :
  forall (inp : load_input R) rows,
  table_of inp rows -> ~ well_formed rows -> load_case inp = Err AssertionError.
Proof. exact C01_bad_positions. Qed.
Print Assumptions C01_bad_positions_are_AssertionError.

Example C01_case_ok : table_of (InRows (map seven tab4)) tab4 /\ well_formed tab4.
Proof. split; [constructor|]. split; repeat constructor; cbn; lra. Qed.
Example C01_case_width : wrong_width (InRows [[0; 1; 2]; [1; 2; 3]]).
Proof. apply ww_rows with 3%nat; [discriminate|repeat constructor]. Qed.
Example C01_case_positions :
  table_of (InRow (seven (mk_lrow 2 1 1 1 1 1 1))) [mk_lrow 2 1 1 1 1 1 1]
  /\ ~ well_formed [mk_lrow 2 1 1 1 1 1 1].
Proof. split; [constructor|]. intros [_ F]. apply Forall_inv in F. cbn in F. lra. Qed.

(** C02. *)
Theorem C02_stored_rows_or_linear_interpolation :
  forall qs rows ps component cs,
  any_argsort qs -> accepted (Some rows) -> rows <> [] -> ps <> [] ->
  designates component cs -> cs <> [] ->
  exists at_ps blocks,
    distinct_ascending ps at_ps /\ Forall2 (rows_at rows cs) at_ps blocks /\
    get_load qs (Some rows) (PosList ps) None component = Ok (Some (List.concat blocks)).
Proof. exact C02_real. Qed.
Print Assumptions C02_stored_rows_or_linear_interpolation.

Example C02_case : any_argsort (T := R) stable_argsort /\ accepted (Some tab4) /\ tab4 <> []
  /\ [1/4; 1/2; 0; 1/4] <> [] /\ designates (CStr "MX") [MX] /\ [MX] <> [].
Proof.
  repeat split; try discriminate; auto using tab4_accepted; try apply stable_argsort_ok.
  apply (d_name MX).
Qed.

(** The same on doubles, with numpy's floating-point expression for the interpolated
    value, for every table of floats stored in ascending order. *)
Theorem C02_floats :
  forall qs (rows : list (lrow pynum)) ps component cs,
  any_argsort qs ->
  Forall (fun r => Pok (lpos r) /\ forall c, nisfloat (load_of c r) = true) rows ->
  StronglySorted (fun a b => nleb (lpos a) (lpos b) = true) rows ->
  rows <> [] -> Forall Pok ps -> ps <> [] -> designates component cs -> cs <> [] ->
  exists at_ps blocks,
    distinct_ascending ps at_ps /\ Forall2 (rows_at rows cs) at_ps blocks /\
    get_load qs (Some rows) (PosList ps) None component = Ok (Some (List.concat blocks)).
Proof. exact C02_float_lemma. Qed.
Print Assumptions C02_floats.

Example C02_floats_case :
  Forall (fun r => Pok (lpos r) /\ forall c, nisfloat (load_of c r) = true) ftab
  /\ StronglySorted (fun a b => nleb (lpos a) (lpos b) = true) ftab
  /\ Forall Pok [fl 1 10; fl 1 3].
Proof.
  split; [apply ftab_rows|]. split; [apply ftab_sorted|].
  repeat constructor; vm_compute; exact I.
Qed.

(** C03. *)
Theorem C03_only_the_set_of_positions_matters :
  forall qs lc (ps ps' : list R) component,
  (forall p, In p ps <-> In p ps') ->
  get_load qs lc (PosList ps) None component = get_load qs lc (PosList ps') None component.
Proof. exact C03_real. Qed.
Print Assumptions C03_only_the_set_of_positions_matters.

Theorem C03_tie_breaking_does_not_matter :
  forall qs1 qs2 rows ps component,
  any_argsort qs1 -> any_argsort qs2 -> accepted (Some rows) ->
  get_load qs1 (Some rows) (PosList ps) None component
  = get_load qs2 (Some rows) (PosList ps) None component.
Proof. exact C03_ties. Qed.
Print Assumptions C03_tie_breaking_does_not_matter.

Example C03_case : forall p : R, In p [1/4; 1/2; 1/4] <-> In p [1/2; 1/4].
Proof. intros p. cbn. tauto. Qed.

(** C04. *)
Theorem C04_compositional_over_positions :
  forall qs rows ps a cs,
  any_argsort qs -> accepted (Some rows) -> rows <> [] -> ps <> [] ->
  designates a cs -> cs <> [] ->
  exists at_ps blocks,
    distinct_ascending ps at_ps /\
    get_load qs (Some rows) (PosList ps) None a = Ok (Some (List.concat blocks)) /\
    Forall2 (fun p b => get_load qs (Some rows) (PosNum p) None a = Ok (Some b)) at_ps blocks /\
    Forall2 (fun p b => 0 <= p <= 1 -> (forall l, a <> CList l) ->
                        single_position (Some rows) p a = Ok b) at_ps blocks.
Proof. exact C04_real. Qed.
Print Assumptions C04_compositional_over_positions.

Example C04_case : accepted (Some tab4) /\ tab4 <> [] /\ [0; 1/2; 1] <> []
  /\ designates CNone [VX; VY; N; MX; MY; T_].
Proof. repeat split; try discriminate; auto using tab4_accepted. constructor. Qed.

(** C05. *)
Theorem C05_values_stay_in_the_stored_envelope :
  forall qs rows position mp a cs out o i c cell,
  any_argsort qs -> accepted (Some rows) -> rows <> [] -> designates a cs ->
  get_load qs (Some rows) position mp a = Ok (Some out) ->
  In o out -> nth_error cs i = Some c -> nth_error (snd o) i = Some cell ->
  exists v, cell = Some v /\ enclosed rows c v.
Proof. exact C05_real. Qed.
Print Assumptions C05_values_stay_in_the_stored_envelope.

Theorem C05_between_neighbours :
  forall qs rows l r1 r2 l' p,
  any_argsort qs -> accepted (Some rows) -> rows = l ++ r1 :: r2 :: l' ->
  lpos r1 < p < lpos r2 ->
  exists vs, get_load qs (Some rows) (PosNum p) None CNone = Ok (Some [(p, map Some vs)]) /\
    Forall2 (fun c v => Rmin (load_of c r1) (load_of c r2) <= v <= Rmax (load_of c r1) (load_of c r2) /\
       (v - load_of c r1) * (lpos r2 - lpos r1) = (load_of c r2 - load_of c r1) * (p - lpos r1))
      [VX; VY; N; MX; MY; T_] vs.
Proof. exact C05_between_real. Qed.
Print Assumptions C05_between_neighbours.

Example C05_case : exists out,
  get_load stable_argsort (Some tab4) (PosList [1/4]) None (CEnum N) = Ok (Some out).
Proof.
  destruct (C02_real stable_argsort tab4 [1/4] (CEnum N) [N]) as (a & b & _ & _ & E);
    auto using tab4_accepted; try discriminate; try apply stable_argsort_ok; [constructor|eauto].
Qed.
Example C05_between_case : exists l r1 r2 l',
  tab4 = l ++ r1 :: r2 :: l' /\ lpos r1 < 3/4 < lpos r2.
Proof.
  exists [mk_lrow 0 1 2 3 4 5 6; mk_lrow (1/2) 2 2 2 2 2 2].
  do 3 eexists. split; [reflexivity|]. cbn. lra.
Qed.

(** C06. *)
Theorem C06_positions :
  forall rows n, accepted (Some rows) -> (0 <= n)%Z ->
  exists ps, list_positions (Some rows) (Some n) PosNone = Ok ps /\
    StronglySorted Rlt ps /\ Forall (fun p => 0 <= p <= 1) ps /\
    (forall p, In p ps <-> (exists r, In r rows /\ lpos r = p) \/
                           (exists i, (Z.of_nat i < n)%Z /\ p = even_point n i)) /\
    (n <= Z.of_nat (List.length ps))%Z.
Proof. exact C06_positions_real. Qed.
Print Assumptions C06_positions.

Theorem C06_loads :
  forall qs rows n, any_argsort qs -> accepted (Some rows) -> rows <> [] -> (0 <= n)%Z ->
  exists ps out,
    list_positions (Some rows) (Some n) PosNone = Ok ps /\
    get_load qs (Some rows) PosNone (Some n) CNone = Ok (Some out) /\
    StronglySorted Rle (map fst out) /\
    (n <= Z.of_nat (List.length out))%Z /\
    (forall p, In p ps <-> In p (map fst out)) /\
    (forall r, In r rows ->
       filter (fun o => Reqb (fst o) (lpos r)) out =
       map (fun r => (lpos r, [Some (lVX r); Some (lVY r); Some (lN r); Some (lMX r); Some (lMY r); Some (lT r)]))
         (filter (fun q => Reqb (lpos q) (lpos r)) rows)).
Proof. exact C06_loads_real. Qed.
Print Assumptions C06_loads.

Theorem C06_negative_is_ValueError :
  forall (lc : lcase R) n rows, lc = Some rows -> (n < 0)%Z ->
  list_positions lc (Some n) PosNone = Err ValueError.
Proof. exact C06_negative_real. Qed.
Print Assumptions C06_negative_is_ValueError.

Example C06_case : accepted (Some tab4) /\ (0 <= 7)%Z /\ even_point 7 3 = 1/2.
Proof. repeat split; auto using tab4_accepted; [discriminate|]. unfold even_point. cbn. lra. Qed.

(** C07 (the Beam part is in P_Beam.v). *)
Theorem C07_exactly_one_of_position_and_min_positions :
  forall qs lc mp position a, accepted lc ->
  get_load qs lc position mp a = Err AssertionError <-> (position = PosNone <-> mp = None).
Proof. exact C07_real. Qed.
Print Assumptions C07_exactly_one_of_position_and_min_positions.

Example C07_case : accepted (Some tab4) /\ accepted None.
Proof. split; [apply tab4_accepted|]. exists InNone. reflexivity. Qed.

(** C08. *)
Theorem C08_name_number_enum_agree :
  forall (T : Type) (NT : Num T) qs (lc : lcase T) position mp c,
  get_load qs lc position mp (CStr (comp_name c)) = get_load qs lc position mp (CEnum c) /\
  get_load qs lc position mp (CInt (comp_number c)) = get_load qs lc position mp (CEnum c) /\
  get_load qs lc position mp (CList [ItEnum c]) = get_load qs lc position mp (CEnum c).
Proof. exact @C08_names_gen. Qed.
Print Assumptions C08_name_number_enum_agree.

Theorem C08_component_is_the_column_of_the_full_result :
  forall qs lc position mp c, any_argsort qs -> accepted lc ->
  get_load qs lc position mp (CEnum c)
  = rmap (option_map (map (column c))) (get_load qs lc position mp CNone).
Proof. exact C08_column_real. Qed.
Print Assumptions C08_component_is_the_column_of_the_full_result.

Theorem C08_other_designators_are_rejected :
  forall (T : Type) (NT : Num T) qs (rows : list (lrow T)) position mp ps,
  list_positions (Some rows) mp position = Ok ps ->
  (forall s, (forall c, s <> comp_name c) -> get_load qs (Some rows) position mp (CStr s) = Err KeyError) /\
  (forall z, (forall c, z <> comp_number c) -> get_load qs (Some rows) position mp (CInt z) = Err ValueError).
Proof. exact @C08_bad_gen. Qed.
Print Assumptions C08_other_designators_are_rejected.

Example C08_case : (exists ps, list_positions (Some tab4) None (PosList [1/4]) = Ok ps)
  /\ (forall c, "Vx"%string <> comp_name c) /\ (forall c, 0%Z <> comp_number c).
Proof. split; [eexists; reflexivity|]. split; intros []; discriminate. Qed.

(** C09. *)
Theorem C09_scaling :
  forall qs k rows position mp a cs,
  any_argsort qs -> accepted (Some rows) -> rows <> [] -> designates a cs -> cs <> [] ->
  get_load qs (Some (map (scale_row k) rows)) position mp a
  = rmap (option_map (map (scale_orow k))) (get_load qs (Some rows) position mp a).
Proof. exact C09_scale_real. Qed.
Print Assumptions C09_scaling.

Theorem C09_superposition :
  forall qs rows rows' ps a cs,
  any_argsort qs -> accepted (Some rows) -> accepted (Some rows') ->
  map lpos rows = map lpos rows' -> rows <> [] -> ps <> [] -> designates a cs -> cs <> [] ->
  exists out out',
    get_load qs (Some rows) (PosList ps) None a = Ok (Some out) /\
    get_load qs (Some rows') (PosList ps) None a = Ok (Some out') /\
    map fst out = map fst out' /\
    get_load qs (Some (add_rows rows rows')) (PosList ps) None a
    = Ok (Some (map (fun ab => add_orow (fst ab) (snd ab)) (combine out out'))).
Proof. exact C09_add_real. Qed.
Print Assumptions C09_superposition.

Example C09_case : map lpos tab4 = map lpos (map (scale_row 2) tab4)
  /\ accepted (Some (map (scale_row 2) tab4)).
Proof.
  split; [reflexivity|]. apply accepted_rows. apply scale_wf. apply accepted_rows. apply tab4_accepted.
Qed.

(** C10 (the Beam part is in P_Beam.v). *)
Theorem C10_constant_load :
  forall qs (vx vy n mx my t : R) ps, any_argsort qs -> ps <> [] ->
  exists lc at_ps,
    constant_load vx vy n mx my t = Ok lc /\ distinct_ascending ps at_ps /\
    get_load qs lc (PosList ps) None CNone
    = Ok (Some (map (fun p => (p, map Some [vx; vy; n; mx; my; t])) at_ps)).
Proof. exact C10_real. Qed.
Print Assumptions C10_constant_load.

Theorem C10_constant_load_single_position :
  forall qs (vx vy n mx my t p : R), any_argsort qs ->
  exists lc, constant_load vx vy n mx my t = Ok lc /\
    get_load qs lc (PosNum p) None CNone = Ok (Some [(p, map Some [vx; vy; n; mx; my; t])]).
Proof. exact C10_num_real. Qed.
Print Assumptions C10_constant_load_single_position.

(** On doubles: the very values given, bit for bit (also NaN and infinities). *)
Theorem C10_constant_load_floats :
  forall qs (vx vy n mx my t : pynum) ps, any_argsort qs -> ps <> [] -> Forall Pok ps ->
  Forall (fun v => nisfloat v = true) [vx; vy; n; mx; my; t] ->
  exists lc at_ps out,
    constant_load vx vy n mx my t = Ok lc /\ distinct_ascending ps at_ps /\
    get_load qs lc (PosList ps) None CNone = Ok (Some out) /\
    Forall2 (fun p o => neqb (fst o) p = true /\ snd o = map Some [vx; vy; n; mx; my; t]) at_ps out.
Proof. exact C10_float. Qed.
Print Assumptions C10_constant_load_floats.

Example C10_floats_case : Forall Pok [fl 1 10; fl 0 1] /\
  Forall (fun v => nisfloat v = true) [fl 1 1; fl 2 1; fl 1 3; fl 4 1; fl 5 1; fl 6 1].
Proof. split; repeat constructor; vm_compute; exact I. Qed.

(** C11. *)
Theorem C11_empty_load_case :
  forall qs ps a, exists at_ps, distinct_ascending ps at_ps /\
  get_load (T := R) qs None (PosList ps) None a = Ok (Some (map (fun p => (p, [None])) at_ps)).
Proof. exact C11_real. Qed.
Print Assumptions C11_empty_load_case.

Theorem C11_empty_load_case_floats :
  forall qs ps a, Forall Pok ps -> exists at_ps, distinct_ascending ps at_ps /\
  get_load (T := pynum) qs None (PosList ps) None a = Ok (Some (map (fun p => (p, [None])) at_ps)).
Proof. exact C11_float. Qed.
Print Assumptions C11_empty_load_case_floats.

Theorem C11_min_positions_is_TypeError :
  forall (T : Type) (NT : Num T) qs n a,
  get_load (T := T) qs None PosNone (Some n) a = Err TypeError.
Proof. exact @C11_min_gen. Qed.
Print Assumptions C11_min_positions_is_TypeError.

Example C11_case : Forall Pok [fl 3 4; fl 1 4; fl 3 4].
Proof. repeat constructor; vm_compute; exact I. Qed.

(** C12: the full statement is false: get_load extrapolates. *)
Theorem C12_positions_outside_rejected_refuted :
  ~ (forall qs rows p a,
  any_argsort qs -> accepted (Some rows) -> ~ (0 <= p <= 1) ->
  exists e, get_load qs (Some rows) (PosNum p) None a = Err e).
Proof. exact C12_refuted_lemma. Qed.
Print Assumptions C12_positions_outside_rejected_refuted.

(** What holds: the reference routine rejects them; get_load reports the end rows. *)
Theorem C12_reference_routine_rejects_partial :
  forall (lc : lcase R) p a, ~ (0 <= p <= 1) -> single_position lc p a = Err AssertionError.
Proof. exact C12_single. Qed.
Print Assumptions C12_reference_routine_rejects_partial.

Theorem C12_end_values_reported_partial :
  forall qs rows r rs p, any_argsort qs -> accepted (Some rows) ->
  (rows = r :: rs /\ p < lpos r \/ rows = rs ++ [r] /\ lpos r < p) ->
  get_load qs (Some rows) (PosNum p) None CNone
  = Ok (Some [(p, map (fun c => Some (load_of c r)) [VX; VY; N; MX; MY; T_])]).
Proof. exact outside_real. Qed.
Print Assumptions C12_end_values_reported_partial.

Example C12_case : ~ (0 <= 3/2 <= 1) /\
  exists r rs, tab4 = rs ++ [r] /\ lpos r < 3/2.
Proof.
  split; [lra|]. exists (mk_lrow 1 (-1) (-2) (-3) 4 5 6), (firstn 3 tab4).
  split; [reflexivity|]. cbn. lra.
Qed.

(** C75. *)
Theorem C75_multi_interp_row_wise :
  forall xs xp fs left right,
  StronglySorted Rle xp -> xp <> [] -> fs <> [] ->
  Forall (fun f => List.length f = List.length xp) fs ->
  exists yss, multi_interp (XArr xs) xp (Fp2 fs) left right = Ok yss /\
    Forall2 (fun f ys =>
      multi_interp (XArr xs) xp (Fp1 f) left right = Ok [ys] /\
      Forall2 (line_value (combine xp f) left right) xs ys) fs yss.
Proof. exact C75_real. Qed.
Print Assumptions C75_multi_interp_row_wise.

Theorem C75_none_or_empty_is_ValueError :
  forall (T : Type) (NT : Num T) (xp : list T) fp left right,
  multi_interp XNone xp fp left right = Err ValueError /\
  multi_interp (XList []) xp fp left right = Err ValueError.
Proof. exact @C75_none_gen. Qed.
Print Assumptions C75_none_or_empty_is_ValueError.

Theorem C75_lists_and_arrays_agree :
  forall (T : Type) (NT : Num T) (x : T) xs xp fp left right,
  multi_interp (XList (x :: xs)) xp fp left right = multi_interp (XArr (x :: xs)) xp fp left right.
Proof. exact @C75_list_gen. Qed.
Print Assumptions C75_lists_and_arrays_agree.

Example C75_case : StronglySorted Rle [0; 1/2; 1/2; 1] /\
  Forall (fun f => List.length f = List.length [0; 1/2; 1/2; 1]) [[1; 2; 3; 4]; [0; 0; 5; 5]].
Proof. split; repeat constructor; lra. Qed.

(** C76: documented, but not done. *)
Theorem C76_unsorted_sample_points_rejected_refuted :
  ~ (forall (xs xp : list R) fs,
  xs <> [] -> ~ StronglySorted Rle xp -> fs <> [] ->
  Forall (fun f => List.length f = List.length xp) fs ->
  multi_interp (XArr xs) xp (Fp2 fs) None None = Err ValueError).
Proof. exact C76_refuted_lemma. Qed.
Print Assumptions C76_unsorted_sample_points_rejected_refuted.

(** What holds: sample points and values of different length are rejected. *)
Theorem C76_length_mismatch_rejected_partial :
  forall (x : R) xs xp f left right, List.length xp <> List.length f ->
  multi_interp (XArr (x :: xs)) xp (Fp1 f) left right = Err ValueError.
Proof. exact C76_lengths. Qed.
Print Assumptions C76_length_mismatch_rejected_partial.

Example C76_case : List.length [0; 1] <> List.length [1; 2; 3].
Proof. discriminate. Qed.
