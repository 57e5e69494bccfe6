(** C141-C143: load tables of doubles - what the constructor accepts, the positions of a
    minimum number, and tables of answers.  The vocabulary is FloatTableSpec.v, FloatSpec.v,
    FloatValSpec.v and LoadSpec.v. *)

From Coq Require Import ZArith Reals List Bool Sorted Lia.
From Verif Require Import Base Num PyNum Numpy LoadCase LoadSpec LoadProofs FloatSpec FloatValSpec
  FloatTableSpec FloatTable FloatLin FloatTab FloatTableCases.
Import ListNotations.
Open Scope R_scope.

(** C141: the constructor accepts exactly the tables with positions in [0, 1] that do not
    descend, although it looks at rounded differences. *)
Theorem C141_accepts_exactly :
  forall inp rows, table_of inp rows -> Forall double_row rows ->
  (load_case inp = Ok (Some rows) /\ well_formed_double rows) \/
  (load_case inp = Err AssertionError /\ ~ well_formed_double rows).
Proof. exact C141_accept. Qed.
Print Assumptions C141_accepts_exactly.

Example C141_case : table_of (InRows (map seven dtab)) dtab /\ Forall double_row dtab /\ well_formed_double dtab
  /\ Forall double_row dswap /\ ~ well_formed_double dswap.
Proof.
  split; [apply some_rows|]. split; [exact dtab_double|]. split; [exact dtab_wf|]. split; [exact dswap_double|apply dswap_bad].
Qed.

(** C142: a minimum number of positions. *)
Theorem C142_positions :
  forall rows n, Forall double_row rows -> well_formed_double rows -> (0 <= n <= 2 ^ 52)%Z ->
  exists ps, list_positions (Some rows) (Some n) PosNone = Ok ps /\
    StronglySorted (fun a b => nltb a b = true) ps /\ Forall unit_double ps /\ (n <= Z.of_nat (List.length ps))%Z /\
    (forall p, In p ps -> (exists r, In r rows /\ lpos r = p) \/
       (exists i, (Z.of_nat i < n)%Z /\ Rabs (val p - even_point n i) <= powerRZ 2 (-51))) /\
    (forall r, In r rows -> exists p, In p ps /\ neqb (lpos r) p = true) /\
    (forall i, (Z.of_nat i < n)%Z -> exists p, In p ps /\ Rabs (val p - even_point n i) <= powerRZ 2 (-51)).
Proof. exact C142_positions_double. Qed.
Print Assumptions C142_positions.

Example C142_case : Forall double_row dtab /\ well_formed_double dtab /\ (0 <= 1000 <= 2 ^ 52)%Z.
Proof. split; [exact dtab_double|]. split; [exact dtab_wf|lia]. Qed.

(** C143: the result of a query, entered as a table, gives the same answers bit for bit at
    its positions, and the query repeated on it the same result. *)
Theorem C143_tabulated :
  forall qs rows n, any_argsort qs -> Forall double_row rows -> well_formed_double rows -> rows <> [] -> (0 <= n <= 2 ^ 52)%Z ->
  exists out rows', get_load qs (Some rows) PosNone (Some n) CNone = Ok (Some out) /\ reads_as_table out rows' /\
    load_case (InRows (map seven rows')) = Ok (Some rows') /\
    (forall qs' p a cs, any_argsort qs' -> In p (map fst out) -> designates a cs -> cs <> [] ->
      get_load qs' (Some rows') (PosNum p) None a = get_load qs' (Some rows) (PosNum p) None a) /\
    (forall qs', any_argsort qs' -> get_load qs' (Some rows') PosNone (Some n) CNone = Ok (Some out)).
Proof. exact C143_min. Qed.
Print Assumptions C143_tabulated.

Theorem C143_sampled :
  forall qs rows ps, any_argsort qs -> Forall double_row rows -> well_formed_double rows -> rows <> [] ->
  ps <> [] -> Forall unit_double ps ->
  exists out rows', get_load qs (Some rows) (PosList ps) None CNone = Ok (Some out) /\ reads_as_table out rows' /\
    load_case (InRows (map seven rows')) = Ok (Some rows') /\
    (forall qs' p a cs, any_argsort qs' -> In p (map fst out) -> designates a cs -> cs <> [] ->
      get_load qs' (Some rows') (PosNum p) None a = get_load qs' (Some rows) (PosNum p) None a) /\
    (forall qs', any_argsort qs' -> get_load qs' (Some rows') (PosList ps) None CNone = Ok (Some out)).
Proof. exact C143_list. Qed.
Print Assumptions C143_sampled.

Example C143_case : Forall double_row dtab /\ well_formed_double dtab /\ dtab <> []
  /\ Forall unit_double [fl 1 2; fl 1 10; fl 3 10; fl 1 2]
  /\ exists out, get_load stable_argsort (Some dtab) PosNone (Some 3%Z) CNone = Ok (Some out)
     /\ map fst out = [fl 0 1; fl 1 10; fl 1 10; fl 1 2; fl 7 10; fl 1 1].
Proof.
  split; [exact dtab_double|]. split; [exact dtab_wf|]. split; [discriminate|]. split; [exact dtab_points|exact dtab_out].
Qed.
