(** What tabulating a load case, and replacing tables by equivalent ones, means. *)

From Coq Require Import ZArith Reals List Bool.
From Verif Require Import Base Num RNum Numpy LoadCase LoadSpec Beam BeamSpec.
Import ListNotations.
Open Scope R_scope.

(** The result [out] of a six-component query, read as a table: its rows hold the position
    and the six loads in the order in which the constructor expects them. *)
Definition reads_as (out : list (orow R)) (rows : list (lrow R)) : Prop :=
  out = map (fun r => (lpos r, [Some (lVX r); Some (lVY r); Some (lN r); Some (lMX r); Some (lMY r); Some (lT r)])) rows.

(** Two load cases no query by position can tell apart. *)
Definition same_answers (lc lc' : lcase R) : Prop :=
  forall qs position a cs, any_argsort qs -> designates a cs -> cs <> [] ->
  get_load qs lc position None a = get_load qs lc' position None a.

(** Element [e'] is element [e] with the table of load case [c] replaced by one that gives
    the same answers; on elements of zero length, which report all their stored positions,
    the table is the same. *)
Definition retabulated {Sec} (c : Z) (e e' : elem R Sec) : Prop :=
  elength e' = elength e /\ esection e' = esection e /\
  exists rows rows', dict_get c (eloads e) = Ok (Some rows) /\ dict_get c (eloads e') = Ok (Some rows') /\
    accepted (Some rows') /\ rows' <> [] /\ same_answers (Some rows) (Some rows') /\
    (elength e = Some 0 -> rows' = rows).

(** Load case [c3] of the element is [k1] times [c1] plus [k2] times [c2], row by row. *)
Definition combined {Sec} (k1 k2 : R) (c1 c2 c3 : Z) (e : elem R Sec) : Prop :=
  exists rows1 rows2, dict_get c1 (eloads e) = Ok (Some rows1) /\ dict_get c2 (eloads e) = Ok (Some rows2) /\
    accepted (Some rows1) /\ rows1 <> [] /\ map lpos rows1 = map lpos rows2 /\
    dict_get c3 (eloads e) = Ok (Some (add_rows (map (scale_row k1) rows1) (map (scale_row k2) rows2))).

(** [k1] times the loads of [out1] plus [k2] times those of [out2], at the positions of [out1]. *)
Definition combine_results (k1 k2 : R) (out1 out2 : list (orow R)) : list (orow R) :=
  map (fun ab => add_orow (scale_orow k1 (fst ab)) (scale_orow k2 (snd ab))) (combine out1 out2).
