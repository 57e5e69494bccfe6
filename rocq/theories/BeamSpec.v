(** What the documentation of Beam says, independent of how it is computed: extents of
    elements, which elements contain a position, what a cut element is. *)

From Coq Require Import ZArith Reals List Bool Sorted Floats.SpecFloat.
From Verif Require Import Base Num RNum PyNum Numpy LoadCase LoadSpec Beam.
Import ListNotations.
Open Scope R_scope.

(** Sum of lengths; where the i-th element starts and ends. *)
Definition span (ls : list R) : R := fold_right Rplus 0 ls.
Definition start_of (ls : list R) (i : nat) : R := span (firstn i ls).
Definition end_of (ls : list R) (i : nat) : R := span (firstn (S i) ls).

(** Element [i] contains position [p] (closed extent). *)
Definition covers (ls : list R) (i : nat) (p : R) : Prop :=
  (i < List.length ls)%nat /\ start_of ls i <= p <= end_of ls i.

(** The ascending ids of all elements containing [p]. *)
Definition ids_at (ls : list R) (p : R) (ids : list nat) : Prop :=
  StronglySorted lt ids /\ forall i, In i ids <-> covers ls i p.

(** Python's [l[e]] designates item [i] of a list of [n]. *)
Definition designated (n : nat) (e : Z) (i : nat) : Prop :=
  (i < n)%nat /\ (Z.of_nat i = e \/ Z.of_nat i = e + Z.of_nat n)%Z.

Section Spec.
Context {Sec : Type}.

(** The elements of [b] have the known lengths [ls]; none is negative (the Element
    constructor rejects those). *)
Definition has_lengths (b : beam_t R Sec) (ls : list R) : Prop :=
  Forall2 (fun e l => elength e = Some l /\ 0 <= l) b ls.

(** Item of the beam's load case [c] in element [i]. *)
Definition stored_table (b : beam_t R Sec) (c : Z) (i : nat) (rows : list (lrow R)) : Prop :=
  exists e, nth_error b i = Some e /\ dict_get c (eloads e) = Ok (Some rows).

(** Every element has a non-empty accepted table for load case [c]. *)
Definition loaded (b : beam_t R Sec) (c : Z) : Prop :=
  forall e, In e b -> exists rows, dict_get c (eloads e) = Ok (Some rows) /\
                                   accepted (Some rows) /\ rows <> [].

(** The triples reported for element [i] at [p]: one, with the local position, on an
    element of positive length; at least one on an element of zero length. *)
Definition triples_in (ls : list R) (p : R) (i : nat) (ts : list (location R)) : Prop :=
  (0 < nth i ls 0 -> exists l, ts = [(p, Z.of_nat i, l)] /\ l * nth i ls 0 = p - start_of ls i) /\
  (nth i ls 0 = 0 -> exists l0 locals, ts = map (fun l => (p, Z.of_nat i, l)) (l0 :: locals)).

(** The triples reported at [p]: those of the elements containing [p], in order. *)
Definition triples_at (ls : list R) (p : R) (ts : list (location R)) : Prop :=
  exists ids tss, ids_at ls p ids /\ Forall2 (triples_in ls p) ids tss /\ ts = List.concat tss.

(** The positions of the triples. *)
Definition positions_of (locs : list (location R)) : list R := map (fun t => fst (fst t)) locs.

(** The requested positions, as a list. *)
Inductive requested : pos_arg R -> list R -> Prop :=
| r_num p : requested (PosNum p) [p]
| r_list ps : requested (PosList ps) ps.

(** Replace the position column. *)
Definition at_position (p : R) (rows : list (orow R)) : list (orow R) :=
  map (fun r => (p, snd r)) rows.

(** The rows a triple stands for: the loads of element [e] at its local position [l],
    reported at [p]. *)
Definition rows_of_triple (qs : argsort_oracle R) (b : beam_t R Sec) (c : Z) (a : comp_arg)
  (t : location R) (out : list (orow R)) : Prop :=
  let '(p, e, l) := t in
  exists el rows, nth_error b (Z.to_nat e) = Some el /\ (0 <= e)%Z /\
    el_get_loads qs el c (PosNum l) None a = Ok (Some rows) /\ out = at_position p rows.

(** ** Cutting *)

Definition move (f : R -> R) (r : lrow R) : lrow R :=
  mk_lrow (f (lpos r)) (lVX r) (lVY r) (lN r) (lMX r) (lMY r) (lT r).

(** The rows at the cut [t]: the stored ones, else one interpolated row. *)
Inductive rows_at_cut (rows : list (lrow R)) (t : R) : list (lrow R) -> Prop :=
| cut_stored : (exists r, In r rows /\ lpos r = t) ->
    rows_at_cut rows t (filter (fun r => Reqb (lpos r) t) rows)
| cut_between m : (forall r, In r rows -> lpos r <> t) -> lpos m = t ->
    (forall c, interpolates rows c t (load_of c m)) -> rows_at_cut rows t [m].

(** Table [rows] cut at the local position [t] into two tables on [0,1]. *)
Definition table_cut (rows : list (lrow R)) (t : R) (left right : list (lrow R)) : Prop :=
  exists mid, rows_at_cut rows t mid /\
    left = map (move (fun x => x / t)) (filter (fun r => Rltb (lpos r) t) rows ++ mid) /\
    right = map (move (fun x => (x - t) / (1 - t))) (mid ++ filter (fun r => Rltb t (lpos r)) rows).

(** Element [e] cut at [t], as far as load case [c] is concerned. *)
Definition element_cut (c : Z) (t : R) (e e1 e2 : elem R Sec) : Prop :=
  exists l rows left right,
    elength e = Some l /\ elength e1 = Some (t * l) /\ elength e2 = Some ((1 - t) * l) /\
    dict_get c (eloads e) = Ok (Some rows) /\ dict_get c (eloads e1) = Ok (Some left) /\
    dict_get c (eloads e2) = Ok (Some right) /\
    accepted (Some rows) /\ rows <> [] /\ table_cut rows t left right.
End Spec.

(** [ends] tiles the interval from [s] to [f] with extents of the given lengths. *)
Inductive tiles : R -> list R -> list (R * option R) -> R -> Prop :=
| tiles_nil s : tiles s [] [] s
| tiles_cons s e l ls r f : e - s = l -> tiles e ls r f -> tiles s (l :: ls) ((s, Some e) :: r) f.

(** The same with the rounded additions of the number type. *)
Inductive rounded_tiles {T} {NT : Num T} : T -> list T -> list (T * option T) -> T -> Prop :=
| rt_nil s : rounded_tiles s [] [] s
| rt_cons s l ls r f : rounded_tiles (nadd s l) ls r f ->
    rounded_tiles s (l :: ls) ((s, Some (nadd s l)) :: r) f.

(** The elements agree on the load case ids and their order. *)
Definition consistent {T Sec} (b : beam_t T Sec) : Prop := forall e e', In e b -> In e' b -> el_load_cases e = el_load_cases e'.

(** The constructor argument holds the elements [es]: one element, or a list of them. *)
Definition gives {T Sec} (inp : beam_input T Sec) (es : list (elem T Sec)) : Prop :=
  (exists e, inp = BElem e /\ es = [e]) \/ inp = BList (map Some es).

(** What C20 asks of the triples of a zero-length element. *)
Definition good_locals (locs : list (location R)) (p : R) (i : nat) (rows : list (lrow R)) : Prop :=
  (forall l, In (p, Z.of_nat i, l) locs -> 0 <= l <= 1) /\
  In (p, Z.of_nat i, 0) locs /\ In (p, Z.of_nat i, 1) locs /\
  forall r, In r rows -> In (p, Z.of_nat i, lpos r) locs.

(** ** Doubles *)

(** Python's -0.0. *)
Definition minus_zero : pynum := PFlt (S754_zero true).

(** The position column of the table is of float type. *)
Definition float_table (lc : lcase pynum) : Prop :=
  match lc with None => True | Some rows => Forall (fun r => nisfloat (lpos r) = true) rows end.

(** A finite double greater than zero. *)
Definition positive_float (l : pynum) : Prop := exists m e, l = PFlt (S754_finite false m e).

(** A non-empty table of doubles (no NaN position), positions ascending. *)
Definition good_table (rows : list (lrow pynum)) : Prop :=
  Forall (fun r => Pok (lpos r) /\ forall c, nisfloat (load_of c r) = true) rows /\
  StronglySorted (fun a b => nleb (lpos a) (lpos b) = true) rows /\ rows <> [].
