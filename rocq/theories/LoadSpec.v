(** What the documentation of LoadCase says, independent of how get_load works. *)

From Coq Require Import ZArith Reals List Bool String Sorted Permutation.
From Verif Require Import Base Num RNum Numpy LoadCase.
Import ListNotations.

(** numpy's default argsort: some permutation with non-decreasing keys; nothing is said
    about the order of equal keys. *)
Definition any_argsort {T} (qs : argsort_oracle T) : Prop :=
  forall l, Permutation (qs l) l /\
            StronglySorted (fun a b => fst a <= fst b)%nat (qs l).

(** Tables: rows of seven numbers, the position and the loads VX, VY, N, MX, MY, T. *)
Definition seven {T} (r : lrow T) : list T :=
  [lpos r; lVX r; lVY r; lN r; lMX r; lMY r; lT r].

(** The load [c] of a row. *)
Definition load_of {T} (c : comp) (r : lrow T) : T :=
  match c with
  | VX => lVX r | VY => lVY r | N => lN r | MX => lMX r | MY => lMY r | T_ => lT r
  end.

Section Spec.
Context {T : Type} {NT : Num T}.

(** The distinct requested positions in ascending order. *)
Definition distinct_ascending (ps out : list T) : Prop :=
  StronglySorted (fun a b => nltb a b = true) out
  /\ (forall p, In p out -> In p ps)
  /\ (forall p, In p ps -> exists q, In q out /\ neqb p q = true).

(** Value [v] of component [c] at a position [p] that is not stored. *)
Inductive interpolates (rows : list (lrow T)) (c : comp) (p : T) : T -> Prop :=
| before_first r rs :
    rows = r :: rs -> nltb p (lpos r) = true -> interpolates rows c p (load_of c r)
| after_last rs r :
    rows = rs ++ [r] -> nltb (lpos r) p = true -> interpolates rows c p (load_of c r)
| between l r1 r2 l' :
    rows = l ++ r1 :: r2 :: l' -> nltb (lpos r1) p = true -> nltb p (lpos r2) = true ->
    interpolates rows c p
      (nadd (nmul (ndiv (nsub (load_of c r2) (load_of c r1)) (nsub (lpos r2) (lpos r1)))
                  (nsub p (lpos r1))) (load_of c r1)).

(** The rows reported for one position [p]: all stored rows there in stored order, else
    one interpolated row. *)
Inductive rows_at (rows : list (lrow T)) (cs : list comp) (p : T) : list (orow T) -> Prop :=
| at_stored :
    (exists r, In r rows /\ neqb (lpos r) p = true) ->
    rows_at rows cs p
      (map (fun r => (lpos r, map (fun c => Some (load_of c r)) cs))
           (filter (fun r => neqb (lpos r) p) rows))
| at_between vs :
    (forall r, In r rows -> neqb (lpos r) p = false) ->
    Forall2 (fun c v => interpolates rows c p v) cs vs ->
    rows_at rows cs p [(p, map Some vs)].
End Spec.

(** Names and numbers of the components (const.py, Enum LoadComponents). *)
Definition comp_name (c : comp) : string :=
  match c with VX => "VX" | VY => "VY" | N => "N" | MX => "MX" | MY => "MY" | T_ => "T" end.
Definition comp_number (c : comp) : Z :=
  match c with VX => 1 | VY => 2 | N => 3 | MX => 4 | MY => 5 | T_ => 6 end.

(** Ways to ask for components. *)
Inductive designates : comp_arg -> list comp -> Prop :=
| d_all : designates CNone [VX; VY; N; MX; MY; T_]
| d_enum c : designates (CEnum c) [c]
| d_name c : designates (CStr (comp_name c)) [c]
| d_number c : designates (CInt (comp_number c)) [c]
| d_list cs : designates (CList (map ItEnum cs)) cs.

(** Tables. *)
Inductive table_of {T} : load_input T -> list (lrow T) -> Prop :=
| one_row r : table_of (InRow (seven r)) [r]
| some_rows r rs : table_of (InRows (map seven (r :: rs))) (r :: rs)
| no_rows : table_of (InEmpty 7) [].

Definition well_formed (rows : list (lrow R)) : Prop :=
  StronglySorted (fun a b => lpos a <= lpos b)%R rows
  /\ Forall (fun r => 0 <= lpos r <= 1)%R rows.

(** Inputs with the wrong number of columns. *)
Inductive wrong_width {T} : load_input T -> Prop :=
| ww_row l : List.length l <> 7%nat -> wrong_width (InRow l)
| ww_rows k l ls : k <> 7%nat -> Forall (fun x => List.length x = k) (l :: ls) ->
    wrong_width (InRows (l :: ls))
| ww_nothing : wrong_width (InRows [])
| ww_empty k : k <> 7%nat -> wrong_width (InEmpty k).

(** A table every query of which is well defined (what C01 guarantees, minus the empty
    table). *)
Definition accepted (lc : lcase R) : Prop := exists inp, load_case inp = Ok lc.

Open Scope R_scope.

(** Between the smallest and the largest stored value of component [c]. *)
Definition enclosed (rows : list (lrow R)) (c : comp) (v : R) : Prop :=
  (exists r, In r rows /\ load_of c r <= v) /\ (exists r, In r rows /\ v <= load_of c r).

(** The i-th of n evenly spaced points of [0,1] (a single point is 0). *)
Definition even_point (n : Z) (i : nat) : R := if (n =? 1)%Z then 0 else INR i / (IZR n - 1).

(** Position column and column [c] of a six-component row. *)
Definition column (c : comp) (o : orow R) : orow R :=
  (fst o, [nth (Z.to_nat (comp_number c - 1)) (snd o) None]).

(** Scaled and superposed tables and results. *)
Definition scale_row (k : R) (r : lrow R) : lrow R :=
  mk_lrow (lpos r) (k * lVX r) (k * lVY r) (k * lN r) (k * lMX r) (k * lMY r) (k * lT r).

Definition scale_orow (k : R) (o : orow R) : orow R := (fst o, map (option_map (Rmult k)) (snd o)).

Definition add_row (r s : lrow R) : lrow R :=
  mk_lrow (lpos r) (lVX r + lVX s) (lVY r + lVY s) (lN r + lN s) (lMX r + lMX s)
    (lMY r + lMY s) (lT r + lT s).

Definition add_cell (a b : option R) : option R :=
  match a, b with Some x, Some y => Some (x + y) | _, _ => None end.

Definition add_orow (o p : orow R) : orow R :=
  (fst o, map (fun ab => add_cell (fst ab) (snd ab)) (combine (snd o) (snd p))).

Definition add_rows (rows rows' : list (lrow R)) : list (lrow R) :=
  map (fun ab => add_row (fst ab) (snd ab)) (combine rows rows').

(** Piecewise linear interpolation through samples (x, y), with optional values outside;
    at a repeated x the last sample counts. *)
Inductive line_value (samples : list (R * R)) (left right : option R) (x : R) : R -> Prop :=
| lv_left x0 y0 r : samples = (x0, y0) :: r -> x < x0 ->
    line_value samples left right x (match left with Some v => v | None => y0 end)
| lv_right r x0 y0 : samples = r ++ [(x0, y0)] -> x0 < x ->
    line_value samples left right x (match right with Some v => v | None => y0 end)
| lv_last l y0 r : samples = l ++ (x, y0) :: r -> (forall q, In q r -> x < fst q) ->
    line_value samples left right x y0
| lv_between l x1 y1 x2 y2 r v : samples = l ++ (x1, y1) :: (x2, y2) :: r -> x1 < x < x2 ->
    (v - y1) * (x2 - x1) = (y2 - y1) * (x - x1) ->
    line_value samples left right x v.
