(** Model of beamdesign/loadcase.py. *)

From Coq Require Import ZArith List Bool String.
From Verif Require Import Base Num Numpy.
Import ListNotations.
Open Scope Z_scope.

Section LoadCase.
Context {T : Type} {NT : Num T}.

(** One stored row [pos, VX, VY, N, MX, MY, T] (loadcase.py lines 24-31). *)
Record lrow : Type := mk_lrow {
  lpos : T; lVX : T; lVY : T; lN : T; lMX : T; lMY : T; lT : T }.

(** Column [component.value] of a row. *)
Definition lcomp (c : comp) (r : lrow) : T :=
  match c with
  | VX => lVX r | VY => lVY r | N => lN r
  | MX => lMX r | MY => lMY r | T_ => lT r
  end.

Definition lrow_list (r : lrow) : list T :=
  [lpos r; lVX r; lVY r; lN r; lMX r; lMY r; lT r].

Definition lrow_map (f : T -> T) (r : lrow) : lrow :=
  mk_lrow (f (lpos r)) (f (lVX r)) (f (lVY r)) (f (lN r)) (f (lMX r)) (f (lMY r)) (f (lT r)).

(** A LoadCase object is its [_loads] attribute: None or an (n,7) array, n >= 0. *)
Definition lcase : Type := option (list lrow).

(** What the constructor can be given.  [InRow]: a flat list; [InRows]: a list of lists
    (or 2-D array); [InEmpty k]: a 2-D array with no rows and k columns; [InScalar]: a
    number.  Arrays of 3+ dimensions and non-numeric entries are not modelled. *)
Inductive load_input : Type :=
| InNone
| InScalar (x : T)
| InRow (l : list T)
| InRows (rows : list (list T))
| InEmpty (cols : nat).

Definition row_of_list (l : list T) : option lrow :=
  match l with
  | [a; b; c; d; e; f; g] => Some (mk_lrow a b c d e f g)
  | _ => None
  end.

Fixpoint rows_of_lists (ls : list (list T)) : option (list lrow) :=
  match ls with
  | [] => Some []
  | l :: r => match row_of_list l, rows_of_lists r with
              | Some x, Some xs => Some (x :: xs)
              | _, _ => None
              end
  end.

(** [np.diff(pos)]. *)
Fixpoint np_diff (l : list T) : list T :=
  match l with
  | a :: ((b :: _) as r) => nsub b a :: np_diff r
  | _ => []
  end.

(** One dtype for the whole table: any float makes all entries float. *)
Definition np_table (rows : list lrow) : list lrow :=
  if existsb (fun r => existsb nisfloat (lrow_list r)) rows
  then map (lrow_map nfloat) rows else rows.

(** loadcase.py lines 114-123: the position checks, then the assignment. *)
Definition check_positions (rows : list lrow) : res lcase :=
  let pos := map lpos rows in
  if negb (forallb (fun d => nleb (nint 0) d) (np_diff pos)) then Err AssertionError
  else if negb (forallb (fun p => nleb p (nflt 1 1)) pos
                && forallb (fun p => nleb (nflt 0 1) p) pos) then Err AssertionError
  else Ok (Some rows).

(** loadcase.py lines 18-37, 72-123: [LoadCase(loads=...)].  A list of lists of
    different lengths makes numpy (2019) build a 1-D object array, which is rejected
    by line 96 unless there are exactly 7 of them, when line 119 compares a list with
    1.0. *)
Definition load_case (inp : load_input) : res lcase :=
  match inp with
  | InNone => Ok None                                               (* 86-88 *)
  | InScalar _ => Err IndexError                                    (* 108, shape () *)
  | InRow l =>
      match row_of_list l with                                      (* 92-102 *)
      | Some r => check_positions (np_table [r])
      | None => Err LoadCaseError
      end
  | InRows [] => Err LoadCaseError                                  (* shape (0,) *)
  | InRows ((l0 :: ls) as rows) =>
      if forallb (fun l => Nat.eqb (List.length l) (List.length l0)) ls then
        match rows_of_lists rows with                               (* 108-112 *)
        | Some rs => check_positions (np_table rs)
        | None => Err LoadCaseError
        end
      else if Nat.eqb (List.length rows) 7 then Err TypeError
      else Err LoadCaseError
  | InEmpty k => if Nat.eqb k 7 then Ok (Some []) else Err LoadCaseError
  end.

(** [LoadCase.load_positions], lines 48-60 ([None[:, 0]] is a TypeError). *)
Definition load_positions (lc : lcase) : res (list T) :=
  match lc with
  | None => Err TypeError
  | Some rows => Ok (map lpos rows)
  end.

(** The [position] argument: None, a float, an int (or other non-iterable number: not
    [isinstance(_, float)]), or a list/array. *)
Inductive pos_arg : Type :=
| PosNone
| PosNum (x : T)
| PosList (l : list T).

Definition pos_given (p : pos_arg) : bool :=
  match p with PosNone => false | _ => true end.

(** [list_positions], lines 465-529. *)
Definition list_positions (lc : lcase) (min_positions : option Z) (position : pos_arg)
  : res (list T) :=
  match position, min_positions with
  | PosNone, None => Err AssertionError                             (* 486-488 *)
  | PosNum _, Some _ | PosList _, Some _ => Err AssertionError      (* 489-491 *)
  | PosNum x, None =>
      if nisfloat x then Ok (py_sorted (py_set [x]))                (* 497-502 *)
      else Err TypeError                                            (* set(int), 502 *)
  | PosList l, None => Ok (py_sorted (py_set l))                    (* 502 *)
  | PosNone, Some n =>
      let! lp := load_positions lc in                               (* 509 *)
      let! lin := linspace (nflt 0 1) (nflt 1 1) n in               (* 513 *)
      let ps := py_sorted (set_update (py_set lp) lin) in           (* 517-521 *)
      if Z.of_nat (List.length ps) <? n then Err AssertionError     (* 525-528 *)
      else Ok ps
  end.

(** The [component] argument (lines 372-392). A list may hold enum members or things
    without a usable [.value]. *)
Inductive comp_item : Type := ItEnum (c : comp) | ItOther.
Inductive comp_arg : Type :=
| CNone
| CStr (s : string)
| CInt (z : Z)
| CEnum (c : comp)
| CList (l : list comp_item).

Definition components (c : comp_arg) : res (list comp) :=
  match c with
  | CNone => Ok all_comps                                           (* 372-381 *)
  | CStr s => let! c := comp_of_name s in Ok [c]                    (* 383-384 *)
  | CInt z => let! c := comp_of_value z in Ok [c]                   (* 385-386 *)
  | CEnum c => Ok [c]                                               (* 387-388 *)
  | CList l =>                                                      (* 389-392 *)
      mapM (fun i => match i with ItEnum c => Ok c | ItOther => Err AttributeError end) l
  end.

(** An output row: position column, then the selected load columns; [None] cells occur
    in the object array returned for empty load cases. *)
Definition orow : Type := (T * list (option T))%type.

(** [self.loads[i, [0] + components]] for one row. *)
Definition pick (cs : list comp) (r : lrow) : orow :=
  (lpos r, map (fun c => Some (lcomp c r)) cs).

Definition orow_float (r : orow) : orow :=
  (nfloat (fst r), map (option_map nfloat) (snd r)).

(** Transpose of a list of equally long columns into [n] rows. *)
Fixpoint transpose (n : nat) (cols : list (list T)) : list (list T) :=
  match n with
  | O => []
  | S n' => map (fun c => hd (nint 0) c) cols :: transpose n' (map (@tl T) cols)
  end.

(** numpy's default [argsort()] (introsort, not stable) applied to the index column and
    used to permute the rows (line 433).  It is an oracle: any function that returns the
    rows permuted so that the indices are non-decreasing.  The index column is kept as
    nat instead of being converted to float. *)
Definition argsort_oracle : Type := list (nat * orow) -> list (nat * orow).

(** [get_load], lines 307-463.  Python's None result (no positions) is [Ok None].
    In line 431 [np.vstack] converts the direct rows to float. *)
Definition get_load (qs : argsort_oracle) (lc : lcase) (position : pos_arg)
  (min_positions : option Z) (component : comp_arg) : res (option (list orow)) :=
  let! ps := list_positions lc min_positions position in            (* 358 *)
  match lc with
  | None =>                                                         (* 447-452 *)
      Ok (Some (map (fun p => (p, [None])) (np_array ps)))
  | Some rows =>
      let lp := map lpos rows in                                    (* 363 *)
      let pos_direct := filter (fun p => py_in p lp) ps in          (* 368 *)
      let pos_interp := filter (fun p => negb (py_in p lp)) ps in   (* 369 *)
      let! cs := components component in                            (* 372-392 *)
      if array_equal ps (np_unique lp)                              (* 394 *)
      then Ok (Some (map (pick cs) rows))                           (* 397 *)
      else
        let loads_direct :=                                         (* 403-411 *)
          match pos_direct with
          | [] => None
          | _ => Some (map (pick cs) (filter (fun r => py_in (lpos r) pos_direct) rows))
          end in
        let! loads_interp :=                                        (* 413-420 *)
          match pos_interp with
          | [] => Ok None
          | _ =>
              let! cols := multi_interp (XArr pos_interp) lp
                  (Fp2 (map (fun c => map (lcomp c) rows) cs)) None None in
              Ok (Some (map (fun pv => (nfloat (fst pv), map Some (snd pv)))
                    (combine pos_interp (transpose (List.length pos_interp) cols))))
          end in
        match loads_direct, loads_interp with
        | Some d, Some i =>                                         (* 422-440 *)
            let d := map orow_float d in
            let all := combine (seq 0 (List.length d)) d
                       ++ combine (seq 0 (List.length i)) i in
            let by_index := qs all in                               (* 433 *)
            let by_pos := sort_by (fun r => fst (snd r)) by_index in (* 438 *)
            Ok (Some (map snd by_pos))                              (* 440 *)
        | Some d, None => Ok (Some d)                               (* 441-443 *)
        | None, li => Ok li                                         (* 444-446 *)
        end
  end.

(** The stable sort is one admissible oracle (used to execute the model). *)
Fixpoint insert_idx {A} (x : nat * A) (l : list (nat * A)) : list (nat * A) :=
  match l with
  | [] => [x]
  | y :: r => if Nat.ltb (fst y) (fst x) then y :: insert_idx x r else x :: y :: r
  end.
Definition stable_argsort : argsort_oracle := fun l => fold_right insert_idx [] l.

(** [_get_load_single_component], lines 158-233, kept in the class as a reference
    routine (not called by [get_load] any more).  [np.unique(..., return_counts)] and the
    two dicts: the block of rows at [position] when there is more than one.
    [return_index] gives the index of the first occurrence; as the stored positions are
    ascending the occurrences are contiguous. *)
Definition single_component (lc : lcase) (position : T) (component : comp_arg)
  : res (list (option T)) :=
  match lc with
  | None => Ok [None]                                               (* 182-185 *)
  | Some rows =>
      let! c := match component with                                (* 190-194 *)
                | CStr s => comp_of_name s
                | CInt z => comp_of_value z
                | CEnum c => Ok c
                | CNone | CList _ => Err AttributeError
                end in
      match rows with
      | [r] => Ok [Some (lcomp c r)]                                (* 197-198 *)
      | _ =>
          let at_p := filter (fun r => neqb position (lpos r)) rows in
          if Nat.ltb 1 (List.length at_p)                           (* 205-222 *)
          then Ok (map (fun r => Some (lcomp c r)) at_p)
          else
            let! v := interp1 position (combine (map lpos rows) (map (lcomp c) rows))
                        None None in                                (* 224-233 *)
            Ok [Some v]
      end
  end.

(** [_get_load_single_position], lines 235-305.  [np.hstack] of the six columns; an
    error in an earlier component wins. *)
Definition single_position (lc : lcase) (position : T) (component : comp_arg)
  : res (list orow) :=
  if nleb (nint 0) position && nleb position (nflt 1 1) then        (* 269-271 *)
    let! cols :=
      match component with
      | CNone => mapM (fun c => single_component lc position (CEnum c)) all_comps
      | _ => let! c := single_component lc position component in Ok [c]
      end in
    let n := List.length (hd [] cols) in
    Ok (map (fun i => (position, map (fun c => nth i c None) cols)) (seq 0 n))
  else Err AssertionError.

(** [LoadCase.constant_load], lines 531-558. *)
Definition constant_load (vx vy n mx my t : T) : res lcase :=
  load_case (InRow [nflt 0 1; vx; vy; n; mx; my; t]).

End LoadCase.
Arguments lrow T : clear implicits.
Arguments lcase T : clear implicits.
Arguments load_input T : clear implicits.
Arguments pos_arg T : clear implicits.
Arguments orow T : clear implicits.
Arguments argsort_oracle T : clear implicits.
