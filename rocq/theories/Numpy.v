(** The Python builtins and numpy routines the load and beam code relies on, over an
    arbitrary [Num].  Assumed library behaviour, stated as executable definitions. *)

From Coq Require Import ZArith List Bool.
From Verif Require Import Base Num.
Import ListNotations.
Open Scope Z_scope.

Section Numpy.
Context {T : Type} {NT : Num T}.

(** [x in l] for lists / [x in arr] for 1-D arrays: some element compares equal. *)
Definition py_in (x : T) (l : list T) : bool := existsb (fun y => neqb x y) l.

(** [set(l)]: insertion keeps the element already present when an equal one is added.
    A set is the list of its elements in insertion order; the code only ever sorts it.
    (NaN, which Python compares by identity here, is outside the theorems.) *)
Definition set_add (s : list T) (x : T) : list T := if py_in x s then s else s ++ [x].
Definition set_update (s l : list T) : list T := fold_left set_add l s.
Definition py_set (l : list T) : list T := set_update [] l.

(** Stable sort by a key ([sorted], [argsort(kind="mergesort")]), as insertion sort. *)
Fixpoint insert_by {A} (key : A -> T) (x : A) (l : list A) : list A :=
  match l with
  | [] => [x]
  | y :: r => if nltb (key y) (key x) then y :: insert_by key x r else x :: y :: r
  end.
Definition sort_by {A} (key : A -> T) (l : list A) : list A :=
  fold_right (insert_by key) [] l.
Definition py_sorted (l : list T) : list T := sort_by (fun x => x) l.

(** [np.unique(a)]: the distinct values in ascending order. *)
Definition np_unique (l : list T) : list T := py_sorted (py_set l).

(** [np.array_equal(a, b)] on 1-D arrays. *)
Fixpoint array_equal (a b : list T) : bool :=
  match a, b with
  | [], [] => true
  | x :: a', y :: b' => neqb x y && array_equal a' b'
  | _, _ => false
  end.

(** [np.array(l)] of a list of numbers: one dtype; any float makes all entries float. *)
Definition np_array (l : list T) : list T :=
  if existsb nisfloat l then map nfloat l else l.

(** [np.linspace(start, stop, num)] (numpy/core/function_base.py): [arange(num)] times
    the step (or divided by [num-1] first when the step is zero), plus [start], with the
    last entry set to [stop] when [num > 1]; a negative [num] raises ValueError. *)
Definition lin_entry (start delta : T) (num : Z) (i : nat) : T :=
  let y := nfloat (nint (Z.of_nat i)) in
  if 1 <? num then
    let step := ndiv delta (nfloat (nint (num - 1))) in
    if neqb step (nint 0)
    then nadd (nmul (ndiv y (nfloat (nint (num - 1)))) delta) start
    else nadd (nmul y step) start
  else nadd (nmul y delta) start.

Definition linspace (start stop : T) (num : Z) : res (list T) :=
  if num <? 0 then Err ValueError
  else
    let start := nfloat start in
    let stop := nfloat stop in
    let delta := nsub stop start in
    let n := Z.to_nat num in
    Ok (if 1 <? num
        then map (lin_entry start delta num) (seq 0 (n - 1)) ++ [stop]
        else map (lin_entry start delta num) (seq 0 n)).

(** [np.interp(x, xp, fp, left, right)] for one [x] (numpy's compiled [arr_interp]):
    below the first / above the last sample the fill value or the end value, on the last
    sample its value, otherwise with [j] the last index such that [xp[j] <= x]:
    [fp[j]] if [x == xp[j]], else [slope * (x - xp[j]) + fp[j]].
    Everything is converted to float first.  For unsorted [xp] numpy's bisection may
    pick another [j]; the forward scan used here agrees for sorted [xp]. *)
Fixpoint interp_from (x : T) (xj yj : T) (r : list (T * T)) (right : option T) : T :=
  match r with
  | [] => if nltb xj x then match right with Some v => v | None => yj end else yj
  | (x1, y1) :: r' =>
      if nleb x1 x then interp_from x x1 y1 r' right
      else if neqb xj x then yj
      else nadd (nmul (ndiv (nsub y1 yj) (nsub x1 xj)) (nsub x xj)) yj
  end.

Definition interp1 (x : T) (samples : list (T * T)) (left right : option T) : res T :=
  let fl := fun p : T * T => (nfloat (fst p), nfloat (snd p)) in
  match map fl samples with
  | [] => Err ValueError
  | (x0, y0) :: r =>
      let x := nfloat x in
      if nltb x x0 then Ok (match left with Some v => v | None => y0 end)
      else Ok (interp_from x x0 y0 r right)
  end.

(** [np.interp] over an array of [x]; the lengths of [xp] and [fp] must agree. *)
Definition np_interp (xs xp fp : list T) (left right : option T) : res (list T) :=
  if Nat.eqb (length xp) (length fp)
  then mapM (fun x => interp1 x (combine xp fp) left right) xs
  else Err ValueError.

(** beamdesign/utility/interp.py lines 10-53, [multi_interp].
    [x]: None, a Python list, or an ndarray (a scalar is a one-entry list here: only the
    shape of the result differs).  [x == []] (line 40) is True for an empty Python list
    only; comparing an ndarray with [] is falsy (numpy of 2019: an empty array or
    False). [fp] is one row or a table of rows. *)
Inductive mi_x : Type := XNone | XList (l : list T) | XArr (l : list T).
Inductive mi_fp : Type := Fp1 (l : list T) | Fp2 (rows : list (list T)).

Definition multi_interp (x : mi_x) (xp : list T) (fp : mi_fp) (left right : option T)
  : res (list (list T)) :=
  match x with
  | XNone => Err ValueError                                     (* 38-39 *)
  | XList [] => Err ValueError                                  (* 40-41 *)
  | XList xs | XArr xs =>
      match fp with
      | Fp1 f => let! y := np_interp xs xp f left right in Ok [y]      (* 46-47 *)
      | Fp2 [] => Err ValueError           (* np.vstack of an empty list, 49-51 *)
      | Fp2 fs => mapM (fun f => np_interp xs xp f left right) fs      (* 49-51 *)
      end
  end.

End Numpy.
Arguments mi_x T : clear implicits.
Arguments mi_fp T : clear implicits.
