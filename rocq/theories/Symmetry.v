(** Model of beamdesign/utility/symmetry.py. *)

From Coq Require Import Reals List Bool String.
From Verif Require Import Base.
Import ListNotations.
Open Scope string_scope.

(** symmetry.py lines 24-32, 73-92: a Symmetry object is its [axes]: None (the default)
    or a list whose entries are strings or angles (numbers).  (A plain string argument
    would behave as the list of its characters; not modelled.) *)
Inductive axis : Type := AxStr (s : string) | AxAngle (a : R).
Definition symmetry_t : Type := option (list axis).

(** [entry == "s"]: a number never equals a string. *)
Definition axis_is (s : string) (a : axis) : bool :=
  match a with AxStr t => String.eqb t s | AxAngle _ => false end.
Definition axis_in (s : string) (l : list axis) : bool := existsb (axis_is s) l.

(** symmetry.py lines 40-71: [symmetry]; [len(None)] is a TypeError. *)
Inductive symclass : Type := SymNone | SymDouble | SymPoint | SymSingle.

Definition symmetry (s : symmetry_t) : res symclass :=
  match s with
  | None => Err TypeError
  | Some axes =>
      if Nat.eqb (List.length axes) 0 then Ok SymNone               (* 58-59 *)
      else if Nat.eqb (List.length axes) 2 && axis_in "x" axes && axis_in "y" axes
      then Ok SymDouble                                             (* 60-61 *)
      else if Nat.eqb (List.length axes) 1
              && (existsb (axis_is "point") axes || existsb (axis_is "Point") axes
                  || existsb (axis_is "POINT") axes)
      then Ok SymPoint                                              (* 62-67 *)
      else if Nat.eqb (List.length axes) 1 then Ok SymSingle        (* 68-69 *)
      else Ok SymNone                                               (* 70-71 *)
  end.

(** symmetry.py lines 94-101: [symcount]. *)
Definition symcount (s : symmetry_t) : res nat :=
  match s with None => Err TypeError | Some l => Ok (List.length l) end.
