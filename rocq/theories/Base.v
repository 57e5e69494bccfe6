(** Shared vocabulary: Python exceptions as values, the result monad, the
    enumerations of [beamdesign/const.py]. *)

From Coq Require Import ZArith List String Bool.
Import ListNotations.
Open Scope Z_scope.

(** Python exception classes that the modelled code can raise.  The project's own
    classes are those of beamdesign/utility/exceptions.py.  [EComplex] is not an
    exception: Python's [negative ** 0.5] silently yields a complex number, which the
    numeric model cannot carry, so it is made a distinguished outcome.  [Diverges]
    marks an exhausted recursion budget (Python would keep looping). *)
Inductive exn : Type :=
| AssertionError
| KeyError
| ValueError
| TypeError
| IndexError
| AttributeError
| ZeroDivisionError
| NotImplementedError
| OverflowError
| LoadCaseError
| ElementError
| ElementLengthError
| ElementCaseError
| PositionNotInElementError
| PositionNotInBeamError
| InvalidPositionError
| CodeCheckError
| SectionOnlyError
| InvalidMaterialError
| InvalidThicknessError
| MaterialError
| EComplex
| Diverges.

Inductive res (A : Type) : Type :=
| Ok (a : A)
| Err (e : exn).
Arguments Ok {A} a.
Arguments Err {A} e.

Definition bind {A B} (m : res A) (f : A -> res B) : res B :=
  match m with Ok a => f a | Err e => Err e end.

Notation "'let!' x ':=' e 'in' k" :=
  (bind e (fun x => k)) (at level 200, x pattern, e at level 100, k at level 200,
    format "'[v' 'let!'  x  ':='  e  'in' '/' k ']'").

Definition rmap {A B} (f : A -> B) (m : res A) : res B :=
  match m with Ok a => Ok (f a) | Err e => Err e end.

(** Python's [[f(x) for x in l]] when [f] may raise: left to right, first error wins. *)
Fixpoint mapM {A B} (f : A -> res B) (l : list A) : res (list B) :=
  match l with
  | [] => Ok []
  | a :: r => let! b := f a in let! bs := mapM f r in Ok (b :: bs)
  end.

(** beamdesign/const.py lines 8-14: [class LoadComponents(Enum)]. *)
Inductive comp : Type := VX | VY | N | MX | MY | T_.

(** All six members in the order used by loadcase.py lines 374-381. *)
Definition all_comps : list comp := [VX; VY; N; MX; MY; T_].

(** [LoadComponents[name]] (Enum lookup by name). *)
Definition comp_of_name (s : string) : res comp :=
  if String.eqb s "VX" then Ok VX
  else if String.eqb s "VY" then Ok VY
  else if String.eqb s "N" then Ok N
  else if String.eqb s "MX" then Ok MX
  else if String.eqb s "MY" then Ok MY
  else if String.eqb s "T" then Ok T_
  else Err KeyError.

(** [LoadComponents(value)] (Enum lookup by value). *)
Definition comp_of_value (z : Z) : res comp :=
  if z =? 1 then Ok VX
  else if z =? 2 then Ok VY
  else if z =? 3 then Ok N
  else if z =? 4 then Ok MX
  else if z =? 5 then Ok MY
  else if z =? 6 then Ok T_
  else Err ValueError.

(** Python list indexing with a possibly negative integer: [l[i]]. *)
Definition py_index {A} (l : list A) (i : Z) : res A :=
  let n := Z.of_nat (List.length l) in
  let j := if i <? 0 then i + n else i in
  if (j <? 0) || (n <=? j) then Err IndexError
  else match nth_error l (Z.to_nat j) with
       | Some a => Ok a
       | None => Err IndexError
       end.

(** Python dict indexing [d[k]]; a dict is an association list with distinct keys. *)
Fixpoint dict_get {V} (k : Z) (d : list (Z * V)) : res V :=
  match d with
  | [] => Err KeyError
  | (k', v) :: r => if k =? k' then Ok v else dict_get k r
  end.
