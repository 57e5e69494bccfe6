(** Model of beamdesign/utility/exceptions.py: the class hierarchy of the exceptions, and which of them an
    [except] clause catches. *)

From Coq Require Import ZArith List.
From Verif Require Import Base.

(** Exception classes named in an [except] clause; Python's own are [CBuiltin]. *)
Inductive pyclass : Type :=
| CException
| CBuiltin (e : exn)
| CBeamDesignError
| CLoadCaseError
| CBeamError
| CElementError
| CElementLengthError
| CElementCaseError
| CPositionNotInElementError
| CPositionNotInBeamError
| CInvalidPositionError
| CMaterialError
| CInvalidThicknessError
| CCodeCheckError
| CInvalidMaterialError
| CSectionOnlyError.

(** The base class in each class statement of exceptions.py (6, 14, 22, 30, 38, 47, 55, 64, 73, 81, 89, 98, 106, 114).
    Of Python's own hierarchy only the root is kept (KeyError's base LookupError and ZeroDivisionError's and
    OverflowError's base ArithmeticError are left out). *)
Definition base_class (c : pyclass) : option pyclass :=
  match c with
  | CException => None
  | CBuiltin _ => Some CException
  | CBeamDesignError => Some CException                             (* 6 *)
  | CLoadCaseError => Some CBeamDesignError                         (* 14 *)
  | CBeamError => Some CBeamDesignError                             (* 22 *)
  | CElementError => Some CBeamError                                (* 30 *)
  | CElementLengthError => Some CElementError                       (* 38 *)
  | CElementCaseError => Some CElementError                         (* 47 *)
  | CPositionNotInElementError => Some CElementError                (* 55 *)
  | CPositionNotInBeamError => Some CBeamError                      (* 64 *)
  | CInvalidPositionError => Some CBeamError                        (* 73 *)
  | CMaterialError => Some CBeamDesignError                         (* 81 *)
  | CInvalidThicknessError => Some CMaterialError                   (* 89 *)
  | CCodeCheckError => Some CBeamDesignError                        (* 98 *)
  | CInvalidMaterialError => Some CCodeCheckError                   (* 106 *)
  | CSectionOnlyError => Some CCodeCheckError                       (* 114 *)
  end.

(** The class of an exception that the modelled code raises.  [EComplex] and [Diverges] are not exceptions; they count
    as caught by nothing but [except Exception]. *)
Definition class_of (e : exn) : pyclass :=
  match e with
  | LoadCaseError => CLoadCaseError
  | ElementError => CElementError
  | ElementLengthError => CElementLengthError
  | ElementCaseError => CElementCaseError
  | PositionNotInElementError => CPositionNotInElementError
  | PositionNotInBeamError => CPositionNotInBeamError
  | InvalidPositionError => CInvalidPositionError
  | CodeCheckError => CCodeCheckError
  | SectionOnlyError => CSectionOnlyError
  | InvalidMaterialError => CInvalidMaterialError
  | InvalidThicknessError => CInvalidThicknessError
  | MaterialError => CMaterialError
  | e => CBuiltin e
  end.

(** [issubclass(c, d)]. *)
Inductive subclass : pyclass -> pyclass -> Prop :=
| sub_same c : subclass c c
| sub_base c b d : base_class c = Some b -> subclass b d -> subclass c d.

(** [except d:] catches [e]. *)
Definition caught_by (d : pyclass) (e : exn) : Prop := subclass (class_of e) d.
