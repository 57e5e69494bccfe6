(** Vocabulary for the properties that compare doubles with exact numbers. *)

From Coq Require Import ZArith Reals Floats.SpecFloat.
From Verif Require Import PyNum.
Open Scope R_scope.

(** The real number a finite Python number stands for. *)
Definition val (x : pynum) : R :=
  match x with
  | PInt z => IZR z
  | PFlt (S754_finite s m e) => (if s then -1 else 1) * IZR (Z.pos m) * powerRZ 2 e
  | PFlt _ => 0
  end.

(** The point at [x] on the line through (x1, y1) and (x2, y2). *)
Definition on_line (x1 y1 x2 y2 x : R) : R := y1 + (y2 - y1) * ((x - x1) / (x2 - x1)).
