(** The operations on numbers the Python code uses, as a record of functions, so that
    one model text can be run on IEEE doubles / Python ints and reasoned about in exact
    real arithmetic. *)

From Coq Require Import ZArith List Bool.
From Verif Require Import Base.
Import ListNotations.

Class Num (T : Type) : Type := {
  nint : Z -> T;                (* an int literal *)
  nflt : Z -> positive -> T;    (* a float literal num/den, e.g. 0.25 = nflt 25 100 *)
  nadd : T -> T -> T;
  nsub : T -> T -> T;
  nmul : T -> T -> T;
  ndiv : T -> T -> T;           (* IEEE / numpy division; Python's raises, see pydiv *)
  nneg : T -> T;
  nabs : T -> T;
  nleb : T -> T -> bool;        (* <= *)
  nltb : T -> T -> bool;        (* <  *)
  neqb : T -> T -> bool;        (* == *)
  nisfloat : T -> bool;         (* isinstance(x, float) *)
  nfloat : T -> T;              (* float(x), conversion into a float64 array *)
  ntrunc : T -> T;              (* assignment into an int64 array cell *)
  nisnan : T -> bool;           (* math.isnan *)
  nisinf : T -> bool;           (* math.isinf *)
  npi : T                       (* math.pi *)
}.

(** Python [x / y] on builtin numbers. *)
Definition pydiv {T} `{Num T} (x y : T) : res T :=
  if neqb y (nint 0) then Err ZeroDivisionError else Ok (ndiv x y).

(** Python [max(a, b)] and [min(a, b)]: the first argument wins ties. *)
Definition pymax {T} `{Num T} (a b : T) : T := if nltb a b then b else a.
Definition pymin {T} `{Num T} (a b : T) : T := if nltb b a then b else a.

(** Laws of the comparisons on a subset [ok] of the numbers (for floats: not NaN, and
    of type float).  Nothing is said about the arithmetic. *)
Class NumOrd (T : Type) `{Num T} (ok : T -> Prop) : Prop := {
  ord_total : forall x y, ok x -> ok y -> nleb x y = true \/ nleb y x = true;
  ord_trans : forall x y z, ok x -> ok y -> ok z ->
    nleb x y = true -> nleb y z = true -> nleb x z = true;
  ord_lt : forall x y, ok x -> ok y -> nltb x y = negb (nleb y x);
  ord_eq : forall x y, ok x -> ok y -> neqb x y = nleb x y && nleb y x;
  ord_isfloat : forall x, ok x -> nisfloat x = true;
  ord_float : forall x, nisfloat x = true -> nfloat x = x
}.
