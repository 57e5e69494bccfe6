(** Materials that can be compared, sections with equal materials, elements that differ in
    their sections only. *)

From Coq Require Import ZArith Reals List Bool String.
From Verif Require Import Base Num RNum LoadCase Beam Material.
Import ListNotations.

Section MatSpec.
Context {T : Type} {NT : Num T} (ok : T -> Prop).

(** A value inside the model, with numbers that are [ok] (not NaN). *)
Definition tval_ok (v : tval T) : Prop :=
  match v with
  | TStr _ => True | TNum x => ok x | TTable t => Forall (Forall ok) t | TOther => False
  end.
Definition mat_ok (m : material T) : Prop :=
  mtype m <> None /\ tval_ok (mname m) /\ tval_ok (mstandard m)
  /\ NoDup (map fst (mprops m)) /\ Forall (fun kv => tval_ok (snd kv)) (mprops m).
End MatSpec.

(** Elements with the same length and the same loads. *)
Definition same_frame {T S S'} (e : elem T S) (e' : elem T S') : Prop :=
  elength e' = elength e /\ eloads e' = eloads e.

(** The same section, or bars of the same radius whose materials are equal ([==]). *)
Inductive alike : option (section R) -> option (section R) -> Prop :=
| alike_same s : alike s s
| alike_equal r m m' : NoDup (map fst (mprops m)) -> NoDup (map fst (mprops m')) ->
    mat_eqb m m' = true -> alike (Some (SCircle r (Some m))) (Some (SCircle r (Some m'))).
