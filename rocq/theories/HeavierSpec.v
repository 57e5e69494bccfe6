(** What it means that one beam carries more, or is weaker, than another. *)

From Coq Require Import ZArith Reals List Bool.
From Verif Require Import Base Num RNum Numpy LoadCase LoadSpec Beam BeamSpec Material AS4100 AS4100Spec.
Import ListNotations.
Open Scope R_scope.

(** Element [e'] is as long as [e], and its table for load case [c] has at least the values
    of [e] in component [k], row by row (the other components may differ). *)
Definition heavier {Sec} (k : comp) (c : Z) (e e' : elem R Sec) : Prop :=
  elength e' = elength e /\
  exists rows rows', dict_get c (eloads e) = Ok (Some rows) /\ dict_get c (eloads e') = Ok (Some rows') /\
    accepted (Some rows) /\ rows <> [] /\
    Forall2 (fun r r' => lpos r' = lpos r /\ lcomp k r <= lcomp k r') rows rows'.

(** The bar of [e'] (with the factors [kt'], [au']) has a positive capacity, at most that of
    the bar of [e] (with [kt], [au]). *)
Definition weaker_bar (kt au kt' au' : R) (e e' : elem R (section R)) : Prop :=
  exists r m x r' m' x', esection e = Some (SCircle r (Some m)) /\ bar_capacity kt au r m x /\
    esection e' = Some (SCircle r' (Some m')) /\ bar_capacity kt' au' r' m' x' /\ 0 < x' <= x.

(** Results with one load column: the same positions, and no value of [out] above the
    corresponding one of [out']. *)
Definition below (out out' : list (orow R)) : Prop :=
  Forall2 (fun o o' => fst o' = fst o /\ exists v v', snd o = [Some v] /\ snd o' = [Some v'] /\ v <= v') out out'.
