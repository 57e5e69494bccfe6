(** What "no extreme is missed between the reported positions" means. *)

From Coq Require Import ZArith Reals List Bool String.
From Verif Require Import Base Num RNum Numpy LoadCase LoadSpec Beam BeamSpec Material AS4100 AS4100Spec.
Import ListNotations.
Open Scope R_scope.

(** The query of load case [c] shows the value [v] in its [i]-th load column. *)
Definition shows {Sec} (qs : argsort_oracle R) (b : beam_t R Sec) (c : Z) (position : pos_arg R)
  (mp : option Z) (comp : comp_arg) (i : nat) (v : R) : Prop :=
  exists rows o, beam_get_loads qs b c position mp comp = Ok (Some rows) /\ In o rows /\
    nth_error (snd o) i = Some (Some v).

(** [t] is a tension get_tension reports at [p] in load case [c]. *)
Definition tension_at (qs : argsort_oracle R) (a : as4100 R) (c : Z) (p t : R) : Prop :=
  exists rows x, get_tension qs a c (PosNum p) None = Ok rows /\ In (x, [Some t]) rows.

(** Every element has a round bar section with a positive capacity. *)
Definition sound_bars (kt au : R) (b : beam_t R (section R)) : Prop :=
  forall e, In e b -> exists r m c, esection e = Some (SCircle r (Some m)) /\ bar_capacity kt au r m c /\ 0 < c.
