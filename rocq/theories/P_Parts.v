(** C146: a tension check over several load cases and positions is the worst of the separate checks. *)

From Coq Require Import ZArith Reals List Bool.
From Verif Require Import Base Num RNum PyNum Numpy LoadCase Beam Material AS4100 AS4100Cases Parts PartsCases.
Import ListNotations.

(** On Python numbers, for any oracle of argsort: if every separate check answers with a number other than NaN, the joint
    check answers with one of these answers, and none is larger. *)
Theorem C146_worst :
  forall (qs : argsort_oracle pynum) (a : as4100 pynum) (cs : list Z) (ps : list pynum), cs <> [] -> ps <> [] ->
  (forall c p, In c cs -> In p ps -> exists v, tension_utilisation qs a (LCInt c) (PosList [p]) = Ok v /\ nisnan v = false) ->
  exists u, tension_utilisation qs a (LCList cs) (PosList ps) = Ok u /\
    (exists c p, In c cs /\ In p ps /\ tension_utilisation qs a (LCInt c) (PosList [p]) = Ok u) /\
    forall c p v, In c cs -> In p ps -> tension_utilisation qs a (LCInt c) (PosList [p]) = Ok v -> nleb v u = true.
Proof. exact (joint_worst py_order). Qed.
Print Assumptions C146_worst.

(** The same in exact arithmetic. *)
Theorem C146_worst_exact :
  forall (qs : argsort_oracle R) (a : as4100 R) (cs : list Z) (ps : list R), cs <> [] -> ps <> [] ->
  (forall c p, In c cs -> In p ps -> exists v, tension_utilisation qs a (LCInt c) (PosList [p]) = Ok v) ->
  exists u, tension_utilisation qs a (LCList cs) (PosList ps) = Ok u /\
    (exists c p, In c cs /\ In p ps /\ tension_utilisation qs a (LCInt c) (PosList [p]) = Ok u) /\
    forall c p v, In c cs -> In p ps -> tension_utilisation qs a (LCInt c) (PosList [p]) = Ok v -> (v <= u)%R.
Proof. exact worst_exact. Qed.
Print Assumptions C146_worst_exact.

(** A refusal of the joint check is that of one of the separate checks, for any arithmetic. *)
Theorem C146_refusal :
  forall (T : Type) (NT : Num T) (qs : argsort_oracle T) (a : as4100 T) (cs : list Z) (ps : list T) (e : exn),
  cs <> [] -> ps <> [] -> tension_utilisation qs a (LCList cs) (PosList ps) = Err e ->
  exists c p, In c cs /\ In p ps /\ tension_utilisation qs a (LCInt c) (PosList [p]) = Err e.
Proof. exact (fun T NT qs a => @joint_error T NT qs a). Qed.
Print Assumptions C146_refusal.

(** Checking fewer load cases at fewer positions, in any order and with repetitions, never reports more; in particular the
    order and repetitions of the lists do not matter. *)
Theorem C146_more :
  forall (qs : argsort_oracle pynum) (a : as4100 pynum) (cs : list Z) (ps : list pynum) (cs' : list Z) (ps' : list pynum)
    (u' : pynum), cs <> [] -> ps <> [] -> incl cs cs' -> incl ps ps' ->
  (forall c p, In c cs' -> In p ps' -> exists v, tension_utilisation qs a (LCInt c) (PosList [p]) = Ok v /\ nisnan v = false) ->
  tension_utilisation qs a (LCList cs') (PosList ps') = Ok u' ->
  exists u, tension_utilisation qs a (LCList cs) (PosList ps) = Ok u /\ nleb u u' = true.
Proof. exact (joint_more py_order). Qed.
Print Assumptions C146_more.

(** A bar of 20 mm under a force of 1 MN at mid span in load case 2 and none in load case 1. *)
Example C146_case :
  (forall c p, In c [1; 2]%Z -> In p stations ->
     exists v, tension_utilisation stable_argsort bar (LCInt c) (PosList [p]) = Ok v /\ nisnan v = false) /\
  joint_bar = true /\
  tension_utilisation stable_argsort bar (LCList [1; 2]%Z) (PosList [fl 1 1; fl 4 1]) = Err PositionNotInBeamError.
Proof.
  split; [exact bar_all|]. split; [exact bar_joint|]. exact (eq_trans (proj1 bar_outside) (proj2 bar_outside)).
Qed.
