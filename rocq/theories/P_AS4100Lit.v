(** C158: the filters at the end of [tension_utilisation] discard nothing. *)

From Coq Require Import ZArith Reals List Bool.
From Verif Require Import Base Num RNum PyNum Numpy LoadCase Beam Material AS4100 AS4100Spec AS4100Cases AS4100Lit.
Import ListNotations.

(** C158: with the three result lists and both filters as they stand in the source, [tension_utilisation] returns the
    greatest of all computed utilisations, or raises what the loops raise: the filters drop none, for any arithmetic
    (exact, or Python's floats and ints), any beam, load cases and positions (also repeated, unsorted or empty lists). *)
Theorem C158_filters_keep_everything :
  forall (T : Type) (N : Num T) (ident : T -> T -> bool), (forall x, ident x x = true) ->
  forall (qs : argsort_oracle T) (a : as4100 T) (load_case : lc_arg) (position : pos_arg T),
  tension_utilisation_lit ident qs a load_case position = tension_utilisation qs a load_case position.
Proof. intros T N. exact lit_same. Qed.
Print Assumptions C158_filters_keep_everything.

(** What the filters do: they keep the utilisations whose key is wanted. *)
Theorem C158_filter_meaning :
  forall (T K : Type) (keep : K -> bool) (keys : list K) (vals : list T), List.length keys = List.length vals ->
  pick keep keys vals = Ok (map snd (filter (fun kv => keep (fst kv)) (combine keys vals))).
Proof. intros T K. exact pick_filter. Qed.
Print Assumptions C158_filter_meaning.
Example C158_filter_drops : pick (fun k => Z.eqb k 2) [1; 2; 1; 2]%Z [5; 6; 7; 8]%Z = Ok [6; 8]%Z.
Proof. reflexivity. Qed.

(** A bar with a load on it, checked at two positions given as a list, all load cases; and for one load case at all
    positions. *)
Example C158_bar : exists u v,
  tension_utilisation_lit py_eqb stable_argsort (bar_check (fl 3 1) (fl 1000000 1)) LCNone (PosList [fl 3 2; fl 1 1]) = Ok u
  /\ tension_utilisation_lit py_eqb stable_argsort (bar_check (fl 3 1) (fl 1000000 1)) (LCInt 2) PosNone = Ok v
  /\ nltb (nint 12) v = true.
Proof. eexists. eexists. split; [vm_compute; reflexivity|]. split; [vm_compute; reflexivity|]. vm_compute. reflexivity. Qed.
