(** C26 (stored loads), C84, C85: where the arrays are stored.  The vocabulary is
    ArraySpec.v; all theorems hold for any numbers. *)

From Coq Require Import ZArith List Bool String.
From Verif Require Import Base Num PyNum Numpy LoadCase Beam Material AS4100 ArrayHeap
  ArraySpec ArrayProofs AS4100Cases ArrayCases.
Import ListNotations.
Open Scope Z_scope.

(** C26: get_tension clips a new array in place; every array that existed is as before. *)
Theorem C26_stored_loads_unchanged :
  forall T (NT : Num T) qs (h : heap T) a v lc position mp,
  check_of h a = Some v ->
  (forall m b, nth_error h m = Some b ->
     nth_error (snd (get_tensionH qs a lc position mp h)) m = Some b) /\
  match fst (get_tensionH qs a lc position mp h), get_tension qs v lc position mp with
  | Ok x, Ok rows =>
      content (snd (get_tensionH qs a lc position mp h)) x = Some (map orow_cells rows) /\
      nth_error h (a_buf x) = None
  | Err e, Err e' => e = e'
  | _, _ => False
  end.
Proof. exact @tension_in_memory. Qed.
Print Assumptions C26_stored_loads_unchanged.

Example C26_memory_case : check_of bar_memory bar_checkH = Some (bar_check (fl 3 1) (fl (-7) 1)).
Proof. exact bar_in_memory. Qed.

(** C84: in any session of queries and of writes into the arrays they returned, every query
    answers what the pure models say of the load cases as they were at the start. *)
Theorem C84_queries_are_pure :
  forall T (NT : Num T) qs (h0 : heap T) ss,
  Forall (only_asks h0) ss ->
  forall i s, nth_error ss i = Some s ->
  exists o, nth_error (session qs ss [] h0) i = Some o /\
    (forall c, sound_case h0 c -> case_of (memory o) c = case_of h0 c) /\
    forall q, s = Ask q -> exists v, says qs h0 q = Some v /\ reads_as o v.
Proof. exact @asks_are_pure. Qed.
Print Assumptions C84_queries_are_pure.

(** The constructor copies: the table is in a buffer no earlier array uses. *)
Theorem C84_constructor_copies :
  forall T (NT : Num T) (inp : load_input T) (h : heap T),
  match load_case inp with
  | Ok lc => exists c h', load_caseH inp h = (Ok c, h') /\ case_of h' c = Some lc /\
      (forall m, c = Some m -> nth_error h m = None) /\
      (forall m b, nth_error h m = Some b -> nth_error h' m = Some b)
  | Err e => load_caseH inp h = (Err e, h)
  end.
Proof. exact @load_caseH_ok. Qed.
Print Assumptions C84_constructor_copies.

Example C84_case : Forall (only_asks bar_memory) bar_session.
Proof. exact bar_asks. Qed.

(** C85 is false: writing into the array of [loads] changes later answers, and writing into
    that of [load_positions] leaves a table the constructor would refuse. *)
Theorem C85_loads_exposed_refuted :
  (says stable_argsort ends_memory (QLoad (Some 0%nat) (PosNum (fl 0 1)) None (CStr "N"))
    = Some (Ok (VRows (Some [(fl 0 1, [Some (fl 10 1)])]))) /\
   exists o, nth_error (session stable_argsort rude_session [] ends_memory) 2 = Some o /\
    reads_as o (Ok (VRows (Some [(fl 0 1, [Some (fl 5 1)])])))) /\
  exists o rows, nth_error (session stable_argsort rude_session [] ends_memory) 4 = Some o /\
    case_of (memory o) (Some 0%nat) = Some (Some rows) /\
    load_case (InRows (map lrow_list rows)) = Err AssertionError.
Proof. exact (conj rude_refuted rude_table). Qed.
Print Assumptions C85_loads_exposed_refuted.

Example C85_made :
  load_caseH (InRows [lrow_list (row_N (fl 0 1) (fl 10 1)); lrow_list (row_N (fl 1 1) (fl 20 1))]) []
  = (Ok (Some 0%nat), firstn 1 ends_memory).
Proof. exact ends_made. Qed.

(** What holds: such writes reach only the load case the array was taken from. *)
Theorem C85_others_unaffected_partial :
  forall T (NT : Num T) qs (h0 : heap T) c ss,
  Forall (takes_only c h0) ss ->
  forall i s, nth_error ss i = Some s ->
  exists o, nth_error (session qs ss [] h0) i = Some o /\
    (forall c', sound_case h0 c' -> c' <> c -> case_of (memory o) c' = case_of h0 c') /\
    forall q, s = Ask q -> exists v, says qs h0 q = Some v /\ reads_as o v.
Proof. exact @others_are_pure. Qed.
Print Assumptions C85_others_unaffected_partial.

Example C85_case : Forall (takes_only (Some 0%nat) ends_memory)
  (firstn 2 rude_session ++ skipn 3 rude_session).
Proof. exact rude_takes. Qed.
