(** Model of the listing accessors of loadcase.py and beam.py that no other routine uses. *)

From Coq Require Import ZArith List.
From Verif Require Import Base Num Numpy LoadCase Beam.
Import ListNotations.

Section Listing.
Context {T : Type} {NT : Num T} {S : Type}.

(** loadcase.py lines 62-70: [num_positions]. *)
Definition num_positions (lc : lcase T) : res nat :=
  let! ps := load_positions lc in Ok (List.length ps).

(** loadcase.py lines 125-156: [_get_input_loads].  [None.value] and [list.value] are
    AttributeErrors. *)
Definition input_loads (lc : lcase T) (component : comp_arg) : res (option (list (orow T))) :=
  match lc with
  | None => Ok None                                                 (* 143-144 *)
  | Some rows =>
      let! c := match component with                                (* 149-153 *)
                | CStr s => comp_of_name s
                | CInt z => comp_of_value z
                | CEnum c => Ok c
                | CNone | CList _ => Err AttributeError
                end in
      Ok (Some (map (pick [c]) rows))                               (* 156 *)
  end.

(** beam.py lines 146-154: [no_elements]; 156-168: [no_load_cases]. *)
Definition no_elements (b : beam_t T S) : nat := List.length b.
Definition no_load_cases (b : beam_t T S) : res nat :=
  match b with e :: _ => Ok (el_no_load_cases e) | [] => Err IndexError end.

End Listing.
