(** Ways of describing the same beam differently: in other units, in the other direction,
    in two parts.  Vocabulary of C99-C101. *)

From Coq Require Import ZArith Reals List.
From Verif Require Import Base Num RNum Numpy LoadCase Beam BeamSpec Sanity Material AS4100.
Import ListNotations.
Open Scope R_scope.

(** Rows reported [x] further along. *)
Definition shifted (x : R) (rows : list (orow R)) : list (orow R) := map (fun r => (fst r + x, snd r)) rows.

(** The same beam with its lengths multiplied by [k] (metres to millimetres: k = 1000); a
    position argument, a location, rows and a code check object in the new unit. *)
Definition in_units {Sec} (k : R) (b : beam_t R Sec) : beam_t R Sec :=
  map (fun e => mk_elem (option_map (Rmult k) (elength e)) (esection e) (eloads e)) b.
Definition pos_units (k : R) (p : pos_arg R) : pos_arg R :=
  match p with PosNone => PosNone | PosNum x => PosNum (k * x) | PosList l => PosList (map (Rmult k) l) end.
Definition loc_units (k : R) (t : location R) : location R := (k * fst (fst t), snd (fst t), snd t).
Definition rows_units (k : R) (rows : list (orow R)) : list (orow R) := map (fun r => (k * fst r, snd r)) rows.
Definition cc_units (k : R) (a : as4100 R) : as4100 R :=
  mk_as4100 (option_map (in_units k) (cc_beam a)) (cc_section a) (assessment_points a)
    (cc_as_sections a) (phi_steel a) (alpha_u a) (k_t a).

(** The same load table, element and beam described from the other end; positions, rows
    and a position argument seen from the end of something [len] long. *)
Definition mirror_table (rows : list (lrow R)) : list (lrow R) := rev (map (move (fun x => 1 - x)) rows).
Definition mirror_elem {Sec} (e : elem R Sec) : elem R Sec :=
  mk_elem (elength e) (esection e) (map (fun cl => (fst cl, option_map mirror_table (snd cl))) (eloads e)).
Definition mirror_beam {Sec} (b : beam_t R Sec) : beam_t R Sec := rev (map mirror_elem b).
Definition mirror_rows (len : R) (rows : list (orow R)) : list (orow R) :=
  rev (map (fun r => (len - fst r, snd r)) rows).
Definition mirror_pos (len : R) (p : pos_arg R) : pos_arg R :=
  match p with PosNone => PosNone | PosNum x => PosNum (len - x) | PosList l => PosList (map (Rminus len) l) end.

(** The table [rows] has a row at 0 and one at 1. *)
Definition whole (rows : list (lrow R)) : Prop :=
  exists r0 rest r1, (rows = r0 :: rest) /\ (exists l, rows = l ++ [r1]) /\ lpos r0 = 0 /\ lpos r1 = 1.

(** Elements without length have whole tables (load case [c]). *)
Definition joints_whole {Sec} (b : beam_t R Sec) (c : Z) : Prop :=
  forall e rows, In e b -> elength e = Some 0 -> dict_get c (eloads e) = Ok (Some rows) -> whole rows.
