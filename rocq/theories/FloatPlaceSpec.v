(** Vocabulary for the accuracy, on doubles, of positions along a beam and of the loads there. *)

From Coq Require Import ZArith Reals List Bool Sorted.
From Verif Require Import Base Num RNum PyNum Numpy LoadCase LoadSpec Beam BeamSpec FloatSpec FloatValSpec.
Import ListNotations.
Open Scope R_scope.

(** [x] differs from [X] by at most [n] half units in the last place of [Z]. *)
Definition within (n : nat) (Z x X : R) : Prop := Rabs (x - X) <= INR n * powerRZ 2 (-53) * Z.

(** The exact lengths. *)
Definition exact_lengths (ls : list pynum) : list R := map val ls.

(** A beam of at most 2^26 elements whose lengths are doubles (not negative), not longer than 2^1000. *)
Definition ordinary_beam {Sec} (b : beam_t pynum Sec) (ls : list pynum) : Prop :=
  with_lengths b ls /\ Forall length_double ls /\ b <> [] /\ (Z.of_nat (List.length ls) <= 2 ^ 26)%Z /\
  span (exact_lengths ls) <= powerRZ 2 1000.

(** A stored row as real numbers. *)
Definition exact_row (r : lrow pynum) : lrow R :=
  mk_lrow (val (lpos r)) (val (lVX r)) (val (lVY r)) (val (lN r)) (val (lMX r)) (val (lMY r)) (val (lT r)).

(** [y] is a load [c] of the exact table at [x]: a stored one, else the interpolated one (the end
    rows count beyond the ends). *)
Definition exact_load (rows : list (lrow R)) (c : comp) (x y : R) : Prop :=
  (exists r, In r rows /\ lpos r = x /\ load_of c r = y) \/
  ((forall r, In r rows -> lpos r <> x) /\ interpolates rows c x y).

(** A sorted table of doubles, positions in [0, 1] and equal or at least 2^-500 apart, loads at most
    [Y] in size. *)
Definition ordinary_table (Y : R) (rows : list (lrow pynum)) : Prop :=
  rows <> [] /\ Forall (fun r => unit_double (lpos r) /\
    forall c, finite_double (load_of c r) /\ Rabs (val (load_of c r)) <= Y) rows /\
  StronglySorted (fun a b => nleb (lpos a) (lpos b) = true) rows /\
  (forall r r', In r rows -> In r' rows -> val (lpos r) < val (lpos r') -> powerRZ 2 (-500) <= val (lpos r') - val (lpos r)) /\
  Y <= powerRZ 2 500.

(** The local position [x] of the element [i] is the position [p] along the beam, up to [i + 4] half
    units in the last place of the far end of the element. *)
Definition place (ls : list pynum) (i : nat) (x p : R) : Prop :=
  within (i + 4) (end_of (exact_lengths ls) i)
    (start_of (exact_lengths ls) i + x * nth i (exact_lengths ls) 0) p.

(** The loads [vs] are those of the exact table at [x], up to [2^-49] of the greatest stored load. *)
Definition good_values (rows : list (lrow pynum)) (Y : R) (x : pynum) (cs : list comp) (vs : list pynum) : Prop :=
  Forall2 (fun c v => finite_double v /\ exists y, exact_load (map exact_row rows) c (val x) y /\
    Rabs (val v - y) <= powerRZ 2 (-49) * Y + powerRZ 2 (-1073)) cs vs.

(** All elements have such a table for the load case. *)
Definition ordinary_loads {Sec} (Y : R) (b : beam_t pynum Sec) (c : Z) : Prop :=
  forall e, In e b -> exists rows, dict_get c (eloads e) = Ok (Some rows) /\ ordinary_table Y rows.

(** A reported row: at the position [p] of the beam, the loads of some element at the place of [p]. *)
Definition sound_row {Sec} (Y : R) (b : beam_t pynum Sec) (ls : list pynum) (c : Z) (cs : list comp) (o : orow pynum) : Prop :=
  exists i el rows x vs, nth_error b i = Some el /\ dict_get c (eloads el) = Ok (Some rows) /\
    place ls i (val x) (val (fst o)) /\ snd o = map Some vs /\ good_values rows Y x cs vs.

(** [y] is a load [k] that the exact tables of load case [c] have at the local position [x] of
    element [i], which is the position [p]. *)
Definition load_there {Sec} (b : beam_t pynum Sec) (ls : list pynum) (c : Z) (k : comp) (p : pynum) (i : nat) (x y : R) : Prop :=
  exists el rows, nth_error b i = Some el /\ dict_get c (eloads el) = Ok (Some rows) /\
    place ls i x (val p) /\ exact_load (map exact_row rows) k x y.

(** The computed extent of element [i] contains [p]. *)
Definition extends {Sec} (b : beam_t pynum Sec) (i : nat) (p : pynum) : Prop :=
  exists ends s t, element_ends b = Ok ends /\ nth_error ends i = Some (s, Some t) /\ nleb s p = true /\ nleb p t = true.
