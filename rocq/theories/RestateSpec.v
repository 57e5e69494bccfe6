(** Stating a check in other units: sections in another unit of length, strengths in
    another unit of stress, loads in other units of force and moment.  Vocabulary of C135.
    (Lengths and positions along the beam in another unit: TransformSpec.v.) *)

From Coq Require Import ZArith Reals List String.
From Verif Require Import Base Num RNum Numpy LoadCase Beam Material AS4100.
Import ListNotations.
Open Scope R_scope.

(** Section lengths are multiplied by [k], stresses by [s], the load component [c] by
    [w c]. *)
Section Units.
Variables (k s : R) (w : comp -> R).

(** The thicknesses, which come first, are lengths; the strengths are stresses. *)
Definition restate_strengths (t : list (list R)) : list (list R) :=
  match t with
  | [] => []
  | thicknesses :: strengths => map (Rmult k) thicknesses :: map (map (Rmult s)) strengths
  end.

(** The properties of a material: the table of strengths and Young's modulus have units. *)
Definition restate_property (p : string * tval R) : string * tval R :=
  (fst p,
   match snd p with
   | TTable t => if String.eqb (fst p) "strengths" then TTable (restate_strengths t) else TTable t
   | TNum x => if String.eqb (fst p) "E" then TNum (s * x) else TNum x
   | v => v
   end).

Definition restate_material (m : material R) : material R :=
  mk_material (mtype m) (mname m) (mstandard m) (map restate_property (mprops m)).

Definition restate_section (c : section R) : section R :=
  match c with
  | SCircle r m => SCircle (k * r) (option_map restate_material m)
  | SOther => SOther
  end.

Definition restate_wrapped (c : as_section R) : as_section R :=
  mk_as (k * as_radius c) (restate_material (as_material c)).

(** Positions in a load table are fractions of the element: they have no unit. *)
Definition restate_lrow (r : lrow R) : lrow R :=
  mk_lrow (lpos r) (w VX * lVX r) (w VY * lVY r) (w N * lN r) (w MX * lMX r) (w MY * lMY r) (w T_ * lT r).

Definition restate_elem (e : elem R (section R)) : elem R (section R) :=
  mk_elem (elength e) (option_map restate_section (esection e))
    (map (fun t => (fst t, option_map (map restate_lrow) (snd t))) (eloads e)).

Definition restate_beam (b : beam_t R (section R)) : beam_t R (section R) := map restate_elem b.

Definition restate_check (a : as4100 R) : as4100 R :=
  mk_as4100 (option_map restate_beam (cc_beam a)) (option_map restate_section (cc_section a))
    (assessment_points a) (map restate_wrapped (cc_as_sections a)) (phi_steel a) (alpha_u a) (k_t a).

(** An answer with the components [cs], in the new units. *)
Definition restate_row (cs : list comp) (o : orow R) : orow R :=
  (fst o, map (fun cv => option_map (Rmult (w (fst cv))) (snd cv)) (combine cs (snd o))).
End Units.

(** Newtons and newton metres to newtons and newton millimetres. *)
Definition to_mm (c : comp) : R := match c with VX | VY | N => 1 | MX | MY | T_ => 1000 end.
