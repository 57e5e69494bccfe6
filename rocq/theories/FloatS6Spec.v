(** Vocabulary for the properties about rounding in the torsional buckling formulas of S6. *)

From Coq Require Import ZArith Reals List String.
From Verif Require Import Base Num PyNum FloatSpec FloatValSpec FloatUtilSpec FloatFormulaSpec Symmetry NumS6.
Import ListNotations.
Open Scope R_scope.

(** What is assumed about Python's [x ** y] where arguments may also vanish or be negative, or the base
    is the literal 0.658: the errors of [good_pow], or an absolute error far below any size that occurs;
    a negative number has no real square root. *)
Record full_pow (pw : pynum -> pynum -> res pynum) : Prop := mk_full_pow {
  full_good : good_pow pw;
  full_square : forall x, finite_double x -> Rabs (val x) <= powerRZ 2 500 ->
    exists r, pw x (PInt 2) = Ok r /\ finite_double r /\
      Rabs (val r - val x ^ 2) <= powerRZ 2 (-51) * val x ^ 2 + powerRZ 2 (-1000);
  full_root : forall x, finite_double x -> 0 <= val x <= powerRZ 2 1000 ->
    exists r, pw x (fl 1 2) = Ok r /\ finite_double r /\
      Rabs (val r - sqrt (val x)) <= powerRZ 2 (-51) * sqrt (val x) + powerRZ 2 (-500);
  full_complex : forall x, finite_double x -> val x < 0 -> pw x (fl 1 2) = Err EComplex;
  full_exp : forall y, finite_double y -> 0 <= val y <= 3 ->
    exists r, pw (fl 658 1000) y = Ok r /\ accurate 51 r (Rpower (val (fl 658 1000)) (val y)) }.

(** The formulas in exact arithmetic: the elastic buckling stresses in bending, in torsion, and in both
    (AS 4600 section 3.4.3), and the nominal stress for a yield stress [fy] and an elastic stress [fo]. *)
Definition euler_stress (E l r : R) : R := PI ^ 2 * E / (l / r) ^ 2.
Definition torsion_stress (A l r2 J Iw E G : R) : R :=
  G * J / (A * r2) * (1 + PI ^ 2 * E * Iw / (G * J * l ^ 2)).
Definition coupled_stress (b fx fz : R) : R :=
  (fx + fz - sqrt ((fx + fz) ^ 2 - 4 * b * fx * fz)) / (2 * b).
Definition nominal_stress (fy fo : R) : R :=
  if Rle_dec (sqrt (fy / fo)) (3 / 2) then fy * Rpower (658 / 1000) (fy / fo) else 877 / 1000 * fo.

(** [x] is a finite float within 2^-d times [S] of [X]. *)
Definition within (d : Z) (S : R) (x : pynum) (X : R) : Prop :=
  finite_double x /\ Rabs (val x - X) <= powerRZ 2 (- d) * S.

(** The modified slenderness of a member of effective length [l]. *)
Definition slenderness (l r kf fy ref : R) : R := l / r * sqrt kf * sqrt (fy / ref).

(** The inputs of s6_1_1_Nc: section, length, effective length factors, reference stress, section
    constant and reduction factor. *)
Definition column_inputs (q : nsect pynum) (l kx ky ref ab phi : pynum) : Prop :=
  Forall moderate [w_A_n q; w_k_f q; w_r_x q; w_r_y q; w_f_y q; l; kx; ky; ref; phi] /\
  finite_double ab /\ -1 <= val ab <= 1.
Definition torsion_inputs (q : nsect pynum) (kz un : pynum) : Prop :=
  Forall moderate [w_J q; w_E q; w_G q; kz; un] /\ Forall tame [w_x_o q; w_y_o q; w_I_w q] /\
  0 <= val (w_I_w q) /\ val un <= 1.

(** The capacities in exact arithmetic: of the section, in bending about an axis, and in torsion for an
    elastic stress [fo]. *)
Definition squash_load (q : nsect pynum) : R := val (w_A_n q) * val (w_k_f q) * val (w_f_y q).
Definition axis_slenderness (q : nsect pynum) (l k r ref : pynum) : R :=
  slenderness (val l * val k) (val r) (val (w_k_f q)) (val (w_f_y q)) (val ref).
Definition flexural_capacity (q : nsect pynum) (l k r ref ab : pynum) : R :=
  Rmin (squash_load q) (squash_load q * member_factor (axis_slenderness q l k r ref) (val ab)).
Definition torsional_capacity (q : nsect pynum) (un : pynum) (fo : R) : R :=
  val un * (val (w_A_n q) * val (w_k_f q)) * nominal_stress (val (w_f_y q)) fo.

(** The elastic stresses of a column in exact arithmetic. *)
Definition polar_square (q : nsect pynum) : R :=
  val (w_r_x q) ^ 2 + val (w_r_y q) ^ 2 + val (w_x_o q) ^ 2 + val (w_y_o q) ^ 2.
Definition bending_stress (q : nsect pynum) (l k r : pynum) : R := euler_stress (val (w_E q)) (val l * val k) (val r).
Definition twisting_stress (q : nsect pynum) (l k : pynum) : R :=
  torsion_stress (val (w_A_n q)) (val l * val k) (polar_square q) (val (w_J q)) (val (w_I_w q)) (val (w_E q)) (val (w_G q)).
Definition coupling (q : nsect pynum) (o : pynum) : R := 1 - val o ^ 2 / polar_square q.

(** Two stresses apart by a thousandth of their sum but not by more than a factor 512; and the elastic
    stress [fo] of a column by the symmetry of its section. *)
Definition separate (f g : R) : Prop :=
  powerRZ 2 (-180) <= f <= powerRZ 2 180 /\ powerRZ 2 (-180) <= g <= powerRZ 2 180 /\ f <= 512 * g /\ g <= 512 * f /\
  (f + g) / 1024 <= Rabs (f - g).
Inductive elastic (q : nsect pynum) (l kx ky kz : pynum) : symmetry_t -> R -> Prop :=
| elastic_double sym : symmetry sym = Ok SymDouble -> 2 * val (w_x_o q) ^ 2 <= polar_square q ->
    separate (bending_stress q l kx (w_r_x q)) (twisting_stress q l kz) ->
    elastic q l kx ky kz sym (coupled_stress (coupling q (w_x_o q)) (bending_stress q l kx (w_r_x q)) (twisting_stress q l kz))
| elastic_x : 2 * val (w_x_o q) ^ 2 <= polar_square q ->
    separate (bending_stress q l kx (w_r_x q)) (twisting_stress q l kz) ->
    elastic q l kx ky kz (Some [AxStr "x"])
      (coupled_stress (coupling q (w_x_o q)) (bending_stress q l kx (w_r_x q)) (twisting_stress q l kz))
| elastic_y : 2 * val (w_y_o q) ^ 2 <= polar_square q ->
    separate (bending_stress q l ky (w_r_y q)) (twisting_stress q l kz) ->
    elastic q l kx ky kz (Some [AxStr "y"])
      (coupled_stress (coupling q (w_y_o q)) (bending_stress q l ky (w_r_y q)) (twisting_stress q l kz))
| elastic_point sym : symmetry sym = Ok SymPoint -> powerRZ 2 (-180) <= twisting_stress q l kz <= powerRZ 2 180 ->
    elastic q l kx ky kz sym (twisting_stress q l kz).
