(** C125-C127: the torsional buckling formulas of S6 and s6_1_1_Nc computed on IEEE doubles against exact
    arithmetic.  The vocabulary is FloatSpec.v, FloatValSpec.v, FloatUtilSpec.v ([moderate]), FloatFormulaSpec.v
    ([accurate], [tame], [member_factor]) and FloatS6Spec.v. *)

From Coq Require Import ZArith Reals List String.
From Verif Require Import Base Num PyNum FloatSpec FloatValSpec FloatUtilSpec FloatFormulaSpec FloatS6Spec Symmetry
  NumFormulas NumFormulasFacts NumS6 NumS6Facts S6 FloatPow6 FloatNc FloatNcCases.
Import ListNotations.
Open Scope R_scope.

(** Powers of the assumed quality exist. *)
Example full_powers : full_pow real_pow.
Proof. exact real_full. Qed.

(** C125, in full: s6_1_1_Nc with torsion gives a capacity for every ordinary doubly symmetric column.
    False on doubles: where the stresses in bending and in torsion all but agree, the number whose root is
    taken can come out negative.  What holds: f_oxz can only fail for stresses within a thousandth of each
    other, and otherwise is within 2^-21 of the sum of the stresses; within 2^-35 if they are further apart. *)
Theorem C125_floats_coupled_stress_partial :
  forall pw, full_pow pw -> forall A lx lz rx ry xo yo J Iw E G,
  moderate A -> moderate lx -> moderate lz -> moderate rx -> moderate ry -> tame xo -> tame yo ->
  moderate J -> tame Iw -> 0 <= val Iw -> moderate E -> moderate G ->
  let r2 := val rx ^ 2 + val ry ^ 2 + val xo ^ 2 + val yo ^ 2 in
  let FX := euler_stress (val E) (val lx) (val rx) in
  let FZ := torsion_stress (val A) (val lz) r2 (val J) (val Iw) (val E) (val G) in
  let C := coupled_stress (1 - val xo ^ 2 / r2) FX FZ in
  powerRZ 2 (-180) <= FX <= powerRZ 2 180 -> powerRZ 2 (-180) <= FZ <= powerRZ 2 180 -> 2 * val xo ^ 2 <= r2 ->
  (nf_oxz pw A lx lz rx ry xo yo J Iw E G = Err EComplex /\ Rabs (FX - FZ) < (FX + FZ) / 1024) \/
  (exists b fx fz ro f, nf_oxz pw A lx lz rx ry xo yo J Iw E G = Ok [b; fx; fz; ro; f] /\
     accurate 49 fx FX /\ accurate 48 fz FZ /\ within 21 (FX + FZ) f C /\
     ((FX + FZ) / 1024 <= Rabs (FX - FZ) -> within 35 (FX + FZ) f C)).
Proof. exact coupled_float. Qed.
Print Assumptions C125_floats_coupled_stress_partial.

(** For a shear centre at the centroid the exact coupled stress is the lesser of the two stresses. *)
Theorem C125_coupled_centroid :
  forall f g, 0 < f -> 0 < g -> coupled_stress 1 f g = Rmin f g.
Proof. exact coupled_min. Qed.
Print Assumptions C125_coupled_centroid.

Theorem C125_floats_coupled_stress_refuted :
  ~ (forall pw, full_pow pw -> forall roots q l kx ky kz ref ab un phi,
     column_inputs q l kx ky ref ab phi -> torsion_inputs q kz un ->
     135 / 10 <= axis_slenderness q l kx (w_r_x q) ref <= 1000 -> 135 / 10 <= axis_slenderness q l ky (w_r_y q) ref <= 1000 ->
     exists r, ns6_1_1_Nc pw roots q l kx ky kz (Some [AxStr "x"; AxStr "y"]) ref ab un phi true true = Ok r).
Proof. exact coupled_refuted. Qed.
Print Assumptions C125_floats_coupled_stress_refuted.

(** The column of the counterexample: 3.52 m, radii of gyration 89.1 and 51.7 mm. *)
Example C125_case : column_inputs (tube bad_J) (fl 352 100) (fl 1 1) (fl 1 1) (fl 250000000 1) (fl 5 10) (fl 9 10) /\
  torsion_inputs (tube bad_J) (fl 1 1) (fl 85 100) /\
  135 / 10 <= axis_slenderness (tube bad_J) (fl 352 100) (fl 1 1) (w_r_x (tube bad_J)) (fl 250000000 1) <= 1000 /\
  135 / 10 <= axis_slenderness (tube bad_J) (fl 352 100) (fl 1 1) (w_r_y (tube bad_J)) (fl 250000000 1) <= 1000.
Proof. exact tube_inputs. Qed.

(** C126: the torsional capacity for a given elastic stress. *)
Theorem C126_floats_torsional_capacity :
  forall pw, full_pow pw -> forall Ae fy fo un, moderate Ae -> moderate fy -> moderate fo -> moderate un ->
  let s := sqrt (val fy / val fo) in let N := nominal_stress (val fy) (val fo) in let C := val un * val Ae * N in
  exists n lc fn, nn_cz_of pw Ae fy fo un = Ok [n; fo; lc; fn] /\ accurate 50 lc s /\ accurate 11 fn N /\ accurate 11 n C /\
    (powerRZ 2 (-49) <= Rabs (s - 3 / 2) -> accurate 48 fn N /\ accurate 48 n C).
Proof. exact torsion_capacity_float. Qed.
Print Assumptions C126_floats_torsional_capacity.

Example C126_case : Forall moderate [fl 762 100000; fl 250000000 1; fl 769000000 1; fl 85 100].
Proof. mods. Qed.

(** C127: s6_1_1_Nc, for members of any slenderness up to 1000 that is not extremely small (see
    C124_covered).  Without the torsion check every capacity is within 2^-36 of the section capacity
    (and every design capacity within 2^-35 of the design section capacity). *)
Theorem C127_floats_compression_flexural :
  forall pw, full_pow pw -> forall roots q l kx ky kz sym ref ab un phi,
  column_inputs q l kx ky ref ab phi ->
  usual_slenderness (axis_slenderness q l kx (w_r_x q) ref) (val ab) -> usual_slenderness (axis_slenderness q l ky (w_r_y q) ref) (val ab) ->
  let S := squash_load q in
  let X := flexural_capacity q l kx (w_r_x q) ref ab in let Y := flexural_capacity q l ky (w_r_y q) ref ab in
  exists s ps x px y py c pc,
  ns6_1_1_Nc pw roots q l kx ky kz sym ref ab un phi true false =
    Ok [Some s; Some ps; Some x; Some px; Some y; Some py; None; None; Some c; Some pc] /\
  within 50 S s S /\ within 36 S x X /\ within 36 S y Y /\ within 36 S c (Rmin X Y) /\
  within 35 (val phi * S) ps (val phi * S) /\ within 35 (val phi * S) px (val phi * X) /\ within 35 (val phi * S) py (val phi * Y) /\
  within 35 (val phi * S) pc (val phi * Rmin X Y).
Proof. exact nc_flexural. Qed.
Print Assumptions C127_floats_compression_flexural.

(** With it, for symmetric sections whose elastic stresses in bending and torsion are apart: within 2^-10
    of the section capacity, and within 2^-22 away from the slenderness 1.5 where the formula changes. *)
Theorem C127_floats_compression_torsional :
  forall pw, full_pow pw -> forall roots q l kx ky kz sym ref ab un phi FO,
  column_inputs q l kx ky ref ab phi -> torsion_inputs q kz un ->
  usual_slenderness (axis_slenderness q l kx (w_r_x q) ref) (val ab) -> usual_slenderness (axis_slenderness q l ky (w_r_y q) ref) (val ab) ->
  elastic q l kx ky kz sym FO ->
  let S := squash_load q in
  let X := flexural_capacity q l kx (w_r_x q) ref ab in let Y := flexural_capacity q l ky (w_r_y q) ref ab in
  let Z := torsional_capacity q un FO in
  exists s ps x px y py z pz c pc,
  ns6_1_1_Nc pw roots q l kx ky kz sym ref ab un phi true true =
    Ok [Some s; Some ps; Some x; Some px; Some y; Some py; Some z; Some pz; Some c; Some pc] /\
  within 50 S s S /\ within 36 S x X /\ within 36 S y Y /\
  forall d, d = 10%Z \/ d = 22%Z /\ powerRZ 2 (-20) <= Rabs (sqrt (val (w_f_y q) / FO) - 3 / 2) ->
    within d S z Z /\ within d S c (Rmin (Rmin X Y) Z) /\
    within (d - 1) (val phi * S) pz (val phi * Z) /\ within (d - 1) (val phi * S) pc (val phi * Rmin (Rmin X Y) Z).
Proof. exact compression_float. Qed.
Print Assumptions C127_floats_compression_torsional.

(** A member 3 m long with exactly representable dimensions meets all hypotheses. *)
Example C127_case : column_inputs plain (fl 3 1) (fl 1 1) (fl 1 1) (fl 250000000 1) (fl 5 10) (fl 9 10) /\
  torsion_inputs plain (fl 1 1) (fl 85 100) /\
  usual_slenderness (axis_slenderness plain (fl 3 1) (fl 1 1) (w_r_x plain) (fl 250000000 1)) (val (fl 5 10)) /\
  usual_slenderness (axis_slenderness plain (fl 3 1) (fl 1 1) (w_r_y plain) (fl 250000000 1)) (val (fl 5 10)) /\
  elastic plain (fl 3 1) (fl 1 1) (fl 1 1) (fl 1 1) (Some [AxStr "x"; AxStr "y"]) (80000000000 / 104) /\
  powerRZ 2 (-20) <= Rabs (sqrt (val (w_f_y plain) / (80000000000 / 104)) - 3 / 2).
Proof. exact plain_case. Qed.

(** So does a stub 75 cm long, for the part without torsion. *)
Example C127_stub_case : column_inputs plain (fl 75 100) (fl 1 1) (fl 1 1) (fl 250000000 1) (fl 5 10) (fl 9 10) /\
  usual_slenderness (axis_slenderness plain (fl 75 100) (fl 1 1) (w_r_x plain) (fl 250000000 1)) (val (fl 5 10)) /\
  usual_slenderness (axis_slenderness plain (fl 75 100) (fl 1 1) (w_r_y plain) (fl 250000000 1)) (val (fl 5 10)) /\
  axis_slenderness plain (fl 75 100) (fl 1 1) (w_r_y plain) (fl 250000000 1) < 135 / 10.
Proof. exact stub_case. Qed.

(** The program run on doubles here is, over the reals, the one the properties of S6 are proved of. *)
Theorem C127_same_program :
  forall roots q l kx ky kz sym ref ab u phi cb ct,
  ns6_1_1_Nc Rpw roots q l kx ky kz sym ref ab u phi cb ct =
    rmap nc_list (s6_1_1_Nc roots (rsect q) l kx ky kz sym ref ab u phi cb ct).
Proof. exact Nc_R. Qed.
Print Assumptions C127_same_program.
