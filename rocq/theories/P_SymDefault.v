(** C160: symmetry information that is missing or not understood (exact arithmetic). *)

From Coq Require Import Reals Lra List Bool String.
From Verif Require Import Base Num RNum PyReal Symmetry S6 S6Torsion S6Unsym S6Length S6Cases UnsymLength SymDefault.
Import ListNotations.
Open Scope R_scope.

(** C160.  Full statement: whatever axes are stored, the capacity is at most that for the section's own axes.  False: "X" is
    one axis, hence taken for an axis of symmetry, but not "x", hence taken for y ([open_section] has all three stresses
    equal to 1 and its shear centre off the centroid along x). *)
Theorem C160_refuted : forall roots,
  ~ (forall q lx ly lz axes axes' u z z', sect_ok q -> 0 < lx -> 0 < ly -> 0 < lz -> 0 < u -> fits axes q ->
     s6_3_3_N_c_torsion roots q lx ly lz (Some axes) u = Ok z ->
     s6_3_3_N_c_torsion roots q lx ly lz (Some axes') u = Ok z' -> cz_N_cz z' <= cz_N_cz z).
Proof.
  intros roots H. destruct (capital roots) as (z & z' & Hz & Hz' & L). pose proof PI_RGT_0.
  specialize (H open_section (3 / 5 * PI) (4 / 5 * PI) 1 [AxStr "x"] [AxStr "X"] (85 / 100) z z' open_ok
    ltac:(lra) ltac:(lra) ltac:(lra) ltac:(lra) (or_introl (conj eq_refl eq_refl)) Hz Hz'). lra.
Qed.
Print Assumptions C160_refuted.

(** What holds: [unrecognised] axes (none, more than two, two that are not x and y) have a capacity
    whenever the section's own axes do, and a capacity that is not larger.  [fits]: the shear centre lies on every axis of
    symmetry.  [correct_roots]: [numpy.roots] finds exactly the roots.  Missing: one axis that is not spelt "x" or "y". *)
Theorem C160_partial : forall roots q l k_ex k_ey k_ez axes axes' f_ref alpha_b uncertainty phi calc_buckling calc_torsion o,
  correct_roots roots -> sect_ok q -> 0 < l -> 0 < k_ex -> 0 < k_ey -> 0 < k_ez -> 0 < uncertainty -> 0 <= phi ->
  fits axes q -> unrecognised axes' ->
  s6_1_1_Nc roots q l k_ex k_ey k_ez (Some axes) f_ref alpha_b uncertainty phi calc_buckling calc_torsion = Ok o ->
  exists o', s6_1_1_Nc roots q l k_ex k_ey k_ez (Some axes') f_ref alpha_b uncertainty phi calc_buckling calc_torsion = Ok o'
    /\ o_N_c o' <= o_N_c o /\ o_phiN_c o' <= o_phiN_c o.
Proof. exact Nc_default. Qed.
Print Assumptions C160_partial.

(** The same for the torsional capacity alone. *)
Theorem C160_torsion_partial : forall roots q lx ly lz axes axes' u z,
  correct_roots roots -> sect_ok q -> 0 < lx -> 0 < ly -> 0 < lz -> 0 < u ->
  fits axes q -> unrecognised axes' -> s6_3_3_N_c_torsion roots q lx ly lz (Some axes) u = Ok z ->
  exists z', s6_3_3_N_c_torsion roots q lx ly lz (Some axes') u = Ok z' /\ cz_N_cz z' <= cz_N_cz z.
Proof. exact torsion_default. Qed.
Print Assumptions C160_torsion_partial.

(** The channel of C63: rated with its axis, it can also be rated without. *)
Example C160_channel : forall roots, fits [AxStr "x"] channel /\ sect_ok channel
  /\ unrecognised [] /\ unrecognised [AxStr "X"; AxStr "Y"]
  /\ exists o, s6_1_1_Nc roots channel 3 1 1 1 (Some [AxStr "x"]) 250e6 0 (85 / 100) (9 / 10) true true = Ok o.
Proof.
  intros roots. split; [left; split; reflexivity|]. split; [exact channel_ok|].
  split; [split; [discriminate|intros (H & _); discriminate]|].
  split; [split; [discriminate|intros (_ & [H|[H|[]]] & _); discriminate]|].
  exact (channel_defined roots).
Qed.
Example C160_roots : exists roots, correct_roots roots.
Proof. exact correct_roots_exist. Qed.
