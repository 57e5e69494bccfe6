(** On the reals, with exact powers, the formulas of NumSect.v are those of SectProps.v. *)

From Coq Require Import ZArith Reals Lra.
From Verif Require Import Base Num RNum PyReal SectProps NumFormulasFacts NumSect.
Open Scope R_scope.

Lemma plate_slenderness_R b t f_y f_ref :
  ns6_2_lambda_e_flatplate Rpw b t f_y f_ref = s6_2_lambda_e_flatplate b t f_y f_ref.
Proof.
  unfold ns6_2_lambda_e_flatplate, s6_2_lambda_e_flatplate. rewrite ?pydiv_R.
  destruct (rdiv b t); [|reflexivity]. cbn [bind]. rewrite ?pydiv_R.
  destruct (rdiv f_y f_ref); [|reflexivity]. cbn [bind]. rewrite Rpw_half. reflexivity.
Qed.

Lemma chs_slenderness_R d t f_y f_ref : ns6_2_lambda_e_CHS d t f_y f_ref = s6_2_lambda_e_CHS d t f_y f_ref.
Proof.
  unfold ns6_2_lambda_e_CHS, s6_2_lambda_e_CHS. rewrite ?pydiv_R.
  destruct (rdiv d t); [|reflexivity]. cbn [bind]. rewrite ?pydiv_R. reflexivity.
Qed.

Lemma plate_width_R b l y : ns6_2_b_e_flatplate b l y = s6_2_b_e_flatplate b l y.
Proof. unfold ns6_2_b_e_flatplate, s6_2_b_e_flatplate. rewrite ?pydiv_R. reflexivity. Qed.

Lemma chs_diameter_R d l y : ns6_2_d_e_CHS Rpw d l y = s6_2_d_e_CHS d l y.
Proof.
  unfold ns6_2_d_e_CHS, s6_2_d_e_CHS. rewrite ?pydiv_R.
  destruct (rdiv y l); [|reflexivity]. cbn [bind]. rewrite Rpw_half.
  destruct (rroot _); [|reflexivity]. cbn [bind]. rewrite ?pydiv_R.
  change (@nmul R RNum (nint 3) y) with (3 * y). destruct (rdiv (3 * y) l); [|reflexivity].
  cbn [bind]. rewrite Rpw_2. reflexivity.
Qed.

Lemma plate_area_R b t f_y y f_ref : ns6_2_A_e_flatplate Rpw b t f_y y f_ref = s6_2_A_e_flatplate b t f_y y f_ref.
Proof.
  unfold ns6_2_A_e_flatplate, s6_2_A_e_flatplate. rewrite plate_slenderness_R.
  destruct (s6_2_lambda_e_flatplate b t f_y f_ref); [|reflexivity]. cbn [bind]. rewrite plate_width_R.
  match goal with |- context [s6_2_b_e_flatplate b ?r y] => destruct (s6_2_b_e_flatplate b r y); reflexivity end.
Qed.

Lemma form_factor_R n e : ns6_2_k_f_Form_Factor n e = s6_2_k_f_Form_Factor n e.
Proof. apply pydiv_R. Qed.
