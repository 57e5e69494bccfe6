(** The plate and CHS formulas of beamdesign/codecheck/as4100/as4100_sect_props.py (lines 227-334) as the
    Python text has them, operation by operation, over an arbitrary [Num].  On the reals they are the
    functions of SectProps.v (NumSectFacts.v); here they can also be run on doubles.  [x ** y] is the oracle
    [pw].  [s6_2_A_e_CHS] only raises (see SectProps.v) and is left out. *)

From Coq Require Import ZArith List Bool.
From Verif Require Import Base Num.
Open Scope Z_scope.

Section Sect.
Context {T : Type} {NT : Num T}.

(** Lines 241-252. *)
Definition ns6_2_lambda_e_CHS (d_o t f_y f_ref : T) : res T :=
  let! s := pydiv d_o t in
  let! q := pydiv f_y f_ref in
  Ok (nmul s q).

(** Lines 255-266. *)
Definition ns6_2_b_e_flatplate (b lambda_e lambda_ey : T) : res T :=
  let! q := pydiv lambda_ey lambda_e in
  Ok (pymin (nmul b q) b).

(** Lines 326-334. *)
Definition ns6_2_k_f_Form_Factor (A_n A_e : T) : res T := pydiv A_e A_n.

Variable pw : T -> T -> res T.

(** Lines 227-238. *)
Definition ns6_2_lambda_e_flatplate (b t f_y f_ref : T) : res T :=
  let! s := pydiv b t in
  let! q := pydiv f_y f_ref in
  let! r := pw q (nflt 1 2) in
  Ok (nmul s r).

(** Lines 269-283. *)
Definition ns6_2_d_e_CHS (d_o lambda_e lambda_ey : T) : res T :=
  let! q := pydiv lambda_ey lambda_e in
  let! r := pw q (nflt 1 2) in
  let d_e1 := nmul d_o r in                                         (* 280 *)
  let! q3 := pydiv (nmul (nint 3) lambda_ey) lambda_e in
  let! s := pw q3 (nint 2) in
  let d_e2 := nmul d_o s in                                         (* 281 *)
  Ok (pymin (pymin d_e1 d_e2) d_o).                                 (* 283 *)

(** Lines 286-302. *)
Definition ns6_2_A_e_flatplate (b t f_y lambda_ey f_ref : T) : res T :=
  let! le := ns6_2_lambda_e_flatplate b t f_y f_ref in
  let! be := ns6_2_b_e_flatplate b le lambda_ey in
  Ok (nmul be t).

End Sect.
