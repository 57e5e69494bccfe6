(** Model of beamdesign/codecheck/as4100/S6.py over the reals: the numerical content
    (the [lru_cache]s and the sharing of the result dictionaries are in [S6Cache.v]). *)

From Coq Require Import ZArith Reals List Bool String.
From Verif Require Import Base Num RNum PyReal Symmetry.
Import ListNotations.
Open Scope R_scope.

(** Lines 39-49, 52-61, 71-80. *)
Definition s6_2_A_e (A_n k_f : R) : R := A_n * k_f.
Definition s6_2_N_s (A_e f_y : R) : R := A_e * f_y.
Definition s6_3_2_l_e (l k_e : R) : R := l * k_e.

(** Lines 90-100, 103-112. *)
Definition N_euler (E I l_e : R) : res R := rdiv (PI * PI * E * I) (l_e * l_e).
Definition f_euler (E l_e r : R) : res R :=
  let! s := rdiv l_e r in rdiv (PI * PI * E) (s * s).

(** Lines 115-134: [r_ol]. *)
Definition r_ol (r_x r_y x_o y_o : R) : R :=
  sqrt (r_x * r_x + r_y * r_y + x_o * x_o + y_o * y_o).

(** Lines 137-175: [f_euler_torsion]. *)
Definition f_euler_torsion (A l_ez r_x r_y x_o y_o J I_w E G : R) : res R :=
  let r_o := r_ol r_x r_y x_o y_o in
  let! a := rdiv (G * J) (A * r_o * r_o) in
  let! b := rdiv (PI * PI * E * I_w) (G * J * (l_ez * l_ez)) in
  Ok (a * (1 + b)).

(** The default of [f_ref] (lines 186, 247, 913: 250e6, i.e. Pa). *)
Definition S6_f_ref : R := 250e6.

(** Lines 185-201: [s6_3_3_lambda_n]. *)
Definition s6_3_3_lambda_n (k_f l_e r f_y f_ref : R) : res R :=
  let! s := rdiv l_e r in
  let! k := rroot k_f in
  let! q := rdiv f_y f_ref in
  let! f := rroot q in
  Ok (s * k * f).

(** Lines 204-237: [s6_3_3_alpha_c]. *)
Record alpha_c_res : Type := mk_ac {
  ac_alpha_a : R; ac_lambda : R; ac_eta : R; ac_xi : R; ac_alpha_c : R }.
Definition s6_3_3_alpha_c (lambda_n alpha_b : R) : res alpha_c_res :=
  let! alpha_a := rdiv (2100 * (lambda_n - 27 / 2))
                    (lambda_n * lambda_n - 153 / 10 * lambda_n + 2050) in   (* 226 *)
  let lam := lambda_n + alpha_a * alpha_b in                        (* 229 *)
  let eta := pymax (326 / 100000 * (lam - 27 / 2)) 0 in             (* 233 *)
  let s := (lam / 90) * (lam / 90) in
  let! xi := rdiv (s + 1 + eta) (2 * s) in                          (* 234 *)
  let! q := rdiv 90 (xi * lam) in                                   (* 235 *)
  let! r := rroot (1 - q * q) in
  Ok (mk_ac alpha_a lam eta xi (xi * (1 - r))).

(** Lines 240-286: [s6_3_3_N_c]. *)
Record n_c_res : Type := mk_nc { nc_N_c : R; nc_lambda_n : R; nc_alpha : alpha_c_res }.
Definition s6_3_3_N_c (A_n k_f l_e r f_y f_ref alpha_b : R) : res n_c_res :=
  let N_s := s6_2_N_s (s6_2_A_e A_n k_f) f_y in
  let! ln := s6_3_3_lambda_n k_f l_e r f_y f_ref in
  let! ac := s6_3_3_alpha_c ln alpha_b in
  Ok (mk_nc (N_s * ac_alpha_c ac) ln ac).

(** Lines 296-361: [f_oxz]. *)
Record f_oxz_res : Type := mk_foxz {
  fx_beta : R; fx_f_ox : R; fx_f_oz : R; fx_r_ol : R; fx_f_oxz : R }.
Definition f_oxz (A_n l_ex l_ez r_x r_y x_o y_o J I_w E G : R) : res f_oxz_res :=
  let r_o := r_ol r_x r_y x_o y_o in                                (* 336 *)
  let! q := rdiv x_o r_o in
  let beta := 1 - q * q in                                          (* 337 *)
  let! f_ox := f_euler E l_ex r_x in                                (* 338 *)
  let! f_oz := f_euler_torsion A_n l_ez r_x r_y x_o y_o J I_w E G in (* 339 *)
  let! h := rdiv 1 (2 * beta) in                                    (* 343-347 *)
  let! rt := rroot ((f_ox + f_oz) * (f_ox + f_oz) - 4 * beta * f_ox * f_oz) in
  Ok (mk_foxz beta f_ox f_oz r_o (h * ((f_ox + f_oz) - rt))).

(** Lines 364-458: [f_oc_double_symmetric] (only [f_oc]). *)
Definition f_oc_double_symmetric (A_n l_ex l_ez r_x r_y x_o y_o J I_w E G : R) : res R :=
  let! foxz := f_oxz A_n l_ex l_ez r_x r_y x_o y_o J I_w E G in
  let! foz := f_euler_torsion A_n l_ez r_x r_y x_o y_o J I_w E G in
  Ok (pymin (fx_f_oxz foxz) foz).                                   (* 445 *)

(** Lines 461-577: [f_oc_single_symmetric].  When [symcount] is not 1 the error message
    adds a str and an int, so a TypeError is raised instead of the intended
    ValueError (lines 518-526). *)
Definition f_oc_single_symmetric (A_n l_ex l_ey l_ez r_x r_y x_o y_o J I_w E G : R)
  (sym : symmetry_t) : res R :=
  let! n := symcount sym in
  match sym with
  | Some [a] =>
      if axis_is "x" a then                                         (* 534-547 *)
        let! f := f_oxz A_n l_ex l_ez r_x r_y x_o y_o J I_w E G in Ok (fx_f_oxz f)
      else                                                          (* 549-562 *)
        let! f := f_oxz A_n l_ey l_ez r_y r_x y_o x_o J I_w E G in Ok (fx_f_oxz f)
  | _ => Err TypeError
  end.

(** Lines 580-625: [f_oc_point_symmetric]. *)
Definition f_oc_point_symmetric (A_n l_ez r_x r_y x_o y_o J I_w E G : R) : res R :=
  f_euler_torsion A_n l_ez r_x r_y x_o y_o J I_w E G.

(** [numpy.roots]: an oracle from the coefficients [a; -b; c; -d] to the list of complex
    roots (real part, imaginary part). *)
Definition roots_oracle : Type := R -> R -> R -> R -> list (R * R).

(** Lines 687-716.  The elements of numpy's result are numpy scalars, so
    [type(i) is complex] (line 692) is never true; if any root is not real, all are
    complex128 and are ordered lexicographically (numpy of 2019).  A selected root with
    non-zero imaginary part makes the buckling stress complex: [EComplex].  No root
    selected: a bare [Exception] (ValueError here). *)
Definition lex_ltb (a b : R * R) : bool :=
  Rltb (fst a) (fst b) || (Reqb (fst a) (fst b) && Rltb (snd a) (snd b)).
Definition min_stress (m : option (R * R)) (i : R * R) : option (R * R) :=
  if lex_ltb i (0, 0) then m
  else match m with
       | None => Some i
       | Some m => Some (if lex_ltb i m then i else m)
       end.

(** Lines 628-732: [f_oc_unsymmetric]. *)
Definition unsym_coeffs (f_ox f_oy f_oz r_o x_o y_o : R) : R * R * R * R :=
  let a := r_o ^ 2 - x_o ^ 2 * y_o ^ 2 in                           (* 678 *)
  let b := r_o ^ 2 * (f_ox + f_oy + f_oz) - (f_oy * x_o ^ 2 + f_ox * y_o ^ 2) in
  let c := r_o ^ 2 * (f_ox * f_oy + f_oy * f_oz + f_ox * f_oz) in
  let d := r_o ^ 2 * f_ox * f_oy * f_oz in
  (a, b, c, d).
Definition f_oc_unsymmetric (roots : roots_oracle)
  (A_n l_ex l_ey l_ez r_x r_y x_o y_o J I_w E G : R) : res R :=
  let! f_ox := f_euler E l_ex r_x in
  let! f_oy := f_euler E l_ey r_y in
  let r_o := r_ol r_x r_y x_o y_o in
  let! f_oz := f_euler_torsion A_n l_ez r_x r_y x_o y_o J I_w E G in
  let '(a, b, c, d) := unsym_coeffs f_ox f_oy f_oz r_o x_o y_o in
  match fold_left min_stress (roots a (- b) c (- d)) None with
  | None => Err ValueError
  | Some (re, im) => if Reqb im 0 then Ok re else Err EComplex
  end.

(** The argument bundle shared by [s6_3_3_N_c_torsion] and [s6_1_1_Nc]. *)
Record sect6 : Type := mk_sect6 {
  q_A_n : R; q_k_f : R; q_r_x : R; q_r_y : R; q_x_o : R; q_y_o : R;
  q_J : R; q_I_w : R; q_f_y : R; q_E : R; q_G : R }.

(** Lines 793-865: the elastic buckling stress by symmetry class. *)
Definition f_oc (roots : roots_oracle) (q : sect6) (l_ex l_ey l_ez : R)
  (sym : symmetry_t) : res R :=
  let! s := symmetry sym in
  match s with
  | SymDouble => f_oc_double_symmetric (q_A_n q) l_ex l_ez (q_r_x q) (q_r_y q)
                   (q_x_o q) (q_y_o q) (q_J q) (q_I_w q) (q_E q) (q_G q)
  | SymSingle => f_oc_single_symmetric (q_A_n q) l_ex l_ey l_ez (q_r_x q) (q_r_y q)
                   (q_x_o q) (q_y_o q) (q_J q) (q_I_w q) (q_E q) (q_G q) sym
  | SymPoint => f_oc_point_symmetric (q_A_n q) l_ez (q_r_x q) (q_r_y q)
                   (q_x_o q) (q_y_o q) (q_J q) (q_I_w q) (q_E q) (q_G q)
  | SymNone => f_oc_unsymmetric roots (q_A_n q) l_ex l_ey l_ez (q_r_x q) (q_r_y q)
                   (q_x_o q) (q_y_o q) (q_J q) (q_I_w q) (q_E q) (q_G q)
  end.

(** Lines 867-876: from the elastic stress to the capacity. *)
Record ncz_res : Type := mk_ncz { cz_N_cz : R; cz_f_oc : R; cz_lambda_c : R; cz_f_n : R }.
Definition f_n_of (f_y lambda_c : R) : res R :=
  if Rleb lambda_c (3 / 2) then Ok (f_y * Rpower (658 / 1000) (lambda_c * lambda_c))
  else let! k := rdiv (877 / 1000) (lambda_c * lambda_c) in Ok (f_y * k).
Definition n_cz_of (A_e f_y f_oc uncertainty : R) : res ncz_res :=
  let! q := rdiv f_y f_oc in
  let! lc := rroot q in                                             (* 868 *)
  let! f_n := f_n_of f_y lc in                                      (* 871-874 *)
  Ok (mk_ncz (uncertainty * A_e * f_n) f_oc lc f_n).                (* 876 *)

(** Lines 735-887: [s6_3_3_N_c_torsion]. *)
Definition s6_3_3_N_c_torsion (roots : roots_oracle) (q : sect6) (l_ex l_ey l_ez : R)
  (sym : symmetry_t) (uncertainty : R) : res ncz_res :=
  let A_e := s6_2_A_e (q_A_n q) (q_k_f q) in
  let! f := f_oc roots q l_ex l_ey l_ez sym in
  n_cz_of A_e (q_f_y q) f uncertainty.

(** Lines 895-1046: [s6_1_1_Nc].  Entries absent from the dictionary are [None]. *)
Record nc_out : Type := mk_nc_out {
  o_N_s : R; o_phiN_s : R;
  o_N_cx : option R; o_phiN_cx : option R;
  o_N_cy : option R; o_phiN_cy : option R;
  o_N_cz : option R; o_phiN_cz : option R;
  o_N_c : R; o_phiN_c : R }.

Definition s6_1_1_Nc (roots : roots_oracle) (q : sect6) (l k_ex k_ey k_ez : R)
  (sym : symmetry_t) (f_ref alpha_b uncertainty phi : R)
  (calc_buckling calc_torsion : bool) : res nc_out :=
  let A_e := s6_2_A_e (q_A_n q) (q_k_f q) in
  let N_s := s6_2_N_s A_e (q_f_y q) in                              (* 963 *)
  let phiN_s := phi * N_s in
  if calc_buckling then                                             (* 974 *)
    let l_ex := s6_3_2_l_e l k_ex in
    let l_ey := s6_3_2_l_e l k_ey in
    let! bx := s6_3_3_N_c (q_A_n q) (q_k_f q) l_ex (q_r_x q) (q_f_y q) f_ref alpha_b in
    let! by_ := s6_3_3_N_c (q_A_n q) (q_k_f q) l_ey (q_r_y q) (q_f_y q) f_ref alpha_b in
    let N_cx := pymin (nc_N_c bx) N_s in                            (* 985 *)
    let N_cy := pymin (nc_N_c by_) N_s in                           (* 987 *)
    let phiN_cx := phi * N_cx in
    let phiN_cy := phi * N_cy in
    let N_c := pymin (pymin N_s N_cx) N_cy in                       (* 999 *)
    let phiN_c := pymin (pymin phiN_s phiN_cx) phiN_cy in           (* 1000 *)
    if calc_torsion then                                            (* 1003 *)
      let l_ez := s6_3_2_l_e l k_ez in
      let! z := s6_3_3_N_c_torsion roots q l_ex l_ey l_ez sym uncertainty in
      let N_cz := pymin N_s (cz_N_cz z) in                          (* 1032 *)
      let phiN_cz := phi * N_cz in
      let N_c' := pymin N_c N_cz in                                 (* 1040 *)
      Ok (mk_nc_out N_s phiN_s (Some N_cx) (Some phiN_cx) (Some N_cy) (Some phiN_cy)
            (Some N_cz) (Some phiN_cz) N_c' (phi * N_c'))           (* 1041 *)
    else
      Ok (mk_nc_out N_s phiN_s (Some N_cx) (Some phiN_cx) (Some N_cy) (Some phiN_cy)
            None None N_c phiN_c)
  else Ok (mk_nc_out N_s phiN_s None None None None None None N_s phiN_s).
