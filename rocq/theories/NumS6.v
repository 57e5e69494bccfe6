(** The torsional part of beamdesign/codecheck/as4100/S6.py and [s6_1_1_Nc] as the Python text has
    them, operation by operation, over an arbitrary [Num] (the rest of S6.py is in NumFormulas.v).  On the
    reals they are the functions of S6.v (NumS6Facts.v); here they can also be run on doubles.

    [x ** y] is the oracle [pw], [numpy.roots] the oracle [roots] (real and imaginary parts).  Python
    gives a complex number for a negative number to the power 0.5; every later use of that number
    ([min] in line 445, [<=] in line 871) is a TypeError.  Both are the one outcome [Err EComplex] here. *)

From Coq Require Import ZArith List Bool String.
From Verif Require Import Base Num Symmetry NumFormulas.
Import ListNotations.
Open Scope Z_scope.

(** The arguments shared by [s6_3_3_N_c_torsion] and [s6_1_1_Nc]. *)
Record nsect (T : Type) : Type := mk_nsect {
  w_A_n : T; w_k_f : T; w_r_x : T; w_r_y : T; w_x_o : T; w_y_o : T;
  w_J : T; w_I_w : T; w_f_y : T; w_E : T; w_G : T }.
Arguments mk_nsect {T}. Arguments w_A_n {T}. Arguments w_k_f {T}. Arguments w_r_x {T}. Arguments w_r_y {T}.
Arguments w_x_o {T}. Arguments w_y_o {T}. Arguments w_J {T}. Arguments w_I_w {T}. Arguments w_f_y {T}.
Arguments w_E {T}. Arguments w_G {T}.

Section Torsion.
Context {T : Type} {NT : Num T}.
Variable pw : T -> T -> res T.
Let half : T := nflt 1 2.

(** S6.py lines 296-361: [f_oxz], the entries β, f_ox, f_oz, r_ol and f_oxz. *)
Definition nf_oxz (A_n l_ex l_ez r_x r_y x_o y_o J I_w E G : T) : res (list T) :=
  let! r_o := nr_ol pw r_x r_y x_o y_o in                           (* 336 *)
  let! q := pydiv x_o r_o in
  let! q2 := pw q (nint 2) in
  let beta := nsub (nint 1) q2 in                                   (* 337 *)
  let! f_ox := nf_euler E l_ex r_x in                               (* 338 *)
  let! f_oz := nf_euler_torsion pw A_n l_ez r_x r_y x_o y_o J I_w E G in (* 339 *)
  let! h := pydiv (nint 1) (nmul (nint 2) beta) in                  (* 343-347 *)
  let! s2 := pw (nadd f_ox f_oz) (nint 2) in
  let! rt := pw (nsub s2 (nmul (nmul (nmul (nint 4) beta) f_ox) f_oz)) half in
  Ok [beta; f_ox; f_oz; r_o; nmul h (nsub (nadd f_ox f_oz) rt)].

(** Lines 364-458: the entry f_oc of [f_oc_double_symmetric]. *)
Definition nf_oc_double_symmetric (A_n l_ex l_ez r_x r_y x_o y_o J I_w E G : T) : res T :=
  let! foxz := nf_oxz A_n l_ex l_ez r_x r_y x_o y_o J I_w E G in
  let! foz := nf_euler_torsion pw A_n l_ez r_x r_y x_o y_o J I_w E G in
  Ok (pymin (nth 4 foxz (nint 0)) foz).                             (* 445 *)

(** Lines 461-577: [f_oc_single_symmetric]; see S6.v about the error case. *)
Definition nf_oc_single_symmetric (A_n l_ex l_ey l_ez r_x r_y x_o y_o J I_w E G : T)
  (sym : symmetry_t) : res T :=
  let! n := symcount sym in
  match sym with
  | Some [a] =>
      if axis_is "x" a then                                         (* 534-547 *)
        let! f := nf_oxz A_n l_ex l_ez r_x r_y x_o y_o J I_w E G in Ok (nth 4 f (nint 0))
      else                                                          (* 549-562 *)
        let! f := nf_oxz A_n l_ey l_ez r_y r_x y_o x_o J I_w E G in Ok (nth 4 f (nint 0))
  | _ => Err TypeError
  end.

(** Lines 580-625: [f_oc_point_symmetric]. *)
Definition nf_oc_point_symmetric (A_n l_ez r_x r_y x_o y_o J I_w E G : T) : res T :=
  nf_euler_torsion pw A_n l_ez r_x r_y x_o y_o J I_w E G.

(** Lines 678-681: the coefficients of the cubic. *)
Definition nunsym_coeffs (f_ox f_oy f_oz r_o x_o y_o : T) : res (T * T * T * T) :=
  let! r2 := pw r_o (nint 2) in
  let! x2 := pw x_o (nint 2) in
  let! y2 := pw y_o (nint 2) in
  let a := nsub r2 (nmul x2 y2) in                                  (* 678 *)
  let b := nsub (nmul r2 (nadd (nadd f_ox f_oy) f_oz)) (nadd (nmul f_oy x2) (nmul f_ox y2)) in
  let c := nmul r2 (nadd (nadd (nmul f_ox f_oy) (nmul f_oy f_oz)) (nmul f_ox f_oz)) in
  let d := nmul (nmul (nmul r2 f_ox) f_oy) f_oz in
  Ok (a, b, c, d).

(** Lines 687-716; see S6.v. *)
Definition nlex_ltb (a b : T * T) : bool :=
  nltb (fst a) (fst b) || (neqb (fst a) (fst b) && nltb (snd a) (snd b)).
Definition nmin_stress (m : option (T * T)) (i : T * T) : option (T * T) :=
  if nlex_ltb i (nint 0, nint 0) then m
  else match m with
       | None => Some i
       | Some m => Some (if nlex_ltb i m then i else m)
       end.

(** Lines 628-732: [f_oc_unsymmetric]. *)
Definition nf_oc_unsymmetric (roots : T -> T -> T -> T -> list (T * T))
  (A_n l_ex l_ey l_ez r_x r_y x_o y_o J I_w E G : T) : res T :=
  let! f_ox := nf_euler E l_ex r_x in
  let! f_oy := nf_euler E l_ey r_y in
  let! r_o := nr_ol pw r_x r_y x_o y_o in
  let! f_oz := nf_euler_torsion pw A_n l_ez r_x r_y x_o y_o J I_w E G in
  let! cs := nunsym_coeffs f_ox f_oy f_oz r_o x_o y_o in
  let '(a, b, c, d) := cs in
  match fold_left nmin_stress (roots a (nneg b) c (nneg d)) None with
  | None => Err ValueError
  | Some (re, im) => if neqb im (nint 0) then Ok re else Err EComplex
  end.

(** Lines 793-865: the elastic buckling stress by symmetry class. *)
Definition nf_oc (roots : T -> T -> T -> T -> list (T * T)) (q : nsect T) (l_ex l_ey l_ez : T)
  (sym : symmetry_t) : res T :=
  let! s := symmetry sym in
  match s with
  | SymDouble => nf_oc_double_symmetric (w_A_n q) l_ex l_ez (w_r_x q) (w_r_y q)
                   (w_x_o q) (w_y_o q) (w_J q) (w_I_w q) (w_E q) (w_G q)
  | SymSingle => nf_oc_single_symmetric (w_A_n q) l_ex l_ey l_ez (w_r_x q) (w_r_y q)
                   (w_x_o q) (w_y_o q) (w_J q) (w_I_w q) (w_E q) (w_G q) sym
  | SymPoint => nf_oc_point_symmetric (w_A_n q) l_ez (w_r_x q) (w_r_y q)
                   (w_x_o q) (w_y_o q) (w_J q) (w_I_w q) (w_E q) (w_G q)
  | SymNone => nf_oc_unsymmetric roots (w_A_n q) l_ex l_ey l_ez (w_r_x q) (w_r_y q)
                   (w_x_o q) (w_y_o q) (w_J q) (w_I_w q) (w_E q) (w_G q)
  end.

(** Lines 867-876: the entries N_cz, f_oc, λ_c and f_n. *)
Definition nf_n_of (f_y lambda_c : T) : res T :=
  if nleb lambda_c (nflt 15 10) then
    let! p := pw (nflt 658 1000) (nmul lambda_c lambda_c) in Ok (nmul f_y p)
  else let! k := pydiv (nflt 877 1000) (nmul lambda_c lambda_c) in Ok (nmul f_y k).
Definition nn_cz_of (A_e f_y f_oc uncertainty : T) : res (list T) :=
  let! q := pydiv f_y f_oc in
  let! lc := pw q half in                                           (* 868 *)
  let! f_n := nf_n_of f_y lc in                                     (* 871-874 *)
  Ok [nmul (nmul uncertainty A_e) f_n; f_oc; lc; f_n].              (* 876 *)

(** Lines 735-887: [s6_3_3_N_c_torsion]. *)
Definition ns6_3_3_N_c_torsion (roots : T -> T -> T -> T -> list (T * T)) (q : nsect T)
  (l_ex l_ey l_ez : T) (sym : symmetry_t) (uncertainty : T) : res (list T) :=
  let A_e := ns6_2_A_e (w_A_n q) (w_k_f q) in
  let! f := nf_oc roots q l_ex l_ey l_ez sym in
  nn_cz_of A_e (w_f_y q) f uncertainty.

(** Lines 895-1046: [s6_1_1_Nc], the entries N_s, φN_s, N_cx, φN_cx, N_cy, φN_cy, N_cz, φN_cz, N_c and
    φN_c ([None] for an absent key). *)
Definition ns6_1_1_Nc (roots : T -> T -> T -> T -> list (T * T)) (q : nsect T) (l k_ex k_ey k_ez : T)
  (sym : symmetry_t) (f_ref alpha_b uncertainty phi : T)
  (calc_buckling calc_torsion : bool) : res (list (option T)) :=
  let A_e := ns6_2_A_e (w_A_n q) (w_k_f q) in
  let N_s := ns6_2_N_s A_e (w_f_y q) in                             (* 963 *)
  let phiN_s := nmul phi N_s in
  if calc_buckling then                                             (* 974 *)
    let l_ex := ns6_3_2_l_e l k_ex in
    let l_ey := ns6_3_2_l_e l k_ey in
    let! bx := ns6_3_3_N_c pw (w_A_n q) (w_k_f q) l_ex (w_r_x q) (w_f_y q) f_ref alpha_b in
    let! by_ := ns6_3_3_N_c pw (w_A_n q) (w_k_f q) l_ey (w_r_y q) (w_f_y q) f_ref alpha_b in
    let N_cx := pymin bx N_s in                                     (* 985 *)
    let N_cy := pymin by_ N_s in                                    (* 987 *)
    let phiN_cx := nmul phi N_cx in
    let phiN_cy := nmul phi N_cy in
    let N_c := pymin (pymin N_s N_cx) N_cy in                       (* 999 *)
    let phiN_c := pymin (pymin phiN_s phiN_cx) phiN_cy in           (* 1000 *)
    if calc_torsion then                                            (* 1003 *)
      let l_ez := ns6_3_2_l_e l k_ez in
      let! z := ns6_3_3_N_c_torsion roots q l_ex l_ey l_ez sym uncertainty in
      let N_cz := pymin N_s (nth 0 z (nint 0)) in                   (* 1032 *)
      let phiN_cz := nmul phi N_cz in
      let N_c' := pymin N_c N_cz in                                 (* 1040 *)
      Ok [Some N_s; Some phiN_s; Some N_cx; Some phiN_cx; Some N_cy; Some phiN_cy;
          Some N_cz; Some phiN_cz; Some N_c'; Some (nmul phi N_c')] (* 1041 *)
    else
      Ok [Some N_s; Some phiN_s; Some N_cx; Some phiN_cx; Some N_cy; Some phiN_cy;
          None; None; Some N_c; Some phiN_c]
  else Ok [Some N_s; Some phiN_s; None; None; None; None; None; None; Some N_s; Some phiN_s].

End Torsion.
