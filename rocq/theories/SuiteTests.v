(** The other tests of the project run through the model on Python numbers: tests/test_loadcase.py,
    test_interp.py, test_element.py, test_beam.py, test_circle.py, test_AS4100_sectprops.py, test_material.py,
    test_AS4100.py and the fixed cases of test_solver.py that need no exp, sin or cos.  Each Example names its
    test.  Sanity.v has some of them already.  These are tests of the model's fidelity, not proofs of any
    property. *)

From Coq Require Import ZArith List Bool String Floats.SpecFloat.
From Verif Require Import Base Num PyNum Numpy LoadCase Beam Solvers Material AS4100 Sanity Listing.
Import ListNotations.
Open Scope Z_scope.

(** numpy.allclose with its default tolerances, and math.isclose. *)
Definition allclose (a b : pynum) : bool :=
  nleb (nabs (nsub a b)) (nadd (fl 1 100000000) (nmul (fl 1 100000) (nabs b))).
Definition isclose9 (a b : pynum) : bool :=
  neqb a b || nleb (nabs (nsub a b)) (nmul (fl 1 1000000000) (pymax (nabs a) (nabs b))).
Definition cell_by (t : pynum -> pynum -> bool) (a b : option pynum) : bool :=
  match a, b with Some x, Some y => t x y | None, None => true | _, _ => false end.
Definition rows_by (t : pynum -> pynum -> bool) (r : res (option (list (orow pynum)))) (e : list (orow pynum)) : bool :=
  match r with
  | Ok (Some rows) => all2 (fun x y => t (fst x) (fst y) && all2 (cell_by t) (snd x) (snd y)) rows e
  | _ => false
  end.
Definition exn_eq_dec : forall a b : exn, {a = b} + {a <> b}.
Proof. decide equality. Defined.
Definition is_err {A} (r : res A) (e : exn) : bool :=
  match r with Ok _ => false | Err x => if exn_eq_dec x e then true else false end.
Definition fails {A} (r : res A) : bool := match r with Ok _ => false | Err _ => true end.
Definition works {A} (r : res A) : bool := negb (fails r).
Definition at_ (t : pynum -> pynum -> bool) (r : res pynum) (e : pynum) : bool :=
  match r with Ok x => t x e | Err _ => false end.
Definition names : list string := ["VX"; "VY"; "N"; "MX"; "MY"; "T"]%string.
Definition enums : list comp := [VX; VY; N; MX; MY; T_].
Definition row (p : pynum) (l : list pynum) : orow pynum := (p, map Some l).

(** test_loadcase.py *)
Definition c0 : lcase pynum := get None (load_case InNone).

Definition c1 : lcase pynum := get None (load_case (InRow [(fl 1 2); (PInt 1); (PInt 2); (PInt 3); (PInt 4); (PInt 5); (PInt 6)])).

Definition c2 : lcase pynum := get None (load_case (InRows [[(fl 1 4); (PInt 1); (PInt 2); (PInt 3); (PInt 4); (PInt 5); (PInt 6)]; [(fl 3 4); (PInt 2); (PInt 3); (PInt 4); (PInt 5); (PInt 6); (PInt 7)]])).

Definition c6 : lcase pynum := get None (load_case (InRows [[(fl 0 1); (PInt 0); (PInt 0); (PInt 0); (PInt 0); (PInt 0); (PInt 0)]; [(fl 1 4); (PInt 1); (PInt 2); (PInt 3); (PInt 4); (PInt 5); (PInt 6)]; [(fl 1 2); (fl 3 2); (fl 5 2); (fl 7 2); (fl 9 2); (fl 11 2); (fl 13 2)]; [(fl 1 2); (PInt 10); (PInt 10); (PInt 10); (PInt 10); (PInt 10); (PInt 10)]; [(fl 3 4); (PInt 2); (PInt 3); (PInt 4); (PInt 5); (PInt 6); (PInt 7)]; [(fl 1 1); (PInt 3); (PInt 4); (PInt 5); (PInt 6); (PInt 7); (PInt 8)]])).

Example test_LoadCase_init : works (load_case (T := pynum) InNone) = true.
Proof. vm_compute. reflexivity. Qed.

Example test_LoadCase_init2 : works (load_case (InRows [[(fl 0 1); (PInt 0); (PInt 0); (PInt 0); (PInt 0); (PInt 0); (PInt 0)]; [(fl 1 4); (PInt 1); (PInt 2); (PInt 3); (PInt 4); (PInt 5); (PInt 6)]; [(fl 1 2); (fl 3 2); (fl 5 2); (fl 7 2); (fl 9 2); (fl 11 2); (fl 13 2)]; [(fl 1 2); (PInt 10); (PInt 10); (PInt 10); (PInt 10); (PInt 10); (PInt 10)]; [(fl 3 4); (PInt 2); (PInt 3); (PInt 4); (PInt 5); (PInt 6); (PInt 7)]; [(fl 1 1); (PInt 3); (PInt 4); (PInt 5); (PInt 6); (PInt 7); (PInt 8)]])) = true.
Proof. vm_compute. reflexivity. Qed.

Example test_LoadCase_init_error : is_err (load_case (InRows [[(fl 0 1); (PInt 0); (PInt 0); (PInt 0); (PInt 0); (PInt 0)]; [(fl 1 4); (PInt 1); (PInt 2); (PInt 3); (PInt 4); (PInt 5); (PInt 6)]; [(fl 1 2); (fl 3 2); (fl 5 2); (fl 7 2); (fl 9 2); (fl 11 2); (fl 13 2)]; [(fl 1 2); (PInt 10); (PInt 10); (PInt 10); (PInt 10); (PInt 10); (PInt 10)]; [(fl 3 4); (PInt 2); (PInt 3); (PInt 4); (PInt 5); (PInt 6); (PInt 7)]; [(fl 1 1); (PInt 3); (PInt 4); (PInt 5); (PInt 6); (PInt 7); (PInt 8)]])) LoadCaseError = true.
Proof. vm_compute. reflexivity. Qed.

Example test_get_load_None : forallb (fun s => rows_by neqb (get_load sorted_qs c0 (PosNum (fl 1 1)) None (CStr s)) [(fl 1 1, [None])]) names = true.
Proof. vm_compute. reflexivity. Qed.

Example test_get_load_single_0 : rows_by neqb (get_load sorted_qs c1 (PosNum (fl 1 4)) None (CStr "VX")) [row (fl 1 4) [(PInt 1)]] && rows_by neqb (get_load sorted_qs c1 (PosNum (fl 1 4)) None (CStr "VY")) [row (fl 1 4) [(PInt 2)]] && rows_by neqb (get_load sorted_qs c1 (PosNum (fl 1 4)) None (CStr "N")) [row (fl 1 4) [(PInt 3)]] && rows_by neqb (get_load sorted_qs c1 (PosNum (fl 1 4)) None (CStr "MX")) [row (fl 1 4) [(PInt 4)]] && rows_by neqb (get_load sorted_qs c1 (PosNum (fl 1 4)) None (CStr "MY")) [row (fl 1 4) [(PInt 5)]] && rows_by neqb (get_load sorted_qs c1 (PosNum (fl 1 4)) None (CStr "T")) [row (fl 1 4) [(PInt 6)]] = true.
Proof. vm_compute. reflexivity. Qed.

Example test_get_load_single_1 : rows_by neqb (get_load sorted_qs c1 (PosNum (fl 1 2)) None (CStr "VX")) [row (fl 1 2) [(PInt 1)]] && rows_by neqb (get_load sorted_qs c1 (PosNum (fl 1 2)) None (CStr "VY")) [row (fl 1 2) [(PInt 2)]] && rows_by neqb (get_load sorted_qs c1 (PosNum (fl 1 2)) None (CStr "N")) [row (fl 1 2) [(PInt 3)]] && rows_by neqb (get_load sorted_qs c1 (PosNum (fl 1 2)) None (CStr "MX")) [row (fl 1 2) [(PInt 4)]] && rows_by neqb (get_load sorted_qs c1 (PosNum (fl 1 2)) None (CStr "MY")) [row (fl 1 2) [(PInt 5)]] && rows_by neqb (get_load sorted_qs c1 (PosNum (fl 1 2)) None (CStr "T")) [row (fl 1 2) [(PInt 6)]] = true.
Proof. vm_compute. reflexivity. Qed.

Example test_get_load_single_2 : rows_by neqb (get_load sorted_qs c1 (PosNum (fl 3 4)) None (CStr "VX")) [row (fl 3 4) [(PInt 1)]] && rows_by neqb (get_load sorted_qs c1 (PosNum (fl 3 4)) None (CStr "VY")) [row (fl 3 4) [(PInt 2)]] && rows_by neqb (get_load sorted_qs c1 (PosNum (fl 3 4)) None (CStr "N")) [row (fl 3 4) [(PInt 3)]] && rows_by neqb (get_load sorted_qs c1 (PosNum (fl 3 4)) None (CStr "MX")) [row (fl 3 4) [(PInt 4)]] && rows_by neqb (get_load sorted_qs c1 (PosNum (fl 3 4)) None (CStr "MY")) [row (fl 3 4) [(PInt 5)]] && rows_by neqb (get_load sorted_qs c1 (PosNum (fl 3 4)) None (CStr "T")) [row (fl 3 4) [(PInt 6)]] = true.
Proof. vm_compute. reflexivity. Qed.

Example test_get_load_multiple : rows_by neqb (get_load sorted_qs c1 (PosList [(fl 1 4); (fl 3 4)]) None (CStr "VX")) [row (fl 1 4) [(PInt 1)]; row (fl 3 4) [(PInt 1)]] && rows_by neqb (get_load sorted_qs c1 (PosList [(fl 1 4); (fl 3 4)]) None (CStr "VY")) [row (fl 1 4) [(PInt 2)]; row (fl 3 4) [(PInt 2)]] && rows_by neqb (get_load sorted_qs c1 (PosList [(fl 1 4); (fl 3 4)]) None (CStr "N")) [row (fl 1 4) [(PInt 3)]; row (fl 3 4) [(PInt 3)]] && rows_by neqb (get_load sorted_qs c1 (PosList [(fl 1 4); (fl 3 4)]) None (CStr "MX")) [row (fl 1 4) [(PInt 4)]; row (fl 3 4) [(PInt 4)]] && rows_by neqb (get_load sorted_qs c1 (PosList [(fl 1 4); (fl 3 4)]) None (CStr "MY")) [row (fl 1 4) [(PInt 5)]; row (fl 3 4) [(PInt 5)]] && rows_by neqb (get_load sorted_qs c1 (PosList [(fl 1 4); (fl 3 4)]) None (CStr "T")) [row (fl 1 4) [(PInt 6)]; row (fl 3 4) [(PInt 6)]] = true.
Proof. vm_compute. reflexivity. Qed.

Example test_get_load_components : forallb (fun ev => rows_by neqb (get_load sorted_qs c1 (PosNum (fl 1 4)) None (CEnum (fst ev))) [row (fl 1 4) [snd ev]]) (combine enums [(PInt 1); (PInt 2); (PInt 3); (PInt 4); (PInt 5); (PInt 6)]) = true.
Proof. vm_compute. reflexivity. Qed.

Example test_get_load_multiple_positions_0 : rows_by neqb (get_load sorted_qs c2 (PosNum (fl 0 1)) None (CStr "VX")) [row (fl 0 1) [(PInt 1)]] && rows_by neqb (get_load sorted_qs c2 (PosNum (fl 0 1)) None (CStr "VY")) [row (fl 0 1) [(PInt 2)]] && rows_by neqb (get_load sorted_qs c2 (PosNum (fl 0 1)) None (CStr "N")) [row (fl 0 1) [(PInt 3)]] && rows_by neqb (get_load sorted_qs c2 (PosNum (fl 0 1)) None (CStr "MX")) [row (fl 0 1) [(PInt 4)]] && rows_by neqb (get_load sorted_qs c2 (PosNum (fl 0 1)) None (CStr "MY")) [row (fl 0 1) [(PInt 5)]] && rows_by neqb (get_load sorted_qs c2 (PosNum (fl 0 1)) None (CStr "T")) [row (fl 0 1) [(PInt 6)]] = true.
Proof. vm_compute. reflexivity. Qed.

Example test_get_load_multiple_positions_1 : rows_by neqb (get_load sorted_qs c2 (PosNum (fl 1 4)) None (CStr "VX")) [row (fl 1 4) [(PInt 1)]] && rows_by neqb (get_load sorted_qs c2 (PosNum (fl 1 4)) None (CStr "VY")) [row (fl 1 4) [(PInt 2)]] && rows_by neqb (get_load sorted_qs c2 (PosNum (fl 1 4)) None (CStr "N")) [row (fl 1 4) [(PInt 3)]] && rows_by neqb (get_load sorted_qs c2 (PosNum (fl 1 4)) None (CStr "MX")) [row (fl 1 4) [(PInt 4)]] && rows_by neqb (get_load sorted_qs c2 (PosNum (fl 1 4)) None (CStr "MY")) [row (fl 1 4) [(PInt 5)]] && rows_by neqb (get_load sorted_qs c2 (PosNum (fl 1 4)) None (CStr "T")) [row (fl 1 4) [(PInt 6)]] = true.
Proof. vm_compute. reflexivity. Qed.

Example test_get_load_multiple_positions_2 : rows_by neqb (get_load sorted_qs c2 (PosNum (fl 1 2)) None (CStr "VX")) [row (fl 1 2) [(fl 3 2)]] && rows_by neqb (get_load sorted_qs c2 (PosNum (fl 1 2)) None (CStr "VY")) [row (fl 1 2) [(fl 5 2)]] && rows_by neqb (get_load sorted_qs c2 (PosNum (fl 1 2)) None (CStr "N")) [row (fl 1 2) [(fl 7 2)]] && rows_by neqb (get_load sorted_qs c2 (PosNum (fl 1 2)) None (CStr "MX")) [row (fl 1 2) [(fl 9 2)]] && rows_by neqb (get_load sorted_qs c2 (PosNum (fl 1 2)) None (CStr "MY")) [row (fl 1 2) [(fl 11 2)]] && rows_by neqb (get_load sorted_qs c2 (PosNum (fl 1 2)) None (CStr "T")) [row (fl 1 2) [(fl 13 2)]] = true.
Proof. vm_compute. reflexivity. Qed.

Example test_get_load_multiple_positions_3 : rows_by neqb (get_load sorted_qs c2 (PosNum (fl 3 4)) None (CStr "VX")) [row (fl 3 4) [(PInt 2)]] && rows_by neqb (get_load sorted_qs c2 (PosNum (fl 3 4)) None (CStr "VY")) [row (fl 3 4) [(PInt 3)]] && rows_by neqb (get_load sorted_qs c2 (PosNum (fl 3 4)) None (CStr "N")) [row (fl 3 4) [(PInt 4)]] && rows_by neqb (get_load sorted_qs c2 (PosNum (fl 3 4)) None (CStr "MX")) [row (fl 3 4) [(PInt 5)]] && rows_by neqb (get_load sorted_qs c2 (PosNum (fl 3 4)) None (CStr "MY")) [row (fl 3 4) [(PInt 6)]] && rows_by neqb (get_load sorted_qs c2 (PosNum (fl 3 4)) None (CStr "T")) [row (fl 3 4) [(PInt 7)]] = true.
Proof. vm_compute. reflexivity. Qed.

Example test_get_load_multiple_positions_4 : rows_by neqb (get_load sorted_qs c2 (PosNum (fl 1 1)) None (CStr "VX")) [row (fl 1 1) [(PInt 2)]] && rows_by neqb (get_load sorted_qs c2 (PosNum (fl 1 1)) None (CStr "VY")) [row (fl 1 1) [(PInt 3)]] && rows_by neqb (get_load sorted_qs c2 (PosNum (fl 1 1)) None (CStr "N")) [row (fl 1 1) [(PInt 4)]] && rows_by neqb (get_load sorted_qs c2 (PosNum (fl 1 1)) None (CStr "MX")) [row (fl 1 1) [(PInt 5)]] && rows_by neqb (get_load sorted_qs c2 (PosNum (fl 1 1)) None (CStr "MY")) [row (fl 1 1) [(PInt 6)]] && rows_by neqb (get_load sorted_qs c2 (PosNum (fl 1 1)) None (CStr "T")) [row (fl 1 1) [(PInt 7)]] = true.
Proof. vm_compute. reflexivity. Qed.

Example test_get_load_multiple_positions2_0 : rows_by neqb (get_load sorted_qs c6 (PosNum (fl 0 1)) None (CStr "VX")) [row (fl 0 1) [(PInt 0)]] && rows_by neqb (get_load sorted_qs c6 (PosNum (fl 0 1)) None (CStr "VY")) [row (fl 0 1) [(PInt 0)]] && rows_by neqb (get_load sorted_qs c6 (PosNum (fl 0 1)) None (CStr "N")) [row (fl 0 1) [(PInt 0)]] && rows_by neqb (get_load sorted_qs c6 (PosNum (fl 0 1)) None (CStr "MX")) [row (fl 0 1) [(PInt 0)]] && rows_by neqb (get_load sorted_qs c6 (PosNum (fl 0 1)) None (CStr "MY")) [row (fl 0 1) [(PInt 0)]] && rows_by neqb (get_load sorted_qs c6 (PosNum (fl 0 1)) None (CStr "T")) [row (fl 0 1) [(PInt 0)]] = true.
Proof. vm_compute. reflexivity. Qed.

Example test_get_load_multiple_positions3_0 : rows_by neqb (get_load sorted_qs c6 (PosNum (fl 0 1)) None CNone) [row (fl 0 1) [(PInt 0); (PInt 0); (PInt 0); (PInt 0); (PInt 0); (PInt 0)]] = true.
Proof. vm_compute. reflexivity. Qed.

Example test_get_load_multiple_positions2_1 : rows_by neqb (get_load sorted_qs c6 (PosNum (fl 1 4)) None (CStr "VX")) [row (fl 1 4) [(PInt 1)]] && rows_by neqb (get_load sorted_qs c6 (PosNum (fl 1 4)) None (CStr "VY")) [row (fl 1 4) [(PInt 2)]] && rows_by neqb (get_load sorted_qs c6 (PosNum (fl 1 4)) None (CStr "N")) [row (fl 1 4) [(PInt 3)]] && rows_by neqb (get_load sorted_qs c6 (PosNum (fl 1 4)) None (CStr "MX")) [row (fl 1 4) [(PInt 4)]] && rows_by neqb (get_load sorted_qs c6 (PosNum (fl 1 4)) None (CStr "MY")) [row (fl 1 4) [(PInt 5)]] && rows_by neqb (get_load sorted_qs c6 (PosNum (fl 1 4)) None (CStr "T")) [row (fl 1 4) [(PInt 6)]] = true.
Proof. vm_compute. reflexivity. Qed.

Example test_get_load_multiple_positions3_1 : rows_by neqb (get_load sorted_qs c6 (PosNum (fl 1 4)) None CNone) [row (fl 1 4) [(PInt 1); (PInt 2); (PInt 3); (PInt 4); (PInt 5); (PInt 6)]] = true.
Proof. vm_compute. reflexivity. Qed.

Example test_get_load_multiple_positions2_2 : rows_by allclose (get_load sorted_qs c6 (PosNum (fl 2 5)) None (CStr "VX")) [row (fl 2 5) [(fl 13 10)]] && rows_by allclose (get_load sorted_qs c6 (PosNum (fl 2 5)) None (CStr "VY")) [row (fl 2 5) [(fl 23 10)]] && rows_by allclose (get_load sorted_qs c6 (PosNum (fl 2 5)) None (CStr "N")) [row (fl 2 5) [(fl 33 10)]] && rows_by allclose (get_load sorted_qs c6 (PosNum (fl 2 5)) None (CStr "MX")) [row (fl 2 5) [(fl 43 10)]] && rows_by allclose (get_load sorted_qs c6 (PosNum (fl 2 5)) None (CStr "MY")) [row (fl 2 5) [(fl 53 10)]] && rows_by allclose (get_load sorted_qs c6 (PosNum (fl 2 5)) None (CStr "T")) [row (fl 2 5) [(fl 63 10)]] = true.
Proof. vm_compute. reflexivity. Qed.

Example test_get_load_multiple_positions3_2 : rows_by allclose (get_load sorted_qs c6 (PosNum (fl 2 5)) None CNone) [row (fl 2 5) [(fl 13 10); (fl 23 10); (fl 33 10); (fl 43 10); (fl 53 10); (fl 63 10)]] = true.
Proof. vm_compute. reflexivity. Qed.

Example test_get_load_multiple_positions2_3 : rows_by neqb (get_load sorted_qs c6 (PosNum (fl 1 2)) None (CStr "VX")) [row (fl 1 2) [(fl 3 2)]; row (fl 1 2) [(PInt 10)]] && rows_by neqb (get_load sorted_qs c6 (PosNum (fl 1 2)) None (CStr "VY")) [row (fl 1 2) [(fl 5 2)]; row (fl 1 2) [(PInt 10)]] && rows_by neqb (get_load sorted_qs c6 (PosNum (fl 1 2)) None (CStr "N")) [row (fl 1 2) [(fl 7 2)]; row (fl 1 2) [(PInt 10)]] && rows_by neqb (get_load sorted_qs c6 (PosNum (fl 1 2)) None (CStr "MX")) [row (fl 1 2) [(fl 9 2)]; row (fl 1 2) [(PInt 10)]] && rows_by neqb (get_load sorted_qs c6 (PosNum (fl 1 2)) None (CStr "MY")) [row (fl 1 2) [(fl 11 2)]; row (fl 1 2) [(PInt 10)]] && rows_by neqb (get_load sorted_qs c6 (PosNum (fl 1 2)) None (CStr "T")) [row (fl 1 2) [(fl 13 2)]; row (fl 1 2) [(PInt 10)]] = true.
Proof. vm_compute. reflexivity. Qed.

Example test_get_load_multiple_positions3_3 : rows_by neqb (get_load sorted_qs c6 (PosNum (fl 1 2)) None CNone) [row (fl 1 2) [(fl 3 2); (fl 5 2); (fl 7 2); (fl 9 2); (fl 11 2); (fl 13 2)]; row (fl 1 2) [(PInt 10); (PInt 10); (PInt 10); (PInt 10); (PInt 10); (PInt 10)]] = true.
Proof. vm_compute. reflexivity. Qed.

Example test_get_load_multiple_positions2_4 : rows_by allclose (get_load sorted_qs c6 (PosNum (fl 3 5)) None (CStr "VX")) [row (fl 3 5) [(fl 34 5)]] && rows_by allclose (get_load sorted_qs c6 (PosNum (fl 3 5)) None (CStr "VY")) [row (fl 3 5) [(fl 36 5)]] && rows_by allclose (get_load sorted_qs c6 (PosNum (fl 3 5)) None (CStr "N")) [row (fl 3 5) [(fl 38 5)]] && rows_by allclose (get_load sorted_qs c6 (PosNum (fl 3 5)) None (CStr "MX")) [row (fl 3 5) [(fl 8 1)]] && rows_by allclose (get_load sorted_qs c6 (PosNum (fl 3 5)) None (CStr "MY")) [row (fl 3 5) [(fl 42 5)]] && rows_by allclose (get_load sorted_qs c6 (PosNum (fl 3 5)) None (CStr "T")) [row (fl 3 5) [(fl 44 5)]] = true.
Proof. vm_compute. reflexivity. Qed.

Example test_get_load_multiple_positions3_4 : rows_by allclose (get_load sorted_qs c6 (PosNum (fl 3 5)) None CNone) [row (fl 3 5) [(fl 34 5); (fl 36 5); (fl 38 5); (fl 8 1); (fl 42 5); (fl 44 5)]] = true.
Proof. vm_compute. reflexivity. Qed.

Example test_get_load_multiple_positions2_5 : rows_by neqb (get_load sorted_qs c6 (PosNum (fl 3 4)) None (CStr "VX")) [row (fl 3 4) [(PInt 2)]] && rows_by neqb (get_load sorted_qs c6 (PosNum (fl 3 4)) None (CStr "VY")) [row (fl 3 4) [(PInt 3)]] && rows_by neqb (get_load sorted_qs c6 (PosNum (fl 3 4)) None (CStr "N")) [row (fl 3 4) [(PInt 4)]] && rows_by neqb (get_load sorted_qs c6 (PosNum (fl 3 4)) None (CStr "MX")) [row (fl 3 4) [(PInt 5)]] && rows_by neqb (get_load sorted_qs c6 (PosNum (fl 3 4)) None (CStr "MY")) [row (fl 3 4) [(PInt 6)]] && rows_by neqb (get_load sorted_qs c6 (PosNum (fl 3 4)) None (CStr "T")) [row (fl 3 4) [(PInt 7)]] = true.
Proof. vm_compute. reflexivity. Qed.

Example test_get_load_multiple_positions3_5 : rows_by neqb (get_load sorted_qs c6 (PosNum (fl 3 4)) None CNone) [row (fl 3 4) [(PInt 2); (PInt 3); (PInt 4); (PInt 5); (PInt 6); (PInt 7)]] = true.
Proof. vm_compute. reflexivity. Qed.

Example test_get_load_multiple_positions2_6 : rows_by neqb (get_load sorted_qs c6 (PosNum (fl 1 1)) None (CStr "VX")) [row (fl 1 1) [(PInt 3)]] && rows_by neqb (get_load sorted_qs c6 (PosNum (fl 1 1)) None (CStr "VY")) [row (fl 1 1) [(PInt 4)]] && rows_by neqb (get_load sorted_qs c6 (PosNum (fl 1 1)) None (CStr "N")) [row (fl 1 1) [(PInt 5)]] && rows_by neqb (get_load sorted_qs c6 (PosNum (fl 1 1)) None (CStr "MX")) [row (fl 1 1) [(PInt 6)]] && rows_by neqb (get_load sorted_qs c6 (PosNum (fl 1 1)) None (CStr "MY")) [row (fl 1 1) [(PInt 7)]] && rows_by neqb (get_load sorted_qs c6 (PosNum (fl 1 1)) None (CStr "T")) [row (fl 1 1) [(PInt 8)]] = true.
Proof. vm_compute. reflexivity. Qed.

Example test_get_load_multiple_positions3_6 : rows_by neqb (get_load sorted_qs c6 (PosNum (fl 1 1)) None CNone) [row (fl 1 1) [(PInt 3); (PInt 4); (PInt 5); (PInt 6); (PInt 7); (PInt 8)]] = true.
Proof. vm_compute. reflexivity. Qed.

Example test_get_load_multiple_positions4 : rows_by allclose (get_load sorted_qs c6 (PosList [(fl 0 1); (fl 2 5); (fl 1 4); (fl 1 2); (fl 3 5); (fl 3 4); (fl 1 1)]) None CNone) [row (fl 0 1) [(PInt 0); (PInt 0); (PInt 0); (PInt 0); (PInt 0); (PInt 0)]; row (fl 1 4) [(PInt 1); (PInt 2); (PInt 3); (PInt 4); (PInt 5); (PInt 6)]; row (fl 2 5) [(fl 13 10); (fl 23 10); (fl 33 10); (fl 43 10); (fl 53 10); (fl 63 10)]; row (fl 1 2) [(fl 3 2); (fl 5 2); (fl 7 2); (fl 9 2); (fl 11 2); (fl 13 2)]; row (fl 1 2) [(PInt 10); (PInt 10); (PInt 10); (PInt 10); (PInt 10); (PInt 10)]; row (fl 3 5) [(fl 34 5); (fl 36 5); (fl 38 5); (fl 8 1); (fl 42 5); (fl 44 5)]; row (fl 3 4) [(PInt 2); (PInt 3); (PInt 4); (PInt 5); (PInt 6); (PInt 7)]; row (fl 1 1) [(PInt 3); (PInt 4); (PInt 5); (PInt 6); (PInt 7); (PInt 8)]] = true.
Proof. vm_compute. reflexivity. Qed.

Example test_get_load_min_positions : rows_by allclose (get_load sorted_qs c6 PosNone (Some 5) CNone) [row (fl 0 1) [(PInt 0); (PInt 0); (PInt 0); (PInt 0); (PInt 0); (PInt 0)]; row (fl 1 4) [(PInt 1); (PInt 2); (PInt 3); (PInt 4); (PInt 5); (PInt 6)]; row (fl 1 2) [(fl 3 2); (fl 5 2); (fl 7 2); (fl 9 2); (fl 11 2); (fl 13 2)]; row (fl 1 2) [(PInt 10); (PInt 10); (PInt 10); (PInt 10); (PInt 10); (PInt 10)]; row (fl 3 4) [(PInt 2); (PInt 3); (PInt 4); (PInt 5); (PInt 6); (PInt 7)]; row (fl 1 1) [(PInt 3); (PInt 4); (PInt 5); (PInt 6); (PInt 7); (PInt 8)]] = true.
Proof. vm_compute. reflexivity. Qed.

Example test_get_load_position_error : fails (get_load sorted_qs c6 (PosNum (fl 1 2)) (Some 2) CNone) = true.
Proof. vm_compute. reflexivity. Qed.

Example test_get_load_position_error1 : fails (get_load sorted_qs c6 PosNone None CNone) = true.
Proof. vm_compute. reflexivity. Qed.

Example test_constant_load_0 : forallb (fun p => rows_by allclose (let! c := constant_load (fl 0 1) (fl 0 1) (fl 0 1) (fl 0 1) (fl 0 1) (fl 0 1) in get_load sorted_qs c (PosNum p) None CNone) [row p [(PInt 0); (PInt 0); (PInt 0); (PInt 0); (PInt 0); (PInt 0)]]) [fl 1 4; fl 3 4] = true.
Proof. vm_compute. reflexivity. Qed.

Example test_constant_load_1 : forallb (fun p => rows_by allclose (let! c := constant_load (fl 0 1) (fl 3 1) (fl 0 1) (fl 0 1) (fl 0 1) (fl 5 1) in get_load sorted_qs c (PosNum p) None CNone) [row p [(PInt 0); (fl 3 1); (PInt 0); (PInt 0); (PInt 0); (fl 5 1)]]) [fl 1 4; fl 3 4] = true.
Proof. vm_compute. reflexivity. Qed.

(** test_interp.py: [multi_interp] against [np.interp]; the expected values of the last tests by hand. *)

Example test_multi_interp0 : match multi_interp (XList [(fl 0 1)]) [(fl 0 1); (fl 0 1)] (Fp1 [(fl 0 1); (fl 0 1)]) None None with Ok t => all2 (all2 allclose) t [[(fl 0 1)]] | Err _ => false end = true.
Proof. vm_compute. reflexivity. Qed.

Example test_multi_interp1 : match multi_interp (XList [(fl 1 1)]) [(fl 0 1); (fl 1 1)] (Fp1 [(fl 0 1); (fl 1 1)]) None None with Ok t => all2 (all2 allclose) t [[(fl 1 1)]] | Err _ => false end = true.
Proof. vm_compute. reflexivity. Qed.

Example test_multi_interp2 : match multi_interp (XList [(fl 1 2)]) [(fl 0 1); (fl 1 1)] (Fp1 [(fl 0 1); (fl 1 1)]) None None with Ok t => all2 (all2 allclose) t [[(fl 1 2)]] | Err _ => false end = true.
Proof. vm_compute. reflexivity. Qed.

Example test_multi_interp5 : match multi_interp (XList [(fl 1 2); (fl 3 2)]) [(fl 0 1); (fl 1 1); (fl 2 1)] (Fp2 [[(PInt 0); (PInt 1); (PInt 2)]; [(PInt 10); (PInt 11); (PInt 12)]]) None None with Ok t => all2 (all2 allclose) t [[(fl 1 2); (fl 3 2)]; [(fl 21 2); (fl 23 2)]] | Err _ => false end = true.
Proof. vm_compute. reflexivity. Qed.

Example test_multi_interp6_0 : match multi_interp (XList [(fl (-1) 2); (fl 1 2); (fl 3 2); (fl 5 2)]) [(fl 0 1); (fl 1 1); (fl 2 1)] (Fp2 [[(PInt 0); (PInt 1); (PInt 2)]; [(PInt 10); (PInt 11); (PInt 12)]]) (Some (PInt (-50))) None with Ok t => all2 (all2 allclose) t [[(PInt (-50)); (fl 1 2); (fl 3 2); (PInt 2)]; [(PInt (-50)); (fl 21 2); (fl 23 2); (PInt 12)]] | Err _ => false end = true.
Proof. vm_compute. reflexivity. Qed.

Example test_multi_interp7_0 : match multi_interp (XList [(fl (-1) 2); (fl 1 2); (fl 3 2); (fl 5 2)]) [(fl 0 1); (fl 1 1); (fl 1 1); (fl 2 1)] (Fp2 [[(PInt 0); (PInt 1); (PInt 4); (PInt 2)]; [(PInt 10); (PInt 11); (PInt 14); (PInt 12)]]) (Some (PInt (-50))) None with Ok t => all2 (all2 allclose) t [[(PInt (-50)); (fl 1 2); (PInt 3); (PInt 2)]; [(PInt (-50)); (fl 21 2); (PInt 13); (PInt 12)]] | Err _ => false end = true.
Proof. vm_compute. reflexivity. Qed.

Example test_multi_interp6_1 : match multi_interp (XList [(fl (-1) 2); (fl 1 2); (fl 3 2); (fl 5 2)]) [(fl 0 1); (fl 1 1); (fl 2 1)] (Fp2 [[(PInt 0); (PInt 1); (PInt 2)]; [(PInt 10); (PInt 11); (PInt 12)]]) None (Some (PInt 50)) with Ok t => all2 (all2 allclose) t [[(PInt 0); (fl 1 2); (fl 3 2); (PInt 50)]; [(PInt 10); (fl 21 2); (fl 23 2); (PInt 50)]] | Err _ => false end = true.
Proof. vm_compute. reflexivity. Qed.

Example test_multi_interp7_1 : match multi_interp (XList [(fl (-1) 2); (fl 1 2); (fl 3 2); (fl 5 2)]) [(fl 0 1); (fl 1 1); (fl 1 1); (fl 2 1)] (Fp2 [[(PInt 0); (PInt 1); (PInt 4); (PInt 2)]; [(PInt 10); (PInt 11); (PInt 14); (PInt 12)]]) None (Some (PInt 50)) with Ok t => all2 (all2 allclose) t [[(PInt 0); (fl 1 2); (PInt 3); (PInt 50)]; [(PInt 10); (fl 21 2); (PInt 13); (PInt 50)]] | Err _ => false end = true.
Proof. vm_compute. reflexivity. Qed.

Example test_multi_interp6_2 : match multi_interp (XList [(fl (-1) 2); (fl 1 2); (fl 3 2); (fl 5 2)]) [(fl 0 1); (fl 1 1); (fl 2 1)] (Fp2 [[(PInt 0); (PInt 1); (PInt 2)]; [(PInt 10); (PInt 11); (PInt 12)]]) (Some (PInt (-50))) (Some (PInt 50)) with Ok t => all2 (all2 allclose) t [[(PInt (-50)); (fl 1 2); (fl 3 2); (PInt 50)]; [(PInt (-50)); (fl 21 2); (fl 23 2); (PInt 50)]] | Err _ => false end = true.
Proof. vm_compute. reflexivity. Qed.

Example test_multi_interp7_2 : match multi_interp (XList [(fl (-1) 2); (fl 1 2); (fl 3 2); (fl 5 2)]) [(fl 0 1); (fl 1 1); (fl 1 1); (fl 2 1)] (Fp2 [[(PInt 0); (PInt 1); (PInt 4); (PInt 2)]; [(PInt 10); (PInt 11); (PInt 14); (PInt 12)]]) (Some (PInt (-50))) (Some (PInt 50)) with Ok t => all2 (all2 allclose) t [[(PInt (-50)); (fl 1 2); (PInt 3); (PInt 50)]; [(PInt (-50)); (fl 21 2); (PInt 13); (PInt 50)]] | Err _ => false end = true.
Proof. vm_compute. reflexivity. Qed.

Example test_multi_interp8_0 : match multi_interp (XList [(fl (-1) 2); (fl (-1) 4); (fl 0 1); (fl 1 4); (fl 1 2); (fl 3 4); (fl 1 1); (fl 5 4); (fl 3 2); (fl 7 4); (fl 2 1); (fl 9 4); (fl 5 2)]) [(fl 0 1); (fl 1 1); (fl 1 1); (fl 2 1)] (Fp2 [[(PInt 0); (PInt 1); (PInt 4); (PInt 2)]; [(PInt 10); (PInt 11); (PInt 14); (PInt 12)]]) None None with Ok t => all2 (all2 allclose) t [[(PInt 0); (PInt 0); (PInt 0); (fl 1 4); (fl 1 2); (fl 3 4); (PInt 4); (fl 7 2); (PInt 3); (fl 5 2); (PInt 2); (PInt 2); (PInt 2)]; [(PInt 10); (PInt 10); (PInt 10); (fl 41 4); (fl 21 2); (fl 43 4); (PInt 14); (fl 27 2); (PInt 13); (fl 25 2); (PInt 12); (PInt 12); (PInt 12)]] | Err _ => false end = true.
Proof. vm_compute. reflexivity. Qed.

Example test_multi_interp8_1 : match multi_interp (XList [(fl (-1) 2); (fl (-1) 4); (fl 0 1); (fl 1 4); (fl 1 2); (fl 3 4); (fl 1 1); (fl 5 4); (fl 3 2); (fl 7 4); (fl 2 1); (fl 9 4); (fl 5 2)]) [(fl 0 1); (fl 1 1); (fl 1 1); (fl 2 1)] (Fp2 [[(PInt 0); (PInt 1); (PInt 4); (PInt 2)]; [(PInt 10); (PInt 11); (PInt 14); (PInt 12)]]) (Some (PInt (-50))) None with Ok t => all2 (all2 allclose) t [[(PInt (-50)); (PInt (-50)); (PInt 0); (fl 1 4); (fl 1 2); (fl 3 4); (PInt 4); (fl 7 2); (PInt 3); (fl 5 2); (PInt 2); (PInt 2); (PInt 2)]; [(PInt (-50)); (PInt (-50)); (PInt 10); (fl 41 4); (fl 21 2); (fl 43 4); (PInt 14); (fl 27 2); (PInt 13); (fl 25 2); (PInt 12); (PInt 12); (PInt 12)]] | Err _ => false end = true.
Proof. vm_compute. reflexivity. Qed.

Example test_multi_interp8_2 : match multi_interp (XList [(fl (-1) 2); (fl (-1) 4); (fl 0 1); (fl 1 4); (fl 1 2); (fl 3 4); (fl 1 1); (fl 5 4); (fl 3 2); (fl 7 4); (fl 2 1); (fl 9 4); (fl 5 2)]) [(fl 0 1); (fl 1 1); (fl 1 1); (fl 2 1)] (Fp2 [[(PInt 0); (PInt 1); (PInt 4); (PInt 2)]; [(PInt 10); (PInt 11); (PInt 14); (PInt 12)]]) None (Some (PInt 50)) with Ok t => all2 (all2 allclose) t [[(PInt 0); (PInt 0); (PInt 0); (fl 1 4); (fl 1 2); (fl 3 4); (PInt 4); (fl 7 2); (PInt 3); (fl 5 2); (PInt 2); (PInt 50); (PInt 50)]; [(PInt 10); (PInt 10); (PInt 10); (fl 41 4); (fl 21 2); (fl 43 4); (PInt 14); (fl 27 2); (PInt 13); (fl 25 2); (PInt 12); (PInt 50); (PInt 50)]] | Err _ => false end = true.
Proof. vm_compute. reflexivity. Qed.

Example test_multi_interp8_3 : match multi_interp (XList [(fl (-1) 2); (fl (-1) 4); (fl 0 1); (fl 1 4); (fl 1 2); (fl 3 4); (fl 1 1); (fl 5 4); (fl 3 2); (fl 7 4); (fl 2 1); (fl 9 4); (fl 5 2)]) [(fl 0 1); (fl 1 1); (fl 1 1); (fl 2 1)] (Fp2 [[(PInt 0); (PInt 1); (PInt 4); (PInt 2)]; [(PInt 10); (PInt 11); (PInt 14); (PInt 12)]]) (Some (PInt (-50))) (Some (PInt 50)) with Ok t => all2 (all2 allclose) t [[(PInt (-50)); (PInt (-50)); (PInt 0); (fl 1 4); (fl 1 2); (fl 3 4); (PInt 4); (fl 7 2); (PInt 3); (fl 5 2); (PInt 2); (PInt 50); (PInt 50)]; [(PInt (-50)); (PInt (-50)); (PInt 10); (fl 41 4); (fl 21 2); (fl 43 4); (PInt 14); (fl 27 2); (PInt 13); (fl 25 2); (PInt 12); (PInt 50); (PInt 50)]] | Err _ => false end = true.
Proof. vm_compute. reflexivity. Qed.

(** test_element.py *)
Notation elem_p := (elem pynum (section pynum)).

Example test_Element_init : works (empty_element (S := section pynum) (Some (fl 0 1)) None) = true.
Proof. vm_compute. reflexivity. Qed.

Example test_Element_init_length_error : is_err (empty_element (S := section pynum) (Some (fl (-1) 1)) None) ElementLengthError = true.
Proof. vm_compute. reflexivity. Qed.

(** test_beam.py *)
Definition empt (len : pynum) : option elem_p :=
  match empty_element (Some len) None with Ok e => Some e | Err _ => None end.
Definition of_lengths (l : list pynum) : res (beam_t pynum (section pynum)) := beam (BList (map empt l)).
Definition eq_opt (a b : option pynum) : bool := cell_by neqb a b.

Example test_Beam_init : works (empty_beam (S := section pynum) (Some (PInt 0)) None) = true.
Proof. vm_compute. reflexivity. Qed.

Example test_Beam_init_element_errors : is_err (beam (T := pynum) (S := section pynum) BNone) ElementError && is_err (beam (T := pynum) (S := section pynum) (BList [])) ElementError && is_err (beam (T := pynum) (S := section pynum) (BList [None])) ElementError = true.
Proof. vm_compute. reflexivity. Qed.

Example test_Beam_init_element_errors2 : is_err (beam (BList [empt (fl 0 1); None])) ElementError = true.
Proof. vm_compute. reflexivity. Qed.

Example test_Beam_length_0 : at_ neqb (let! b := of_lengths [(fl 1 2); (fl 5 2)] in beam_length b) (fl 3 1) = true.
Proof. vm_compute. reflexivity. Qed.

Example test_Beam_length_1 : at_ neqb (let! b := of_lengths [(fl 1 1); (fl 1 1); (fl 1 1)] in beam_length b) (fl 3 1) = true.
Proof. vm_compute. reflexivity. Qed.

Example test_Beam_length_2 : at_ neqb (let! b := of_lengths [(fl 0 1); (fl 5 1)] in beam_length b) (fl 5 1) = true.
Proof. vm_compute. reflexivity. Qed.

Example test_Beam_element_ends_0 : match (let! b := of_lengths [(fl 1 1); (fl 2 1)] in element_ends b) with Ok l => all2 (fun a b => neqb (fst a) (fst b) && eq_opt (snd a) (snd b)) l [((fl 0 1), Some (fl 1 1)); ((fl 1 1), Some (fl 3 1))] | Err _ => false end = true.
Proof. vm_compute. reflexivity. Qed.

Example test_Beam_element_ends_1 : match (let! b := of_lengths [(fl 1 1); (fl 23 10); (fl 1 2)] in element_ends b) with Ok l => all2 (fun a b => neqb (fst a) (fst b) && eq_opt (snd a) (snd b)) l [((fl 0 1), Some (fl 1 1)); ((fl 1 1), Some (fl 33 10)); ((fl 33 10), Some (fl 19 5))] | Err _ => false end = true.
Proof. vm_compute. reflexivity. Qed.

Example test_Beam_get_element_start_end_0 : match (let! b := of_lengths [(fl 1 1); (fl 23 10); (fl 1 2)] in element_start_end b 0) with Ok p => neqb (fst p) (fl 0 1) && eq_opt (snd p) (Some (fl 1 1)) | Err _ => false end = true.
Proof. vm_compute. reflexivity. Qed.

Example test_Beam_get_element_start_end_1 : match (let! b := of_lengths [(fl 1 1); (fl 23 10); (fl 1 2)] in element_start_end b 1) with Ok p => neqb (fst p) (fl 1 1) && eq_opt (snd p) (Some (fl 33 10)) | Err _ => false end = true.
Proof. vm_compute. reflexivity. Qed.

Example test_Beam_get_element_start_end_2 : match (let! b := of_lengths [(fl 1 1); (fl 23 10); (fl 1 2)] in element_start_end b 2) with Ok p => neqb (fst p) (fl 33 10) && eq_opt (snd p) (Some (fl 19 5)) | Err _ => false end = true.
Proof. vm_compute. reflexivity. Qed.

Example test_Beam_element_ends_2 : match (let! b := of_lengths [(fl 2469 2000); (fl 22839 5000); (fl 1466 625)] in element_ends b) with Ok l => all2 (fun a b => neqb (fst a) (fst b) && eq_opt (snd a) (snd b)) l [((fl 0 1), Some (fl 2469 2000)); ((fl 2469 2000), Some (fl 58023 10000)); ((fl 58023 10000), Some (fl 81479 10000))] | Err _ => false end = true.
Proof. vm_compute. reflexivity. Qed.

Example test_Beam_get_element_start_end_zero_length : match (let! b := of_lengths [fl 0 1] in element_start_end b 0) with Ok p => neqb (fst p) (fl 0 1) && eq_opt (snd p) (Some (fl 0 1)) | Err _ => false end = true.
Proof. vm_compute. reflexivity. Qed.

Example test_Beam_in_element_0 : match (let! b := of_lengths [(fl 1 1); (fl 23 10); (fl 1 2)] in in_elements b (fl (-1) 10)) with Ok l => zlist_eqb l [] | Err _ => false end = true.
Proof. vm_compute. reflexivity. Qed.

Example test_Beam_in_element_1 : match (let! b := of_lengths [(fl 1 1); (fl 23 10); (fl 1 2)] in in_elements b (fl 39 10)) with Ok l => zlist_eqb l [] | Err _ => false end = true.
Proof. vm_compute. reflexivity. Qed.

Example test_Beam_in_element_2 : match (let! b := of_lengths [(fl 1 1); (fl 23 10); (fl 1 2)] in in_elements b (fl 1 2)) with Ok l => zlist_eqb l [0] | Err _ => false end = true.
Proof. vm_compute. reflexivity. Qed.

Example test_Beam_in_element_3 : match (let! b := of_lengths [(fl 1 1); (fl 23 10); (fl 1 2)] in in_elements b (fl 3 2)) with Ok l => zlist_eqb l [1] | Err _ => false end = true.
Proof. vm_compute. reflexivity. Qed.

Example test_Beam_in_element_4 : match (let! b := of_lengths [(fl 1 1); (fl 23 10); (fl 1 2)] in in_elements b (fl 7 2)) with Ok l => zlist_eqb l [2] | Err _ => false end = true.
Proof. vm_compute. reflexivity. Qed.

Example test_Beam_in_element_5 : match (let! b := of_lengths [(fl 1 1); (fl 23 10); (fl 1 2)] in in_elements b (PInt 0)) with Ok l => zlist_eqb l [0] | Err _ => false end = true.
Proof. vm_compute. reflexivity. Qed.

Example test_Beam_in_element_6 : match (let! b := of_lengths [(fl 1 1); (fl 23 10); (fl 1 2)] in in_elements b (fl 19 5)) with Ok l => zlist_eqb l [2] | Err _ => false end = true.
Proof. vm_compute. reflexivity. Qed.

Example test_Beam_in_element_7 : match (let! b := of_lengths [(fl 1 1); (fl 23 10); (fl 1 2)] in in_elements b (fl 1 1)) with Ok l => zlist_eqb l [0; 1] | Err _ => false end = true.
Proof. vm_compute. reflexivity. Qed.

Example test_Beam_in_element_8 : match (let! b := of_lengths [(fl 1 1); (fl 23 10); (fl 1 2)] in in_elements b (fl 33 10)) with Ok l => zlist_eqb l [1; 2] | Err _ => false end = true.
Proof. vm_compute. reflexivity. Qed.

Example test_Beam_beam_to_local_0 : at_ neqb (let! b := of_lengths [(fl 1 1); (fl 0 1); (fl 23 10); (fl 1 2)] in beam_to_local b (fl 1 2) 0) (fl 1 2) = true.
Proof. vm_compute. reflexivity. Qed.

Example test_Beam_beam_to_local_1 : at_ neqb (let! b := of_lengths [(fl 1 1); (fl 0 1); (fl 23 10); (fl 1 2)] in beam_to_local b (fl 1 1) 0) (fl 1 1) = true.
Proof. vm_compute. reflexivity. Qed.

Example test_Beam_beam_to_local_2 : at_ neqb (let! b := of_lengths [(fl 1 1); (fl 0 1); (fl 23 10); (fl 1 2)] in beam_to_local b (fl 1 1) 2) (fl 0 1) = true.
Proof. vm_compute. reflexivity. Qed.

Example test_Beam_beam_to_local_3 : at_ neqb (let! b := of_lengths [(fl 1 1); (fl 0 1); (fl 23 10); (fl 1 2)] in beam_to_local b (fl 3 2) 2) (ndiv (fl 1 2) (fl 23 10)) = true.
Proof. vm_compute. reflexivity. Qed.

Example test_Beam_beam_to_local_4 : at_ neqb (let! b := of_lengths [(fl 1 1); (fl 0 1); (fl 23 10); (fl 1 2)] in beam_to_local b (fl 33 10) 2) (fl 1 1) = true.
Proof. vm_compute. reflexivity. Qed.

Example test_Beam_beam_to_local_5 : at_ neqb (let! b := of_lengths [(fl 1 1); (fl 0 1); (fl 23 10); (fl 1 2)] in beam_to_local b (fl 33 10) 3) (fl 0 1) = true.
Proof. vm_compute. reflexivity. Qed.

Example test_Beam_beam_to_local_6 : at_ neqb (let! b := of_lengths [(fl 1 1); (fl 0 1); (fl 23 10); (fl 1 2)] in beam_to_local b (fl 71 20) 3) (fl 1 2) = true.
Proof. vm_compute. reflexivity. Qed.

Example test_Beam_beam_to_local_7 : at_ neqb (let! b := of_lengths [(fl 1 1); (fl 0 1); (fl 23 10); (fl 1 2)] in beam_to_local b (fl 19 5) 3) (fl 1 1) = true.
Proof. vm_compute. reflexivity. Qed.

Example test_Beam_beam_to_local_error : is_err (let! b := of_lengths [(fl 1 1); (fl 0 1); (fl 23 10); (fl 1 2)] in beam_to_local b (fl 1 1) 1) ElementLengthError = true.
Proof. vm_compute. reflexivity. Qed.

Example test_Beam_beam_to_local_error2_0 : is_err (let! b := of_lengths [(fl 1 1); (fl 0 1); (fl 23 10); (fl 1 2)] in beam_to_local b (fl (-1) 2) 0) PositionNotInElementError = true.
Proof. vm_compute. reflexivity. Qed.

Example test_Beam_beam_to_local_error2_1 : is_err (let! b := of_lengths [(fl 1 1); (fl 0 1); (fl 23 10); (fl 1 2)] in beam_to_local b (fl 1 2) 1) PositionNotInElementError = true.
Proof. vm_compute. reflexivity. Qed.

Example test_Beam_beam_to_local_error2_2 : is_err (let! b := of_lengths [(fl 1 1); (fl 0 1); (fl 23 10); (fl 1 2)] in beam_to_local b (fl 11 10) 0) PositionNotInElementError = true.
Proof. vm_compute. reflexivity. Qed.

Example test_Beam_beam_to_local_error2_3 : is_err (let! b := of_lengths [(fl 1 1); (fl 0 1); (fl 23 10); (fl 1 2)] in beam_to_local b (fl 11 10) 1) PositionNotInElementError = true.
Proof. vm_compute. reflexivity. Qed.

Example test_Beam_beam_to_local_error2_4 : is_err (let! b := of_lengths [(fl 1 1); (fl 0 1); (fl 23 10); (fl 1 2)] in beam_to_local b (fl 39 10) 3) PositionNotInElementError = true.
Proof. vm_compute. reflexivity. Qed.

Example test_Beam_local_to_beam_position_0 : at_ neqb (let! b := of_lengths [(fl 1 1); (fl 0 1); (fl 23 10); (fl 1 2)] in local_to_beam b (fl 0 1) 0) (fl 0 1) = true.
Proof. vm_compute. reflexivity. Qed.

Example test_Beam_local_to_beam_position_1 : at_ neqb (let! b := of_lengths [(fl 1 1); (fl 0 1); (fl 23 10); (fl 1 2)] in local_to_beam b (fl 1 2) 0) (fl 1 2) = true.
Proof. vm_compute. reflexivity. Qed.

Example test_Beam_local_to_beam_position_2 : at_ neqb (let! b := of_lengths [(fl 1 1); (fl 0 1); (fl 23 10); (fl 1 2)] in local_to_beam b (fl 1 1) 0) (fl 1 1) = true.
Proof. vm_compute. reflexivity. Qed.

Example test_Beam_local_to_beam_position_3 : at_ neqb (let! b := of_lengths [(fl 1 1); (fl 0 1); (fl 23 10); (fl 1 2)] in local_to_beam b (fl 0 1) 1) (fl 1 1) = true.
Proof. vm_compute. reflexivity. Qed.

Example test_Beam_local_to_beam_position_4 : at_ neqb (let! b := of_lengths [(fl 1 1); (fl 0 1); (fl 23 10); (fl 1 2)] in local_to_beam b (fl 1 2) 1) (fl 1 1) = true.
Proof. vm_compute. reflexivity. Qed.

Example test_Beam_local_to_beam_position_5 : at_ neqb (let! b := of_lengths [(fl 1 1); (fl 0 1); (fl 23 10); (fl 1 2)] in local_to_beam b (fl 1 1) 1) (fl 1 1) = true.
Proof. vm_compute. reflexivity. Qed.

Example test_Beam_local_to_beam_position_6 : at_ neqb (let! b := of_lengths [(fl 1 1); (fl 0 1); (fl 23 10); (fl 1 2)] in local_to_beam b (fl 0 1) 2) (fl 1 1) = true.
Proof. vm_compute. reflexivity. Qed.

Example test_Beam_local_to_beam_position_7 : at_ neqb (let! b := of_lengths [(fl 1 1); (fl 0 1); (fl 23 10); (fl 1 2)] in local_to_beam b (fl 1 2) 2) (fl 43 20) = true.
Proof. vm_compute. reflexivity. Qed.

Example test_Beam_local_to_beam_position_8 : at_ neqb (let! b := of_lengths [(fl 1 1); (fl 0 1); (fl 23 10); (fl 1 2)] in local_to_beam b (fl 1 1) 2) (fl 33 10) = true.
Proof. vm_compute. reflexivity. Qed.

Example test_Beam_local_to_beam_position_9 : at_ neqb (let! b := of_lengths [(fl 1 1); (fl 0 1); (fl 23 10); (fl 1 2)] in local_to_beam b (fl 0 1) 3) (fl 33 10) = true.
Proof. vm_compute. reflexivity. Qed.

Example test_Beam_local_to_beam_position_10 : at_ neqb (let! b := of_lengths [(fl 1 1); (fl 0 1); (fl 23 10); (fl 1 2)] in local_to_beam b (fl 1 2) 3) (fl 71 20) = true.
Proof. vm_compute. reflexivity. Qed.

Example test_Beam_local_to_beam_position_11 : at_ neqb (let! b := of_lengths [(fl 1 1); (fl 0 1); (fl 23 10); (fl 1 2)] in local_to_beam b (fl 1 1) 3) (fl 19 5) = true.
Proof. vm_compute. reflexivity. Qed.

Example test_Beam_local_to_beam_position_error : forallb (fun p => forallb (fun k => is_err (let! b := of_lengths [(fl 1 1); (fl 0 1); (fl 23 10); (fl 1 2)] in local_to_beam b p k) PositionNotInElementError) [0; 1; 2; 3]) [(PInt (-1)); (fl (-1) 10); (fl 11 10); (fl 2 1)] = true.
Proof. vm_compute. reflexivity. Qed.

Example test_Beam_get_loads_position_0 : rows_by allclose (beam_get_loads sorted_qs b4 0 (PosNum (fl 0 1)) None CNone) [same (fl 0 1) (fl 1 2)] = true.
Proof. vm_compute. reflexivity. Qed.

Example test_Beam_get_loads_position_1 : rows_by allclose (beam_get_loads sorted_qs b4 0 (PosNum (fl 1 1)) None CNone) [same (fl 1 1) (fl 1 2); same (fl 1 1) (fl 5 1); same (fl 1 1) (fl 5 2)] = true.
Proof. vm_compute. reflexivity. Qed.

Example test_Beam_get_loads_position_2 : rows_by allclose (beam_get_loads sorted_qs b4 0 (PosNum (fl 2 1)) None CNone) [same (fl 2 1) (fl 5 2)] = true.
Proof. vm_compute. reflexivity. Qed.

Example test_Beam_get_loads_position_3 : rows_by allclose (beam_get_loads sorted_qs b4 0 (PosNum (fl 33 10)) None CNone) [same (fl 33 10) (fl 5 2); same (fl 33 10) (fl 25 1)] = true.
Proof. vm_compute. reflexivity. Qed.

Example test_Beam_get_loads_position_4 : rows_by allclose (beam_get_loads sorted_qs b4 0 (PosNum (fl 19 5)) None CNone) [same (fl 19 5) (fl 25 1)] = true.
Proof. vm_compute. reflexivity. Qed.

Example test_Beam_get_loads_positions2 : rows_by allclose (beam_get_loads sorted_qs b4 0 (PosList [(fl 1 2); (fl 3 2); (fl 5 2); (fl 7 2)]) None CNone) [same (fl 1 2) (fl 1 2); same (fl 3 2) (fl 5 2); same (fl 5 2) (fl 5 2); same (fl 7 2) (fl 25 1)] = true.
Proof. vm_compute. reflexivity. Qed.

Definition bz : beam_t pynum (section pynum) :=
  let l := get None (load_case (InRows [row6 (f 0) (f 5); row6 (F 5 10) (f (-10)); row6 (f 1) (f 5)])) in
  get [] (beam (BList [Some (const_el (f 1) (F 5 10)); Some (get (mk_elem None None []) (element [(0, l)] (Some (PInt 0)) None));
    Some (const_el (F 23 10) (F 25 10)); Some (const_el (F 5 10) (f 25))])).

Example test_Beam_get_loads_position3 : rows_by allclose (beam_get_loads sorted_qs bz 0 (PosNum (fl 1 1)) None CNone) [same (fl 1 1) (fl 1 2); same (fl 1 1) (fl 5 1); same (fl 1 1) (fl (-10) 1); same (fl 1 1) (fl 5 1); same (fl 1 1) (fl 5 2)] = true.
Proof. vm_compute. reflexivity. Qed.

Example test_Beam_get_loads_min_positions2 : rows_by allclose (beam_get_loads sorted_qs bz 0 (PosNone) (Some 5) CNone) [same (fl 0 1) (fl 1 2); same (fl 19 20) (fl 1 2); same (fl 1 1) (fl 1 2); same (fl 1 1) (fl 5 1); same (fl 1 1) (fl (-10) 1); same (fl 1 1) (fl 5 1); same (fl 1 1) (fl 5 2); same (fl 19 10) (fl 5 2); same (fl 57 20) (fl 5 2); same (fl 33 10) (fl 5 2); same (fl 33 10) (fl 25 1); same (fl 19 5) (fl 25 1)] = true.
Proof. vm_compute. reflexivity. Qed.

Definition bm : beam_t pynum (section pynum) :=
  let c v := get None (constant_load v v v v v v) in
  get [] (let! e := element [(0, c (F 25 10)); (1, c (f 5))] (Some (f 1)) None in beam (BElem e)).

Example test_Beam_get_loads_multiple_load_cases_0 : rows_by allclose (beam_get_loads sorted_qs bm 0 (PosNum (fl 1 2)) None CNone) [same (fl 1 2) (fl 5 2)] = true.
Proof. vm_compute. reflexivity. Qed.

Example test_Beam_get_loads_multiple_load_cases_1 : rows_by allclose (beam_get_loads sorted_qs bm 1 (PosNum (fl 1 2)) None CNone) [same (fl 1 2) (fl 5 1)] = true.
Proof. vm_compute. reflexivity. Qed.

Example test_Beam_get_loads_error_0 : is_err (beam_get_loads sorted_qs b4 0 (PosNum (fl (-1) 10)) None CNone) PositionNotInBeamError = true.
Proof. vm_compute. reflexivity. Qed.

Example test_Beam_get_loads_error_1 : is_err (beam_get_loads sorted_qs b4 0 (PosList [(fl (-1) 10); (fl 1 1)]) None CNone) PositionNotInBeamError = true.
Proof. vm_compute. reflexivity. Qed.

Example test_Beam_get_loads_error_2 : is_err (beam_get_loads sorted_qs b4 0 (PosList [(fl 1 1); (fl 4 1)]) None CNone) PositionNotInBeamError = true.
Proof. vm_compute. reflexivity. Qed.

Example test_Beam_get_loads_error_3 : is_err (beam_get_loads sorted_qs b4 0 (PosNum (fl 4 1)) None CNone) PositionNotInBeamError = true.
Proof. vm_compute. reflexivity. Qed.

Definition with_sections (l : list (pynum * option (section pynum))) : res (beam_t pynum (section pynum)) :=
  let! es := mapM (fun p => empty_element (Some (fst p)) (snd p)) l in beam (BList (map Some es)).
Definition s2 := circ (F 2 100).
Definition s4 := circ (F 4 100).
Definition s6 := circ (F 6 100).
Definition bs : res (beam_t pynum (section pynum)) := with_sections [(F 5 10, s2); (f 0, s4); (F 5 10, s6)].
(** Sections told apart by their radius ([Section] has no [__eq__]; these three differ in radius). *)
Definition radius_of (s : option (section pynum)) : option pynum :=
  match s with Some (SCircle r _) => Some r | _ => None end.
Definition same_section (a b : option (section pynum)) : bool := eq_opt (radius_of a) (radius_of b).
Definition found (r : res (list pynum * list (option (section pynum)))) (ps : list pynum) (ss : list (option (section pynum))) : bool :=
  match r with Ok (p, s) => all2 neqb p ps && all2 same_section s ss | Err _ => false end.

Example test_Beam_sections : match bs with Ok b => all2 same_section (beam_sections b) [s2; s4; s6] | Err _ => false end = true.
Proof. vm_compute. reflexivity. Qed.

Example test_Beam_get_section_none : found (let! b := with_sections [(f 1, None)] in beam_get_section b (PosNum (fl 1 2)) None None) [(fl 1 2)] [None] = true.
Proof. vm_compute. reflexivity. Qed.

Example test_Beam_get_section_0 : found (let! b := with_sections [(F 5 10, s2); (F 5 10, s4)] in beam_get_section b (PosNum (fl 1 4)) None None) [(fl 1 4)] [s2] = true.
Proof. vm_compute. reflexivity. Qed.

Example test_Beam_get_section_1 : found (let! b := with_sections [(F 5 10, s2); (F 5 10, s4)] in beam_get_section b (PosNum (fl 3 4)) None None) [(fl 3 4)] [s4] = true.
Proof. vm_compute. reflexivity. Qed.

Example test_Beam_get_section_on_element_boundary : found (let! b := with_sections [(F 5 10, s2); (F 5 10, s4)] in beam_get_section b (PosNum (fl 1 2)) None None) [(fl 1 2); (fl 1 2)] [s2; s4] = true.
Proof. vm_compute. reflexivity. Qed.

Example test_Beam_get_section_on_zero_length_element : found (let! b := with_sections [(f 0, None)] in beam_get_section b (PosNum (fl 0 1)) None None) [(fl 0 1); (fl 0 1)] [None; None] = true.
Proof. vm_compute. reflexivity. Qed.

Example test_Beam_get_section_on_zero_length_element_2a : found (let! b := bs in beam_get_section b (PosNum (fl 4999999 10000000)) None None) [(fl 4999999 10000000)] [s2] = true.
Proof. vm_compute. reflexivity. Qed.

Example test_Beam_get_section_on_zero_length_element_2b : found (let! b := bs in beam_get_section b (PosNum (fl 1 2)) None None) [(fl 1 2); (fl 1 2); (fl 1 2); (fl 1 2)] [s2; s4; s4; s6] = true.
Proof. vm_compute. reflexivity. Qed.

Example test_Beam_get_section_on_zero_length_element_2c : found (let! b := bs in beam_get_section b (PosNum (fl 5000001 10000000)) None None) [(fl 5000001 10000000)] [s6] = true.
Proof. vm_compute. reflexivity. Qed.

Example test_Beam_get_section_multiple : found (let! b := bs in beam_get_section b (PosList [(fl 1 4); (fl 1 2); (fl 3 4)]) None None) [(fl 1 4); (fl 1 2); (fl 1 2); (fl 1 2); (fl 1 2); (fl 3 4)] [s2; s2; s4; s4; s6; s6] = true.
Proof. vm_compute. reflexivity. Qed.

Example test_Beam_get_section_outside_range_err_0 : is_err (let! b := bs in beam_get_section b (PosNum (fl (-1) 10)) None None) PositionNotInBeamError = true.
Proof. vm_compute. reflexivity. Qed.

Example test_Beam_get_section_outside_range_err_1 : is_err (let! b := bs in beam_get_section b (PosNum (fl 11 10)) None None) PositionNotInBeamError = true.
Proof. vm_compute. reflexivity. Qed.

(** test_circle.py and test_AS4100_sectprops.py *)

Example test_Circle_area : isclose9 (circle_area (F 2 100)) (fl 15707963267949 12500000000000000) = true.
Proof. vm_compute. reflexivity. Qed.

Example test_circle_min_fy : forallb (fun re => at_ isclose9 (let! s := as_factory (circ (fst re)) in min_fy s) (snd re)) [((fl 3 1000), fl 280000000 1); ((fl 1 250), fl 280000000 1); ((fl 1 200), fl 260000000 1); ((fl 9 1000), fl 250000000 1); ((fl 1 40), fl 250000000 1); ((fl 51 2000), fl 240000000 1); ((fl 1 25), fl 240000000 1); ((fl 3 50), fl 230000000 1); ((fl 3 40), fl 230000000 1); ((fl 1 10), fl 220000000 1)] = true.
Proof. vm_compute. reflexivity. Qed.

Example test_circle_min_fu : forallb (fun re => at_ isclose9 (let! s := as_factory (circ (fst re)) in min_fu s) (snd re)) [((fl 3 1000), fl 410000000 1); ((fl 1 250), fl 410000000 1); ((fl 1 200), fl 410000000 1); ((fl 9 1000), fl 410000000 1); ((fl 1 40), fl 410000000 1); ((fl 51 2000), fl 410000000 1); ((fl 1 25), fl 410000000 1); ((fl 3 50), fl 410000000 1); ((fl 3 40), fl 410000000 1); ((fl 2 25), fl 400000000 1); ((fl 1 10), fl 400000000 1)] = true.
Proof. vm_compute. reflexivity. Qed.

Example test_circle_Ag : match as_factory (circ (F 2 100)) with Ok s => isclose9 (Ag s) (nmul npi (nmul (F 2 100) (F 2 100))) | Err _ => false end = true.
Proof. vm_compute. reflexivity. Qed.

Example test_circle_An : match as_factory (circ (F 2 100)) with Ok s => isclose9 (An s) (nmul npi (nmul (F 2 100) (F 2 100))) | Err _ => false end = true.
Proof. vm_compute. reflexivity. Qed.

(** test_material.py *)

Definition m_eq (a b : res (material pynum)) : bool := match a, b with Ok x, Ok y => mat_eqb x y | _, _ => false end.

Example test_material_eq : m_eq (make_material (TStr "steel") (TStr "HR250") (TStr "AS3678") [("E"%string, TNum (fl 200000000000 1)); ("strengths"%string, TTable [[(fl 1 125); (fl 3 250); (fl 1 50); (fl 1 20); (fl 2 25); (fl 3 20); (fl 1 5)]; [fl 280000000 1; fl 260000000 1; fl 250000000 1; fl 250000000 1; fl 240000000 1; fl 230000000 1; fl 220000000 1]; [fl 410000000 1; fl 410000000 1; fl 410000000 1; fl 410000000 1; fl 410000000 1; fl 410000000 1; fl 400000000 1]])]) (make_material (TStr "steel") (TStr "HR250") (TStr "AS3678") [("E"%string, TNum (fl 200000000000 1)); ("strengths"%string, TTable [[(fl 1 125); (fl 3 250); (fl 1 50); (fl 1 20); (fl 2 25); (fl 3 20); (fl 1 5)]; [fl 280000000 1; fl 260000000 1; fl 250000000 1; fl 250000000 1; fl 240000000 1; fl 230000000 1; fl 220000000 1]; [fl 410000000 1; fl 410000000 1; fl 410000000 1; fl 410000000 1; fl 410000000 1; fl 410000000 1; fl 400000000 1]])]) && negb (m_eq (make_material (TStr "steel") (TStr "HR250") (TStr "AS3678") [("E"%string, TNum (fl 200000000000 1)); ("strengths"%string, TTable [[(fl 1 125); (fl 3 250); (fl 1 50); (fl 1 20); (fl 2 25); (fl 3 20); (fl 1 5)]; [fl 280000000 1; fl 260000000 1; fl 250000000 1; fl 250000000 1; fl 240000000 1; fl 230000000 1; fl 220000000 1]; [fl 410000000 1; fl 410000000 1; fl 410000000 1; fl 410000000 1; fl 410000000 1; fl 410000000 1; fl 400000000 1]])]) (make_material (TStr "steel") (TStr "HR250") (TStr "AS3678") [("E"%string, TNum (fl 200000000000 1)); ("strengths"%string, TTable [[(fl 1 125); (fl 3 250); (fl 1 50); (fl 1 20); (fl 2 25); (fl 3 20); (fl 1 5)]; [fl 320000000 1; fl 310000000 1; fl 300000000 1; fl 280000000 1; fl 270000000 1; fl 260000000 1; fl 250000000 1]; [fl 430000000 1; fl 430000000 1; fl 430000000 1; fl 430000000 1; fl 430000000 1; fl 430000000 1; fl 420000000 1]])])) = true.
Proof. vm_compute. reflexivity. Qed.

Example test_load_material : m_eq (load_material material_toml "AS3678-2016-250") (make_material (TStr "steel") (TStr "250") (TStr "AS3678-2016") [("E"%string, TNum (fl 200000000000 1)); ("strengths"%string, TTable [[(fl 1 125); (fl 3 250); (fl 1 50); (fl 1 20); (fl 2 25); (fl 3 20); (fl 1 5)]; [fl 280000000 1; fl 260000000 1; fl 250000000 1; fl 250000000 1; fl 240000000 1; fl 230000000 1; fl 220000000 1]; [fl 410000000 1; fl 410000000 1; fl 410000000 1; fl 410000000 1; fl 410000000 1; fl 410000000 1; fl 400000000 1]])]) && m_eq (load_material material_toml "AS3678-2016-300") (make_material (TStr "steel") (TStr "300") (TStr "AS3678-2016") [("E"%string, TNum (fl 200000000000 1)); ("strengths"%string, TTable [[(fl 1 125); (fl 3 250); (fl 1 50); (fl 1 20); (fl 2 25); (fl 3 20); (fl 1 5)]; [fl 320000000 1; fl 310000000 1; fl 300000000 1; fl 280000000 1; fl 270000000 1; fl 260000000 1; fl 250000000 1]; [fl 430000000 1; fl 430000000 1; fl 430000000 1; fl 430000000 1; fl 430000000 1; fl 430000000 1; fl 420000000 1]])]) = true.
Proof. vm_compute. reflexivity. Qed.

Example test_load_material_propertyless : match load_material (T := pynum) material_toml "test_propertyless" with Ok m => match mprops m with [] => true | _ => false end | Err _ => false end = true.
Proof. vm_compute. reflexivity. Qed.

(** test_AS4100.py *)
Definition new_as (b : option (beam_t pynum (section pynum))) (s : option (section pynum)) : res (as4100 pynum) :=
  make_as4100 (F 9 10) (F 85 100) (f 1) b s.
Definition of_beam (b : res (beam_t pynum (section pynum))) : res (as4100 pynum) := let! b := b in new_as (Some b) None.
Definition a_bs := of_beam bs.
Definition a_s2 := new_as None s2.
Definition a_b2 := of_beam (with_sections [(f 1, s2)]).
Definition as3678_300 : material pynum :=
  get (mk_material None TOther TOther []) (load_material material_toml "AS3678-2016-300").
Definition a_gr := of_beam (with_sections [(F 5 10, s2); (F 5 10, match circle (Some as3678_300) (F 2 100) with Ok s => Some s | Err _ => None end)]).
Definition area (r : pynum) : pynum := nmul npi (nmul r r).
Definition yld (fy : Z) (r : pynum) : pynum := nmul (fl fy 1) (area r).
Definition ult (r : pynum) : pynum := nmul (nmul (nmul (F 85 100) (f 1)) (fl 410000000 1)) (area r).

Example test_AS4100 : works a_s2 && works (let! e := constant_load_element 0 (PInt 0) (PInt 0) (PInt 0) (PInt 0) (PInt 0) (PInt 0) (Some (fl 0 1)) s2 in of_beam (beam (BElem e))) = true.
Proof. vm_compute. reflexivity. Qed.

Example test_AS4100_default : works (default_as4100 None s2) = true.
Proof. vm_compute. reflexivity. Qed.

Example test_AS4100_beam_section_None_error : is_err (new_as None None) CodeCheckError = true.
Proof. vm_compute. reflexivity. Qed.

Example test_AS4100_sections : all2 same_section (sections_of None s2) [s2] && match bs with Ok b => all2 same_section (sections_of (Some b) None) [s2; s4; s6] | Err _ => false end = true.
Proof. vm_compute. reflexivity. Qed.

Example test_AS4100_get_section_error : is_err (let! a := a_s2 in cc_get_section a PosNone None None) SectionOnlyError = true.
Proof. vm_compute. reflexivity. Qed.

Example test_AS4100_get_section_error2 : is_err (let! a := of_beam (empty_beam (Some (PInt 0)) s2) in cc_get_section a PosNone None None) InvalidPositionError = true.
Proof. vm_compute. reflexivity. Qed.

Example test_AS4100_get_section : found (let! a := of_beam (empty_beam (Some (PInt 0)) s2) in cc_get_section a (PosNum (f 0)) None None) [f 0; f 0] [s2; s2] = true.
Proof. vm_compute. reflexivity. Qed.

Example test_AS4100_get_section2_0 : found (let! a := a_bs in cc_get_section a (PosNum (fl 1 4)) None None) [(fl 1 4)] [s2] = true.
Proof. vm_compute. reflexivity. Qed.

Example test_AS4100_get_section2_1 : found (let! a := a_bs in cc_get_section a (PosNum (fl 1 2)) None None) [(fl 1 2); (fl 1 2); (fl 1 2); (fl 1 2)] [s2; s4; s4; s6] = true.
Proof. vm_compute. reflexivity. Qed.

Example test_AS4100_get_section2_2 : found (let! a := a_bs in cc_get_section a (PosNum (fl 3 4)) None None) [(fl 3 4)] [s6] = true.
Proof. vm_compute. reflexivity. Qed.

Definition a_ten (mid : pynum) : res (as4100 pynum) :=
  let l := get None (load_case (InRows [row6 (f 0) (f 1); [F 5 10; f 1; f 1; mid; f 1; f 1; f 1]; row6 (f 1) (f 1)])) in
  let! e := element [(1, l)] (Some (f 1)) s2 in let! b := beam (BElem e) in default_as4100 (Some b) None.

Example test_as4100_get_tension_0 : rows_by allclose (let! a := a_ten (fl 1 1) in let! r := get_tension sorted_qs a 1 PosNone (Some 3) in Ok (Some r)) [row (fl 0 1) [(fl 1 1)]; row (fl 1 2) [(fl 1 1)]; row (fl 1 1) [(fl 1 1)]] = true.
Proof. vm_compute. reflexivity. Qed.

Example test_as4100_get_tension_1 : rows_by allclose (let! a := a_ten (fl (-1) 1) in let! r := get_tension sorted_qs a 1 PosNone (Some 3) in Ok (Some r)) [row (fl 0 1) [(fl 1 1)]; row (fl 1 2) [(fl 0 1)]; row (fl 1 1) [(fl 1 1)]] = true.
Proof. vm_compute. reflexivity. Qed.

Example test_as4100_get_tension2 : rows_by allclose (let! a := a_ten (f (-1)) in let! r := get_tension sorted_qs a 1 PosNone (Some 9) in Ok (Some r)) [row (fl 0 1) [(fl 1 1)]; row (fl 1 8) [(fl 1 2)]; row (fl 1 4) [(fl 0 1)]; row (fl 3 8) [(fl 0 1)]; row (fl 1 2) [(fl 0 1)]; row (fl 5 8) [(fl 0 1)]; row (fl 3 4) [(fl 0 1)]; row (fl 7 8) [(fl 1 2)]; row (fl 1 1) [(fl 1 1)]] = true.
Proof. vm_compute. reflexivity. Qed.

Example test_AS4100_Nt : at_ isclose9 (let! a := a_s2 in Nt a (PosNone)) (yld 250000000 (F 2 100)) = true.
Proof. vm_compute. reflexivity. Qed.

Example test_AS4100_Nt_phi : at_ isclose9 (let! a := a_s2 in phiNt a (PosNone)) (nmul (F 9 10) (yld 250000000 (F 2 100))) = true.
Proof. vm_compute. reflexivity. Qed.

Example test_AS4100_Nt_multiple_sections : at_ isclose9 (let! a := a_bs in Nt a (PosNone)) (yld 250000000 (F 2 100)) = true.
Proof. vm_compute. reflexivity. Qed.

Example test_AS4100_Nt_multiple_sections_phi : at_ isclose9 (let! a := a_bs in phiNt a (PosNone)) (nmul (F 9 10) (yld 250000000 (F 2 100))) = true.
Proof. vm_compute. reflexivity. Qed.

Example test_AS4100_Nt_multiple_grades : at_ isclose9 (let! a := a_gr in Nt a (PosNone)) (yld 250000000 (F 2 100)) = true.
Proof. vm_compute. reflexivity. Qed.

Example test_AS4100_Nt_multiple_grades_phi : at_ isclose9 (let! a := a_gr in phiNt a (PosNone)) (nmul (F 9 10) (yld 250000000 (F 2 100))) = true.
Proof. vm_compute. reflexivity. Qed.

Example test_AS4100_Nt_multiple_grades_075 : at_ isclose9 (let! a := a_gr in Nt a (PosNum (fl 3 4))) (yld 280000000 (F 2 100)) = true.
Proof. vm_compute. reflexivity. Qed.

Example test_AS4100_Nty : at_ isclose9 (let! a := a_s2 in Nty a (PosNone)) (yld 250000000 (F 2 100)) = true.
Proof. vm_compute. reflexivity. Qed.

Example test_AS4100_Nty2_0 : at_ isclose9 (let! a := a_b2 in Nty a (PosNone)) (yld 250000000 (F 2 100)) = true.
Proof. vm_compute. reflexivity. Qed.

Example test_AS4100_Nty2_1 : at_ isclose9 (let! a := a_b2 in Nty a (PosNum (fl 0 1))) (yld 250000000 (F 2 100)) = true.
Proof. vm_compute. reflexivity. Qed.

Example test_AS4100_Nty2_2 : at_ isclose9 (let! a := a_b2 in Nty a (PosNum (fl 1 4))) (yld 250000000 (F 2 100)) = true.
Proof. vm_compute. reflexivity. Qed.

Example test_AS4100_Nty2_3 : at_ isclose9 (let! a := a_b2 in Nty a (PosNum (fl 1 2))) (yld 250000000 (F 2 100)) = true.
Proof. vm_compute. reflexivity. Qed.

Example test_AS4100_Nty2_4 : at_ isclose9 (let! a := a_b2 in Nty a (PosNum (fl 3 4))) (yld 250000000 (F 2 100)) = true.
Proof. vm_compute. reflexivity. Qed.

Example test_AS4100_Nty2_5 : at_ isclose9 (let! a := a_b2 in Nty a (PosNum (fl 1 1))) (yld 250000000 (F 2 100)) = true.
Proof. vm_compute. reflexivity. Qed.

Example test_AS4100_Nty3_0 : at_ isclose9 (let! a := a_bs in Nty a (PosNone)) (yld 250000000 (F 2 100)) = true.
Proof. vm_compute. reflexivity. Qed.

Example test_AS4100_Nty3_1 : at_ isclose9 (let! a := a_bs in Nty a (PosNum (fl 1 4))) (yld 250000000 (F 2 100)) = true.
Proof. vm_compute. reflexivity. Qed.

Example test_AS4100_Nty3_2 : at_ isclose9 (let! a := a_bs in Nty a (PosNum (fl 1 2))) (yld 250000000 (F 2 100)) = true.
Proof. vm_compute. reflexivity. Qed.

Example test_AS4100_Nty3_3 : at_ isclose9 (let! a := a_bs in Nty a (PosNum (fl 3 4))) (yld 230000000 (F 6 100)) = true.
Proof. vm_compute. reflexivity. Qed.

Example test_AS4100_Nty3_4 : at_ isclose9 (let! a := a_bs in Nty a (PosNum (fl 1 1))) (yld 230000000 (F 6 100)) = true.
Proof. vm_compute. reflexivity. Qed.

Example test_AS4100_Nty_multi_positions_0 : at_ isclose9 (let! a := a_bs in Nty a (PosList [(fl 1 4); (fl 3 4)])) (yld 250000000 (F 2 100)) = true.
Proof. vm_compute. reflexivity. Qed.

Example test_AS4100_Nty_multi_positions_1 : at_ isclose9 (let! a := a_bs in Nty a (PosList [(fl 1 2); (fl 3 4); (fl 1 1)])) (yld 250000000 (F 2 100)) = true.
Proof. vm_compute. reflexivity. Qed.

Example test_AS4100_Nty_multi_positions_2 : at_ isclose9 (let! a := a_bs in Nty a (PosList [(fl 3 4); (fl 1 1)])) (yld 230000000 (F 6 100)) = true.
Proof. vm_compute. reflexivity. Qed.

Example test_AS4100_Ntu : at_ isclose9 (let! a := a_s2 in Ntu a (PosNone)) (ult (F 2 100)) = true.
Proof. vm_compute. reflexivity. Qed.

Example test_AS4100_Ntu2_0 : at_ isclose9 (let! a := a_b2 in Ntu a (PosNone)) (ult (F 2 100)) = true.
Proof. vm_compute. reflexivity. Qed.

Example test_AS4100_Ntu2_1 : at_ isclose9 (let! a := a_b2 in Ntu a (PosNum (fl 0 1))) (ult (F 2 100)) = true.
Proof. vm_compute. reflexivity. Qed.

Example test_AS4100_Ntu2_2 : at_ isclose9 (let! a := a_b2 in Ntu a (PosNum (fl 1 4))) (ult (F 2 100)) = true.
Proof. vm_compute. reflexivity. Qed.

Example test_AS4100_Ntu2_3 : at_ isclose9 (let! a := a_b2 in Ntu a (PosNum (fl 1 2))) (ult (F 2 100)) = true.
Proof. vm_compute. reflexivity. Qed.

Example test_AS4100_Ntu2_4 : at_ isclose9 (let! a := a_b2 in Ntu a (PosNum (fl 3 4))) (ult (F 2 100)) = true.
Proof. vm_compute. reflexivity. Qed.

Example test_AS4100_Ntu2_5 : at_ isclose9 (let! a := a_b2 in Ntu a (PosNum (fl 1 1))) (ult (F 2 100)) = true.
Proof. vm_compute. reflexivity. Qed.

Example test_AS4100_Ntu3_0 : at_ isclose9 (let! a := a_bs in Ntu a (PosNone)) (ult (F 2 100)) = true.
Proof. vm_compute. reflexivity. Qed.

Example test_AS4100_Ntu3_1 : at_ isclose9 (let! a := a_bs in Ntu a (PosNum (fl 1 4))) (ult (F 2 100)) = true.
Proof. vm_compute. reflexivity. Qed.

Example test_AS4100_Ntu3_2 : at_ isclose9 (let! a := a_bs in Ntu a (PosNum (fl 1 2))) (ult (F 2 100)) = true.
Proof. vm_compute. reflexivity. Qed.

Example test_AS4100_Ntu3_3 : at_ isclose9 (let! a := a_bs in Ntu a (PosNum (fl 3 4))) (ult (F 6 100)) = true.
Proof. vm_compute. reflexivity. Qed.

Example test_AS4100_Ntu3_4 : at_ isclose9 (let! a := a_bs in Ntu a (PosNum (fl 1 1))) (ult (F 6 100)) = true.
Proof. vm_compute. reflexivity. Qed.

Example test_AS4100_Ntu_multi_positions_0 : at_ isclose9 (let! a := a_bs in Ntu a (PosList [(fl 1 4); (fl 3 4)])) (ult (F 2 100)) = true.
Proof. vm_compute. reflexivity. Qed.

Example test_AS4100_Ntu_multi_positions_1 : at_ isclose9 (let! a := a_bs in Ntu a (PosList [(fl 1 2); (fl 3 4); (fl 1 1)])) (ult (F 2 100)) = true.
Proof. vm_compute. reflexivity. Qed.

Example test_AS4100_Ntu_multi_positions_2 : at_ isclose9 (let! a := a_bs in Ntu a (PosList [(fl 3 4); (fl 1 1)])) (ult (F 6 100)) = true.
Proof. vm_compute. reflexivity. Qed.

(** The utilisation tests compare with the loads reported at 20 positions. *)
Definition max_at (rows : list (orow pynum)) (p : pynum) : pynum :=
  fold_left (fun m r => if neqb (fst r) p then match snd r with [Some v] => pymax m v | _ => m end else m) rows (fl (-1000000000000) 1).
Definition loads_of (a : res (as4100 pynum)) (l : Z) : list (orow pynum) :=
  match (let! a := a in match cc_beam a with Some b => beam_get_loads sorted_qs b l PosNone (Some 20) (CStr "N") | None => Err KeyError end) with
  | Ok (Some r) => r | _ => [] end.
Definition positions_of (rows : list (orow pynum)) : list pynum := np_unique (map fst rows).
Definition util_is (a : res (as4100 pynum)) (l : lc_arg) (p : pos_arg pynum) (e : pynum) : bool :=
  at_ isclose9 (let! a := a in tension_utilisation sorted_qs a l p) e.
Definition lc_rows (l : list (pynum * Z)) : lcase pynum := get None (load_case (InRows (map (fun x => row6 (fst x) (PInt (snd x))) l))).
Definition c_2 : pynum := nmul (F 9 10) (yld 250000000 (F 2 100)).
Definition c_3 : pynum := nmul (F 9 10) (yld 240000000 (F 3 100)).
Definition up := lc_rows [(f 0, 100000); (f 1, 150000)].
Definition down := lc_rows [(f 0, 200000); (f 1, 150000)].
Definition squash : lcase pynum := let v := fl (-100000000) 1 in get None (constant_load v v v v v v).
Definition two (l1 l2 : list (Z * lcase pynum)) : res (as4100 pynum) :=
  let! e1 := element l1 (Some (F 5 10)) s2 in
  let! e2 := element l2 (Some (F 5 10)) (circ (F 3 100)) in
  of_beam (beam (BList [Some e1; Some e2])).
Definition a_u1 : res (as4100 pynum) :=
  let! e := constant_load_element 0 (PInt 0) (PInt 0) (PInt 100000) (PInt 0) (PInt 0) (PInt 0) (Some (f 1)) s2 in of_beam (beam (BElem e)).
Definition a_u2 : res (as4100 pynum) :=
  let! e := element [(1, lc_rows [(f 0, 100000); (F 5 10, 150000); (F 5 10, 200000)])] (Some (f 1)) s2 in of_beam (beam (BElem e)).
Definition a_u3 := two [(1, up)] [(1, down)].
Definition a_u4 := two [(1, up); (2, down)] [(1, down); (2, up)].
Definition a_u6 := two [(1, up); (2, down); (3, squash)] [(1, down); (2, up); (3, squash)].
Definition cap_at (p : pynum) : pynum := if nleb p (F 5 10) then c_2 else c_3.
Definition each (ls : list (list (orow pynum))) (a : res (as4100 pynum)) (l : lc_arg) (c : pynum -> pynum) : bool :=
  let ps := positions_of (hd [] ls) in
  Nat.leb 20 (List.length ps) &&
  forallb (fun p => util_is a l (PosNum p) (ndiv (fold_left (fun m r => pymax m (max_at r p)) ls (fl (-1000000000000) 1)) (c p))) ps.

Example test_AS4100_tension_utilisation : util_is a_u1 LCNone PosNone (ndiv (f 100000) c_2) = true.
Proof. vm_compute. reflexivity. Qed.

Example test_AS4100_tension_utilisation2 : util_is a_u2 LCNone PosNone (ndiv (f 200000) c_2) && util_is a_u2 (LCInt 1) PosNone (ndiv (f 200000) c_2) && each [loads_of a_u2 1] a_u2 LCNone (fun _ => c_2) && each [loads_of a_u2 1] a_u2 (LCInt 1) (fun _ => c_2) = true.
Proof. vm_compute. reflexivity. Qed.

Example test_AS4100_tension_utilisation3 : util_is a_u3 LCNone PosNone (ndiv (f 200000) c_2) && util_is a_u3 (LCInt 1) PosNone (ndiv (f 200000) c_2) && each [loads_of a_u3 1] a_u3 LCNone cap_at && each [loads_of a_u3 1] a_u3 (LCInt 1) cap_at = true.
Proof. vm_compute. reflexivity. Qed.

Example test_AS4100_tension_utilisation4 : util_is a_u4 LCNone PosNone (ndiv (f 200000) c_2) && util_is a_u4 (LCInt 1) PosNone (ndiv (f 200000) c_2) && each [loads_of a_u4 1; loads_of a_u4 2] a_u4 LCNone cap_at && each [loads_of a_u4 1] a_u4 (LCInt 1) cap_at && each [loads_of a_u4 2] a_u4 (LCInt 2) cap_at = true.
Proof. vm_compute. reflexivity. Qed.

Example test_AS4100_tension_utilisation6 : util_is a_u6 LCNone PosNone (ndiv (f 200000) c_2) && util_is a_u6 (LCInt 1) PosNone (ndiv (f 200000) c_2) && each [loads_of a_u6 1; loads_of a_u6 2] a_u6 LCNone cap_at && each [loads_of a_u6 1] a_u6 (LCInt 1) cap_at && each [loads_of a_u6 2] a_u6 (LCInt 2) cap_at = true.
Proof. vm_compute. reflexivity. Qed.

(** test_solver.py, the two square-root cases of test_bisection_2 and test_secant_3. *)
Definition sq3 (x : pynum) : res pynum := Ok (nsub (nmul x x) (PInt 3)).
Definition sqrt3 : pynum := PFlt (SFsqrt f64 e64 (S754_finite false 3 0)).
Definition near8 (a b : pynum) : bool := isclose9 a b || nleb (nabs (nsub a b)) (fl 1 100000000).

Example test_bisection_2_0 : match bisection sq3 200 (PInt (-2)) (PInt (-1)) default_tol default_max_its true with Ok (x, _) => near8 x (nsub (PInt 0) sqrt3) | Err _ => false end = true.
Proof. vm_compute. reflexivity. Qed.

Example test_secant_3_0 : match secant sq3 200 (PInt (-2)) (PInt (-1)) default_tol default_max_its true 1 with Ok (x, _, _) => near8 x (nsub (PInt 0) sqrt3) | Err _ => false end = true.
Proof. vm_compute. reflexivity. Qed.

Example test_bisection_2_1 : match bisection sq3 200 (PInt 1) (PInt 2) default_tol default_max_its true with Ok (x, _) => near8 x sqrt3 | Err _ => false end = true.
Proof. vm_compute. reflexivity. Qed.

Example test_secant_3_1 : match secant sq3 200 (PInt 1) (PInt 2) default_tol default_max_its true 1 with Ok (x, _, _) => near8 x sqrt3 | Err _ => false end = true.
Proof. vm_compute. reflexivity. Qed.


(** test_loadcase.py: test_get_loads_1 to 3 *)
Example test_get_loads_1 : forallb (fun s => match input_loads c0 (CStr s) with Ok None => true | _ => false end) names = true.
Proof. vm_compute. reflexivity. Qed.

Example test_get_loads_2 : forallb (fun sv => rows_by neqb (input_loads c1 (CStr (fst sv))) [row (fl 1 2) [snd sv]])
  (combine names [PInt 1; PInt 2; PInt 3; PInt 4; PInt 5; PInt 6]) = true.
Proof. vm_compute. reflexivity. Qed.

Example test_get_loads_3 : forallb (fun sv => rows_by neqb (input_loads c2 (CStr (fst sv)))
    [row (fl 1 4) [PInt (snd sv)]; row (fl 3 4) [PInt (snd sv + 1)]]) (combine names [1; 2; 3; 4; 5; 6]) = true.
Proof. vm_compute. reflexivity. Qed.
