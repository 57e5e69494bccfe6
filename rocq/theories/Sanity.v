(** Executions of the model on Python numbers that reproduce expected values of the
    project's own test-suite (file and test named in each comment).  These are tests of
    the model's fidelity, not proofs of any property. *)

From Coq Require Import ZArith List Bool String.
From Verif Require Import Base Num PyNum Numpy LoadCase Beam Solvers Material AS4100.
Import ListNotations.
Open Scope Z_scope.

Notation F n d := (fl n d).
Definition f (z : Z) : pynum := fl z 1.

(** numpy.allclose / math.isclose style comparison with absolute tolerance 1e-9. *)
Definition near (a b : pynum) : bool :=
  nleb (nabs (nsub a b)) (fl 1 1000000000).
Definition near_cell (a b : option pynum) : bool :=
  match a, b with Some x, Some y => near x y | None, None => true | _, _ => false end.
Fixpoint all2 {A} (t : A -> A -> bool) (a b : list A) : bool :=
  match a, b with
  | [], [] => true
  | x :: a, y :: b => t x y && all2 t a b
  | _, _ => false
  end.
Definition near_row (a b : orow pynum) : bool :=
  near (fst a) (fst b) && all2 near_cell (snd a) (snd b).
Definition near_res (r : res (option (list (orow pynum)))) (e : list (orow pynum)) : bool :=
  match r with Ok (Some rows) => all2 near_row rows e | _ => false end.
Definition same (p : pynum) (v : pynum) : orow pynum := (p, repeat (Some v) 6).
Definition sorted_qs : argsort_oracle pynum := stable_argsort.

Definition get {A} (d : A) (r : res A) : A := match r with Ok a => a | Err _ => d end.

(** tests/test_loadcase.py test_get_load_multiple_positions2 *)
Definition lc2 : lcase pynum := get None (load_case (InRows
  [[F 0 1; f 0; f 0; f 0; f 0; f 0; f 0];
   [F 25 100; f 1; f 2; f 3; f 4; f 5; f 6];
   [F 5 10; F 15 10; F 25 10; F 35 10; F 45 10; F 55 10; F 65 10];
   [F 5 10; f 10; f 10; f 10; f 10; f 10; f 10];
   [F 75 100; f 2; f 3; f 4; f 5; f 6; f 7];
   [F 1 1; f 3; f 4; f 5; f 6; f 7; f 8]])).

Example lc2_half :
  get_load sorted_qs lc2 (PosNum (F 5 10)) None (CStr "VX")
  = Ok (Some [(F 5 10, [Some (F 15 10)]); (F 5 10, [Some (f 10)])]).
Proof. vm_compute. reflexivity. Qed.

Example lc2_mixed :
  near_res (get_load sorted_qs lc2 (PosList [F 6 10; F 5 10; F 1 10; F 5 10]) None (CStr "N"))
   [(F 1 10, [Some (F 12 10)]); (F 5 10, [Some (F 35 10)]); (F 5 10, [Some (f 10)]);
    (F 6 10, [Some (F 76 10)])] = true.
Proof. vm_compute. reflexivity. Qed.

(** tests/test_loadcase.py test_LoadCase_init_error (ragged rows) *)
Example ragged : load_case (InRows
  [[f 0; f 0; f 0; f 0; f 0; f 0];
   [F 25 100; f 1; f 2; f 3; f 4; f 5; f 6]]) = Err LoadCaseError.
Proof. reflexivity. Qed.

(** tests/test_beam.py: beams built from constant-load elements *)
Definition const_el (le lo : pynum) : elem pynum (section pynum) :=
  get (mk_elem None None [])
    (constant_load_element 0 lo lo lo lo lo lo (Some le) None).
Definition b4 : beam_t pynum (section pynum) := get [] (beam (BList
  [Some (const_el (f 1) (F 5 10)); Some (const_el (f 0) (f 5));
   Some (const_el (F 23 10) (F 25 10)); Some (const_el (F 5 10) (f 25))])).

(** test_Beam_get_loads_position *)
Example beam_pos_1 :
  near_res (beam_get_loads sorted_qs b4 0 (PosNum (f 1)) None CNone)
    [same (f 1) (F 5 10); same (f 1) (f 5); same (f 1) (F 25 10)] = true.
Proof. vm_compute. reflexivity. Qed.
Example beam_pos_33 :
  near_res (beam_get_loads sorted_qs b4 0 (PosNum (F 33 10)) None CNone)
    [same (F 33 10) (F 25 10); same (F 33 10) (f 25)] = true.
Proof. vm_compute. reflexivity. Qed.
Example beam_pos_38 :
  near_res (beam_get_loads sorted_qs b4 0 (PosNum (F 38 10)) None CNone)
    [same (F 38 10) (f 25)] = true.
Proof. vm_compute. reflexivity. Qed.

(** test_Beam_get_loads_min_positions *)
Example beam_min_5 :
  near_res (beam_get_loads sorted_qs b4 0 PosNone (Some 5) CNone)
    [same (f 0) (F 5 10); same (F 95 100) (F 5 10); same (f 1) (F 5 10);
     same (f 1) (f 5); same (f 1) (F 25 10); same (F 19 10) (F 25 10);
     same (F 285 100) (F 25 10); same (F 33 10) (F 25 10); same (F 33 10) (f 25);
     same (F 38 10) (f 25)] = true.
Proof. vm_compute. reflexivity. Qed.

(** test_Beam_get_loads_min_positions3 *)
Definition lrow_of (l : list pynum) : list pynum := l.
Definition row6 (p v : pynum) : list pynum := [p; v; v; v; v; v; v].
Definition b2 : beam_t pynum (section pynum) :=
  let l1 := get None (load_case (InRows
    [row6 (f 0) (f 5); row6 (F 5 10) (f (-3)); row6 (F 5 10) (f 10); row6 (F 5 10) (f 5);
     row6 (f 1) (f 10)])) in
  get [] (beam (BList [Some (const_el (f 1) (F 25 10));
    Some (get (mk_elem None None []) (element [(0, l1)] (Some (f 1)) None))])).
Example beam_min_4 :
  near_res (beam_get_loads sorted_qs b2 0 PosNone (Some 4) CNone)
    [same (f 0) (F 25 10); same (F 2 3) (F 25 10); same (f 1) (F 25 10);
     same (f 1) (f 5); same (F 4 3) (F (-1) 3); same (F 15 10) (f (-3));
     same (F 15 10) (f 10); same (F 15 10) (f 5); same (f 2) (f 10)] = true.
Proof. vm_compute. reflexivity. Qed.

(** tests/test_AS4100.py test_AS4100_tension_utilisation2 *)
Definition as3678_250 : material pynum :=
  get (mk_material None TOther TOther []) (load_material material_toml "AS3678-2016-250").
Definition circ (r : pynum) : option (section pynum) :=
  match circle (Some as3678_250) r with Ok s => Some s | Err _ => None end.
Definition a_util2 : res (as4100 pynum) :=
  let l := get None (load_case (InRows
    [row6 (f 0) (PInt 100000); row6 (F 5 10) (PInt 150000); row6 (F 5 10) (PInt 200000)])) in
  let! e := element [(1, l)] (Some (f 1)) (circ (F 2 100)) in
  let! b := beam (BElem e) in
  default_as4100 (Some b) None.
Definition cap_2 : pynum :=    (* 0.9 * 250e6 * pi * 0.02 ** 2 *)
  nmul (nmul (nmul (F 9 10) (f 250000000)) npi) (F 4 10000).
Example util2 :
  match (let! a := a_util2 in tension_utilisation sorted_qs a LCNone PosNone) with
  | Ok u => near u (ndiv (f 200000) cap_2)
  | Err _ => false
  end = true.
Proof. vm_compute. reflexivity. Qed.
Example util2_pos :
  match (let! a := a_util2 in
         tension_utilisation sorted_qs a (LCInt 1) (PosNum (F 25 100))) with
  | Ok u => near u (ndiv (f 125000) cap_2)
  | Err _ => false
  end = true.
Proof. vm_compute. reflexivity. Qed.

(** tests/test_AS4100.py test_AS4100_tension_utilisation5: compression *)
Example util5 :
  match (let! e := constant_load_element 0 (PInt 0) (PInt 0) (PInt (-100000)) (PInt 0)
                     (PInt 0) (PInt 0) (Some (f 1)) (circ (F 2 100)) in
         let! b := beam (BElem e) in
         let! a := default_as4100 (Some b) None in
         tension_utilisation sorted_qs a LCNone PosNone) with
  | Ok u => near u (f 0)
  | Err _ => false
  end = true.
Proof. vm_compute. reflexivity. Qed.
