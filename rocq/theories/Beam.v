(** Model of beamdesign/element.py and beamdesign/beam.py.  [S] is the type of section
    objects; a missing section is Python's None. *)

From Coq Require Import ZArith List Bool.
From Verif Require Import Base Num Numpy LoadCase.
Import ListNotations.
Open Scope Z_scope.

Section Beam.
Context {T : Type} {NT : Num T} {S : Type}.

(** element.py lines 11-70: the attributes of an [Element].  [eloads] is the dict of
    load cases in insertion order with distinct integer keys. *)
Record elem : Type := mk_elem {
  elength : option T;
  esection : option S;
  eloads : list (Z * lcase T) }.

(** element.py lines 19-41: the constructor. *)
Definition element (loads : list (Z * lcase T)) (length : option T) (section : option S)
  : res elem :=
  match length with
  | Some l => if nltb l (nflt 0 1) then Err ElementLengthError
              else Ok (mk_elem length section loads)
  | None => Ok (mk_elem length section loads)
  end.

(** element.py lines 62-70: [load_cases]; 53-60: [no_load_cases]. *)
Definition el_load_cases (e : elem) : list Z := map fst (eloads e).
Definition el_no_load_cases (e : elem) : nat := List.length (el_load_cases e).

(** element.py lines 72-134: [get_loads]. *)
Definition el_get_loads (qs : argsort_oracle T) (e : elem) (load_case : Z)
  (position : pos_arg T) (min_positions : option Z) (component : comp_arg)
  : res (option (list (orow T))) :=
  let! load := dict_get load_case (eloads e) in
  get_load qs load position min_positions component.

(** element.py lines 136-148: [load_positions]. *)
Definition el_load_positions (e : elem) (load_case : Z) : res (list T) :=
  let! load := dict_get load_case (eloads e) in load_positions load.

(** element.py lines 150-166: [empty_element]. *)
Definition empty_element (length : option T) (section : option S) : res elem :=
  let! loads := load_case InNone in element [(0, loads)] length section.

(** element.py lines 168-200: [constant_load_element]. *)
Definition constant_load_element (case_id : Z) (vx vy n mx my t : T)
  (length : option T) (section : option S) : res elem :=
  let! loads := constant_load vx vy n mx my t in
  element [(case_id, loads)] length section.

(** A Beam object is its list of elements. *)
Definition beam_t : Type := list elem.

(** What [Beam(elements=...)] can be given: None, one Element, or a list whose entries
    are Elements or other objects (None here). *)
Inductive beam_input : Type :=
| BNone
| BElem (e : elem)
| BList (l : list (option elem)).

Fixpoint all_elements (l : list (option elem)) : option (list elem) :=
  match l with
  | [] => Some []
  | Some e :: r => option_map (cons e) (all_elements r)
  | None :: _ => None
  end.

Fixpoint zlist_eqb (a b : list Z) : bool :=
  match a, b with
  | [], [] => true
  | x :: a', y :: b' => (x =? y) && zlist_eqb a' b'
  | _, _ => false
  end.

(** beam.py lines 54-124: the constructor and [_check_elements]. *)
Definition check_elements (es : list elem) : res beam_t :=
  match es with
  | [] => Err ElementError                                          (* 90 *)
  | e0 :: _ =>
      if negb (forallb (fun e => Nat.eqb (el_no_load_cases e) (el_no_load_cases e0)) es)
      then Err ElementCaseError                                     (* 106-113 *)
      else if negb (forallb (fun e => zlist_eqb (el_load_cases e) (el_load_cases e0)) es)
      then Err ElementCaseError                                     (* 117-124 *)
      else Ok es
  end.

Definition beam (inp : beam_input) : res beam_t :=
  match inp with
  | BNone => Err ElementError                                       (* 90-94 *)
  | BElem e => check_elements [e]                                   (* 70-72 *)
  | BList l =>
      match all_elements l with
      | None => Err ElementError                                    (* 90, 98-102 *)
      | Some es => check_elements es
      end
  end.

(** [a + b] where either may be None: TypeError (lines 144, 214). *)
Definition add_opt (a : T) (b : option T) : res T :=
  match b with Some y => Ok (nadd a y) | None => Err TypeError end.

(** beam.py lines 136-144: [length], [sum] starts from the int 0. *)
Fixpoint sum_lengths (acc : T) (es : list elem) : res T :=
  match es with
  | [] => Ok acc
  | e :: r => let! a := add_opt acc (elength e) in sum_lengths a r
  end.
Definition beam_length (b : beam_t) : res T := sum_lengths (nint 0) b.

(** beam.py lines 170-182: [load_cases]; [elements[0]] exists by construction. *)
Definition beam_load_cases (b : beam_t) : res (list Z) :=
  match b with e :: _ => Ok (el_load_cases e) | [] => Err IndexError end.

(** beam.py lines 184-216: [element_ends].  The first pair is [0.0, e.length] without
    addition (a None length survives there). *)
Fixpoint ends_from (prev : option T) (es : list elem) : res (list (T * option T)) :=
  match es with
  | [] => Ok []
  | e :: r =>
      match prev with
      | None => Err TypeError
      | Some p =>
          let! q := add_opt p (elength e) in
          let! rest := ends_from (Some q) r in
          Ok ((p, Some q) :: rest)
      end
  end.
Definition element_ends (b : beam_t) : res (list (T * option T)) :=
  match b with
  | [] => Ok []
  | e :: r =>
      let! rest := ends_from (elength e) r in
      Ok ((nflt 0 1, elength e) :: rest)
  end.

(** beam.py lines 218-226: [sections]. *)
Definition beam_sections (b : beam_t) : list (option S) := map esection b.

(** beam.py lines 228-236: [get_element_start_end]. *)
Definition element_start_end (b : beam_t) (element : Z) : res (T * option T) :=
  let! ends := element_ends b in py_index ends element.

(** beam.py lines 238-263: [in_elements].  Comparing with None is a TypeError; [and]
    short-circuits. *)
Fixpoint in_ends (p : T) (i : Z) (ends : list (T * option T)) : res (list Z) :=
  match ends with
  | [] => Ok []
  | (s, e) :: r =>
      let! here :=
        if nleb s p then
          match e with Some e => Ok (nleb p e) | None => Err TypeError end
        else Ok false in
      let! rest := in_ends p (i + 1) r in
      Ok (if here : bool then i :: rest else rest)
  end.
Definition in_elements (b : beam_t) (p : T) : res (list Z) :=
  let! ends := element_ends b in in_ends p 0 ends.

(** beam.py lines 265-290: [beam_to_local_position]. *)
Definition beam_to_local (b : beam_t) (p : T) (element : Z) : res T :=
  let! se := element_start_end b element in
  let! e := py_index b element in
  let overlap := nsub p (fst se) in
  if nltb overlap (nint 0) then Err PositionNotInElementError
  else match elength e with
       | None => Err TypeError
       | Some len =>
           if nltb len overlap then Err PositionNotInElementError
           else if neqb len (nflt 0 1) then Err ElementLengthError
           else Ok (ndiv (nsub p (fst se)) len)
       end.

(** beam.py lines 292-312: [local_to_beam_position]. *)
Definition local_to_beam (b : beam_t) (p : T) (element : Z) : res T :=
  if nltb p (nint 0) || nltb (nflt 1 1) p then Err PositionNotInElementError
  else
    let! se := element_start_end b element in
    let! e := py_index b element in
    match elength e with
    | None => Err TypeError
    | Some len => Ok (nadd (fst se) (nmul p len))
    end.

(** beam.py lines 460-466: the range check of explicit positions ([self.length] is
    only evaluated when [p < 0] is false). *)
Fixpoint check_on_beam (b : beam_t) (ps : list T) : res unit :=
  match ps with
  | [] => Ok tt
  | p :: r =>
      if nltb p (nint 0) then Err PositionNotInBeamError
      else
        let! len := beam_length b in
        if nltb len p then Err PositionNotInBeamError else check_on_beam b r
  end.

(** beam.py lines 483-500: the stored load positions of all elements as beam positions. *)
Fixpoint real_positions (b : beam_t) (load_case : option Z) (i : Z) (es : list elem)
  : res (list T) :=
  match es with
  | [] => Ok []
  | e :: r =>
      let! element_pos := match load_case with
                          | None => Ok [nflt 0 1; nflt 1 1]
                          | Some c => el_load_positions e c
                          end in
      let! real_pos := mapM (fun p => local_to_beam b p i) element_pos in
      let! rest := real_positions b load_case (i + 1) r in
      Ok (real_pos ++ rest)
  end.

(** Line 481: flattening [element_ends].  With lengths all known (otherwise
    [self.length] in line 475 has already raised) no None is present. *)
Definition flatten_ends (ends : list (T * option T)) : list T :=
  flat_map (fun se => match snd se with Some e => [fst se; e] | None => [fst se] end) ends.

(** Lines 520-542: the local positions used on a zero-length element.  [load_pos] is an
    ndarray, so [[0.0] + load_pos] and [load_pos + [1.0]] are element-wise additions
    (the former also converts to float). *)
Definition zero_length_positions (e : elem) (load_case : option Z) : res (list T) :=
  match load_case with
  | None => Ok [nflt 0 1; nflt 1 1]
  | Some c =>
      let! lp := el_load_positions e c in
      match lp with
      | [] => Err IndexError
      | p0 :: _ =>
          let lp1 := if negb (neqb p0 (nint 0)) then map (nadd (nflt 0 1)) lp else lp in
          let lp2 := if negb (neqb (last lp1 p0) (nflt 1 1))
                     then map (fun l => nadd l (nflt 1 1)) lp1 else lp1 in
          Ok lp2
      end
  end.

(** One location of [list_positions]'s three parallel result lists. *)
Definition location : Type := (T * Z * T)%type.

(** Lines 518-549: the locations for one position and one element. *)
Definition locations_at (b : beam_t) (load_case : option Z) (p : T) (e : Z)
  : res (list location) :=
  let! el := py_index b e in
  match elength el with
  | None => let! l := beam_to_local b p e in Ok [(p, e, l)]    (* None == 0 is False *)
  | Some len =>
      if neqb len (nint 0) then
        let! ls := zero_length_positions el load_case in
        Ok (map (fun l => (p, e, l)) ls)
      else let! l := beam_to_local b p e in Ok [(p, e, l)]
  end.

(** Lines 510-551. *)
Definition locations (b : beam_t) (load_case : option Z) (ps : list T)
  : res (list location) :=
  let! lls := mapM (fun p =>
    let! es := in_elements b p in
    let! ls := mapM (locations_at b load_case p) es in Ok (concat ls)) ps in
  Ok (concat lls).

(** beam.py lines 396-551: [list_positions]. *)
Definition beam_list_positions (b : beam_t) (position : pos_arg T)
  (min_positions : option Z) (load_case : option Z) : res (list location) :=
  match position, min_positions with
  | PosNone, None => Err InvalidPositionError                       (* 438-442 *)
  | PosNum _, Some _ | PosList _, Some _ => Err InvalidPositionError (* 444-447 *)
  | PosNum x, None =>
      if nisfloat x then                                            (* 454-457 *)
        let! _ := check_on_beam b [x] in
        locations b load_case (py_sorted (py_set [x]))
      else Err TypeError                                            (* for p in int *)
  | PosList l, None =>
      let! _ := check_on_beam b l in                                (* 460-466 *)
      locations b load_case (py_sorted (py_set l))                  (* 469 *)
  | PosNone, Some n =>
      let! len := beam_length b in
      let! lin := linspace (nflt 0 1) len n in                      (* 475 *)
      let! ends := element_ends b in                                (* 481 *)
      let! real := real_positions b load_case 0 b in                (* 483-500 *)
      locations b load_case
        (py_sorted (set_update (py_set (flatten_ends ends ++ real)) lin))   (* 503-506 *)
  end.

(** [val[..., 0] = p] (line 387) for the array returned by [Element.get_loads]: an
    object array keeps [p]; an int64 array truncates it; a float64 array converts it. *)
Definition row_has_none (r : orow T) : bool :=
  existsb (fun c => match c with None => true | _ => false end) (snd r).
Definition row_has_float (r : orow T) : bool :=
  nisfloat (fst r) ||
  existsb (fun c => match c with Some x => nisfloat x | None => false end) (snd r).
Definition set_position (p : T) (rows : list (orow T)) : list (orow T) :=
  let p' := if existsb row_has_none rows then p
            else if existsb row_has_float rows then nfloat p
            else ntrunc p in
  map (fun r => (p', snd r)) rows.

(** [np.vstack((ret_val, val))] (line 392): equal widths required; object arrays are
    left alone, int and float arrays promote to float. *)
Definition vstack (a v : list (orow T)) : res (list (orow T)) :=
  match a, v with
  | ra :: _, rv :: _ =>
      if Nat.eqb (List.length (snd ra)) (List.length (snd rv)) then
        let all := a ++ v in
        Ok (if existsb row_has_none all then all
            else if existsb row_has_float all then map orow_float all
            else all)
      else Err ValueError
  | _, _ => Ok (a ++ v)
  end.

(** beam.py lines 376-394: the accumulation loop; [None] is Python's None. *)
Fixpoint accumulate (qs : argsort_oracle T) (b : beam_t) (load_case : Z)
  (component : comp_arg) (acc : option (list (orow T))) (locs : list location)
  : res (option (list (orow T))) :=
  match locs with
  | [] => Ok acc
  | (p, e, l) :: r =>
      let! el := py_index b e in
      let! v := el_get_loads qs el load_case (PosNum l) None component in
      match v with
      | None => Err TypeError                  (* None[..., 0] = p *)
      | Some rows =>
          let v := set_position p rows in
          let! acc' := match acc with
                       | None => Ok v
                       | Some a => vstack a v
                       end in
          accumulate qs b load_case component (Some acc') r
      end
  end.

(** beam.py lines 314-394: [get_loads]. *)
Definition beam_get_loads (qs : argsort_oracle T) (b : beam_t) (load_case : Z)
  (position : pos_arg T) (min_positions : option Z) (component : comp_arg)
  : res (option (list (orow T))) :=
  let! locs := beam_list_positions b position min_positions (Some load_case) in
  accumulate qs b load_case component None locs.

(** beam.py lines 553-584: [get_section]. *)
Definition beam_get_section (b : beam_t) (position : pos_arg T)
  (min_positions : option Z) (load_case : option Z) : res (list T * list (option S)) :=
  let! locs := beam_list_positions b position min_positions load_case in
  let! secs := mapM (fun l => let! e := py_index b (snd (fst l)) in Ok (esection e)) locs in
  Ok (map (fun l => fst (fst l)) locs, secs).

(** beam.py lines 586-599: [empty_beam]. *)
Definition empty_beam (length : option T) (section : option S) : res beam_t :=
  let! e := empty_element length section in beam (BElem e).

End Beam.
Arguments elem T S : clear implicits.
Arguments beam_t T S : clear implicits.
Arguments beam_input T S : clear implicits.
Arguments location T : clear implicits.
