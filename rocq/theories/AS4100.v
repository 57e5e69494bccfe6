(** Model of beamdesign/codecheck/codecheck.py and
    beamdesign/codecheck/as4100/as4100.py. *)

From Coq Require Import ZArith List Bool String.
From Verif Require Import Base Num Numpy LoadCase Beam Material Solvers.
Import ListNotations.
Open Scope Z_scope.

Section AS4100.
Context {T : Type} {NT : Num T}.

Let beam_t := beam_t T (section T).

(** Attributes of an AS4100 object: codecheck.py lines 29-56, as4100.py lines 23-44. *)
Record as4100 : Type := mk_as4100 {
  cc_beam : option beam_t;
  cc_section : option (section T);
  assessment_points : Z;
  cc_as_sections : list (as_section T);
  phi_steel : T;
  alpha_u : T;
  k_t : T }.

(** codecheck.py lines 79-93: [sections]. *)
Definition sections_of (b : option beam_t) (s : option (section T))
  : list (option (section T)) :=
  match b with None => [s] | Some b => beam_sections b end.

(** codecheck.py lines 29-56 and as4100.py lines 23-44: the constructor
    (the AS4100 constructor offers no assessment_points: the default 20). *)
Definition make_as4100 (phi au kt : T) (b : option beam_t) (s : option (section T))
  : res as4100 :=
  match b, s with
  | None, None => Err CodeCheckError
  | _, _ =>
      let! ss := mapM as_factory (sections_of b s) in
      Ok (mk_as4100 b s 20 ss phi au kt)
  end.

(** as4100.toml and as4100.py lines 414-422: [default_AS4100]. *)
Definition default_as4100 (b : option beam_t) (s : option (section T)) : res as4100 :=
  make_as4100 (nflt 90 100) (nflt 85 100) (nflt 100 100) b s.

(** The [assessment_points] setter (codecheck.py lines 105-115). *)
Definition set_assessment_points (a : as4100) (n : Z) : as4100 :=
  mk_as4100 (cc_beam a) (cc_section a) n (cc_as_sections a)
    (phi_steel a) (alpha_u a) (k_t a).

(** as4100.py lines 158-166 with codecheck.py lines 192-199: [get_section] forwards only
    [position]. *)
Definition cc_get_section (a : as4100) (position : pos_arg T)
  (min_positions : option Z) (load_case : option Z)
  : res (list T * list (option (section T))) :=
  match cc_beam a with
  | None => Err SectionOnlyError
  | Some b => beam_get_section b position None None
  end.

(** as4100.py lines 168-211: [get_as4100_section]. *)
Definition get_as4100_section (a : as4100) (position : pos_arg T)
  (min_positions : option Z) (load_case : option Z)
  : res (list T * list (as_section T)) :=
  match cc_beam a with
  | None => Err SectionOnlyError
  | Some b =>
      let! locs := beam_list_positions b position min_positions load_case in
      let! ss := mapM (fun l => py_index (cc_as_sections a) (snd (fst l))) locs in
      Ok (map (fun l => fst (fst l)) locs, ss)
  end.

(** as4100.py lines 213-227, codecheck.py lines 258-268: [get_loads]. *)
Definition cc_get_loads (qs : argsort_oracle T) (a : as4100) (load_case : Z)
  (position : pos_arg T) (min_positions : option Z) (component : comp_arg)
  : res (option (list (orow T))) :=
  match cc_beam a with
  | None => Err SectionOnlyError
  | Some b => beam_get_loads qs b load_case position min_positions component
  end.

(** codecheck.py line 324 on one row of the two-column array:
    [tension[:, 1][tension[:, 1] < 0] = 0]; comparing a None cell is a TypeError. *)
Definition clip_row (isfl : bool) (r : orow T) : res (orow T) :=
  match snd r with
  | [Some n] =>
      let zero := if isfl then nfloat (nint 0) else nint 0 in
      Ok (fst r, [Some (if nltb n (nint 0) then zero else n)])
  | [None] => Err TypeError
  | _ => Err IndexError
  end.

(** codecheck.py lines 315-326, as4100.py lines 229-235: [get_tension].  There is no
    check for a missing beam ([None.get_loads] is an AttributeError); a None result
    cannot be subscripted (TypeError). *)
Definition get_tension (qs : argsort_oracle T) (a : as4100) (load_case : Z)
  (position : pos_arg T) (min_positions : option Z) : res (list (orow T)) :=
  match cc_beam a with
  | None => Err AttributeError
  | Some b =>
      let! t := beam_get_loads qs b load_case position min_positions (CStr "N") in
      match t with
      | None => Err TypeError
      | Some rows => mapM (clip_row (existsb row_has_float rows)) rows
      end
  end.

(** Python [min(l)] / [max(l)] of a list: ValueError when empty, first extremum wins. *)
Definition list_min (l : list T) : res T :=
  match l with [] => Err ValueError | x :: r => Ok (fold_left pymin r x) end.
Definition list_max (l : list T) : res T :=
  match l with [] => Err ValueError | x :: r => Ok (fold_left pymax r x) end.

(** as4100.py lines 381-412: the section formulas; lines 351-379: [s7_1_Nt]. *)
Definition s7_2_Nty (ag fy : T) : T := nmul ag fy.
Definition s7_2_Ntu (an fu kt au : T) : T := nmul (nmul (nmul an fu) kt) au.
Definition s7_1_Nt (ag an fy fu kt au : T) : T :=
  pymin (s7_2_Nty ag fy) (s7_2_Ntu an fu kt au).

(** The sections considered by [Nty]/[Ntu] (lines 278-285, 319-326). *)
Definition sections_at (a : as4100) (position : pos_arg T) : res (list (as_section T)) :=
  match position with
  | PosNone => Ok (cc_as_sections a)
  | _ => let! ps := get_as4100_section a position None None in Ok (snd ps)
  end.

(** Lines 266-290: [Nty]; 307-334: [Ntu]; 237-249: [Nt]; 251-264: [phiNt];
    292-305: [phiNty]; 336-349: [phiNtu] (which multiplies [Nty]). *)
Definition Nty (a : as4100) (position : pos_arg T) : res T :=
  let! ss := sections_at a position in
  let! ns := mapM (fun s => let! fy := min_fy s in Ok (s7_2_Nty (Ag s) fy)) ss in
  list_min ns.
Definition Ntu (a : as4100) (position : pos_arg T) : res T :=
  let! ss := sections_at a position in
  let! ns := mapM (fun s => let! fu := min_fu s in
                            Ok (s7_2_Ntu (An s) fu (k_t a) (alpha_u a))) ss in
  list_min ns.
Definition Nt (a : as4100) (position : pos_arg T) : res T :=
  let! y := Nty a position in let! u := Ntu a position in Ok (pymin y u).
Definition phiNt (a : as4100) (position : pos_arg T) : res T :=
  let! n := Nt a position in Ok (nmul (phi_steel a) n).
Definition phiNty (a : as4100) (position : pos_arg T) : res T :=
  let! n := Nty a position in Ok (nmul (phi_steel a) n).
Definition phiNtu (a : as4100) (position : pos_arg T) : res T :=
  let! n := Nty a position in Ok (nmul (phi_steel a) n).
Definition tension_capacity (a : as4100) (position : pos_arg T) : res T :=
  phiNt a position.

(** as4100.py lines 126-128: [util_func]: [(x * load) / capacity - 1.0] (the capacity
    function ignores its argument, lines 106-107).  The load is a numpy scalar, so
    dividing by a zero capacity gives an infinity, on which [secant] (solvers.py line
    209) raises ValueError: that outcome is modelled directly. *)
Definition util_func (t cap : T) (x : T) : res T :=
  if neqb cap (nint 0) then Err ValueError
  else Ok (nsub (ndiv (nmul x t) cap) (nflt 1 1)).

(** Lines 115-140: the utilisation for one tension value; [secant] is called with two
    positional arguments, bounds -100_000 and 100_000 and otherwise default values. *)
Definition util_one (t cap : T) : res T :=
  if nleb t (nflt 0 1) then Ok (nflt 0 1)                           (* 115-123 *)
  else
    let! r := secant (util_func t cap) (Z.to_nat 20000)
                (nint (-100000)) (nint 100000) default_tol default_max_its false 2 in
    let x := fst (fst r) in
    if neqb x (nflt 0 1) then Ok x else pydiv (nint 1) x.           (* 139-140 *)

(** Lines 101-144: all the utilisations of one load case at the given positions.  As the
    loads are in a numpy array, no None cell reaches [t <= 0.0] (get_tension raised). *)
Definition utils_at (qs : argsort_oracle T) (a : as4100) (l : Z) (p : T) : res (list T) :=
  let! cap := tension_capacity a (PosNum p) in                      (* 104 *)
  let! rows := get_tension qs a l (PosNum p) None in                (* 110 *)
  mapM (fun r => match snd r with
                 | [Some t] => util_one t cap
                 | _ => Err IndexError
                 end) rows.

(** Lines 94-144.  [pos] is the loop-carried variable: once computed for the first load
    case it is kept for the others (lines 96-99). *)
Fixpoint util_loop (qs : argsort_oracle T) (a : as4100) (b : beam_t)
  (pos : option (list T)) (ls : list Z) : res (list T) :=
  match ls with
  | [] => Ok []
  | l :: r =>
      let! ps := match pos with
                 | Some ps => Ok ps
                 | None =>
                     let! locs := beam_list_positions b PosNone
                                    (Some (assessment_points a)) (Some l) in
                     Ok (map (fun x => fst (fst x)) locs)
                 end in
      let! us := mapM (utils_at qs a l) ps in
      let! rest := util_loop qs a b (Some ps) r in
      Ok (List.concat us ++ rest)
  end.

(** The [load_case] argument: None, an int, or a list (lines 72-77, 90-92). *)
Inductive lc_arg : Type := LCNone | LCInt (z : Z) | LCList (l : list Z).

(** as4100.py lines 65-156: [tension_utilisation].  The two filters at the end are
    omitted: [AS4100Lit.v] has them, and C158 proves that they keep everything.  Without a beam, [self.beam.load_cases] / [self.beam.list_positions] raise
    AttributeError; with explicit load cases and positions [tension_capacity] is
    evaluated first and raises SectionOnlyError (line 104); an empty list of load cases
    reaches [max([])].  [pos] given as a non-float number: [for p in int], TypeError. *)
Definition tension_utilisation (qs : argsort_oracle T) (a : as4100) (load_case : lc_arg)
  (position : pos_arg T) : res T :=
  let! ls := match load_case with
             | LCInt z => Ok [z]
             | LCList l => Ok l
             | LCNone => match cc_beam a with
                         | None => Err AttributeError
                         | Some b => beam_load_cases b
                         end
             end in
  let! pos := match position with
              | PosNone => Ok None
              | PosNum x => if nisfloat x then Ok (Some [x])
                            else match ls with [] => Ok (Some []) | _ => Err TypeError end
              | PosList l => Ok (Some l)
              end in
  let! us :=
    match cc_beam a with
    | Some b => util_loop qs a b pos ls
    | None =>
        match ls, pos with
        | [], _ => Ok []
        | _, None => Err AttributeError
        | _, Some [] => Ok []
        | _, Some _ => Err SectionOnlyError
        end
    end in
  list_max us.

End AS4100.
Arguments as4100 T : clear implicits.
