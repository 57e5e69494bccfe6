(** Stateful model of the numpy arrays behind loadcase.py, beam.py and codecheck.py: which
    operations copy, which return a view, and the in-place writes of [Beam.get_loads] and
    [CodeCheck.get_tension].  The pure models (LoadCase.v, Beam.v, AS4100.v) say which numbers
    are computed; this one says where they are stored. *)

From Coq Require Import ZArith List Bool String.
From Verif Require Import Base Num Numpy LoadCase Beam Material Solvers AS4100.
Import ListNotations.
Open Scope Z_scope.

Section ArrayHeap.
Context {T : Type} {NT : Num T}.

(** A buffer is the rows of a 2-D array; a cell is a number or None (object arrays). *)
Definition row : Type := list (option T).
Definition buffer : Type := list row.
Definition heap : Type := list buffer.

(** An ndarray: a buffer and the first column it shows (numpy's basic slicing [a[:, k:]]
    makes a view of the same buffer; no other kind of view reaches a client, except the
    column view of [load_positions], which is written through with column 0). *)
Record arr : Type := mk_arr { a_buf : nat; a_off : nat }.

Definition M (A : Type) : Type := heap -> res A * heap.
Definition mret {A} (a : A) : M A := fun h => (Ok a, h).
Definition mlift {A} (r : res A) : M A := fun h => (r, h).
Definition mbind {A B} (m : M A) (f : A -> M B) : M B :=
  fun h => match m h with (Ok a, h') => f a h' | (Err e, h') => (Err e, h') end.
Notation "'do' x <- e ; k" := (mbind e (fun x => k))
  (at level 200, x pattern, e at level 100, k at level 200).

Definition halloc (b : buffer) : M nat := fun h => (Ok (List.length h), (h ++ [b])%list).
Definition hread (n : nat) : M buffer :=
  fun h => match nth_error h n with Some b => (Ok b, h) | None => (Err KeyError, h) end.
Fixpoint hset (n : nat) (b : buffer) (h : heap) : heap :=
  match h, n with
  | [], _ => []
  | _ :: r, O => b :: r
  | x :: r, Datatypes.S n => x :: hset n b r
  end.

(** Rows of the load table and of results as cells. *)
Definition lrow_cells (r : lrow T) : row := map Some (lrow_list r).
Definition orow_cells (r : orow T) : row := Some (fst r) :: snd r.
Definition cells_lrow (c : row) : option (lrow T) :=
  match c with
  | [Some a; Some b; Some c; Some d; Some e; Some f; Some g] => Some (mk_lrow a b c d e f g)
  | _ => None
  end.
Definition cells_orow (c : row) : option (orow T) :=
  match c with Some p :: r => Some (p, r) | _ => None end.
Fixpoint all_some {A B} (f : A -> option B) (l : list A) : option (list B) :=
  match l with
  | [] => Some []
  | x :: r => match f x, all_some f r with Some y, Some ys => Some (y :: ys) | _, _ => None end
  end.

(** A LoadCase object: None, or the buffer of its [_loads] array.  [np.array(loads)]
    (loadcase.py line 90) copies, so the buffer is the object's own. *)
Definition caseH : Type := option nat.
Definition table (h : heap) (n : nat) : option (list (lrow T)) :=
  match nth_error h n with Some b => all_some cells_lrow b | None => None end.
Definition case_of (h : heap) (c : caseH) : option (lcase T) :=
  match c with
  | None => Some None
  | Some n => match table h n with Some rows => Some (Some rows) | None => None end
  end.
Definition read_table (n : nat) : M (list (lrow T)) :=
  fun h => match table h n with Some rows => (Ok rows, h) | None => (Err TypeError, h) end.

(** loadcase.py lines 18-37, 72-123: the constructor.  The input is a client's data. *)
Definition load_caseH (inp : load_input T) : M caseH :=
  do c <- mlift (load_case inp);
  match c with
  | None => mret None
  | Some rows => do n <- halloc (map lrow_cells rows); mret (Some n)
  end.

(** loadcase.py lines 39-46 and 48-60: the [loads] property returns the stored array itself,
    [load_positions] a view of its first column. *)
Definition loads_prop (c : caseH) : M (option arr) :=
  mret (option_map (fun n => mk_arr n 0) c).
Definition load_positions_prop (c : caseH) : M arr :=
  match c with None => mlift (Err TypeError) | Some n => mret (mk_arr n 0) end.

(** The rows an array shows, and writing them back in place. *)
Definition content (h : heap) (a : arr) : option (list row) :=
  option_map (map (skipn (a_off a))) (nth_error h (a_buf a)).
Definition read_rows (a : arr) : M (list (orow T)) :=
  fun h => match content h a with
           | Some rs => match all_some cells_orow rs with
                        | Some os => (Ok os, h)
                        | None => (Err TypeError, h)
                        end
           | None => (Err KeyError, h)
           end.
Fixpoint put_rows (off : nat) (old : buffer) (new : list row) : buffer :=
  match old, new with
  | o :: old', n :: new' => (firstn off o ++ n)%list :: put_rows off old' new'
  | _, _ => old
  end.
Definition write_rows (a : arr) (os : list (orow T)) : M unit :=
  do b <- hread (a_buf a);
  fun h => (Ok tt, hset (a_buf a) (put_rows (a_off a) b (map orow_cells os)) h).

(** [get_load], loadcase.py lines 307-463 (the numbers as in LoadCase.v). *)
Definition get_loadH (qs : argsort_oracle T) (lc : caseH) (position : pos_arg T)
  (min_positions : option Z) (component : comp_arg) : M (option arr) :=
  match lc with
  | None =>
      do ps <- mlift (list_positions None min_positions position);
      do n <- halloc (map (fun p => [Some p; None]) (np_array ps)); (* 452: hstack copies *)
      mret (Some (mk_arr n 0))
  | Some b =>
      do rows <- read_table b;
      do ps <- mlift (list_positions (Some rows) min_positions position);
      let lp := map lpos rows in
      let pos_direct := filter (fun p => py_in p lp) ps in
      let pos_interp := filter (fun p => negb (py_in p lp)) ps in
      do cs <- mlift (components component);
      if array_equal ps (np_unique lp) then
        do n <- halloc (map (fun r => orow_cells (pick cs r)) rows); (* 397: a list of
                                                                         columns copies *)
        mret (Some (mk_arr n 0))
      else
        do d <- match pos_direct with
                | [] => mret None
                | _ =>                                              (* 409: np.ix_ copies *)
                    do n <- halloc (map orow_cells (map (pick cs)
                              (filter (fun r => py_in (lpos r) pos_direct) rows)));
                    mret (Some (mk_arr n 0))        (* 410: reshape: the same buffer *)
                end;
        do i <- match pos_interp with
                | [] => mret None
                | _ =>
                    do cols <- mlift (multi_interp (XArr pos_interp) lp
                        (Fp2 (map (fun c => map (lcomp c) rows) cs)) None None);
                    do n <- halloc (map orow_cells (map (fun pv =>  (* 420: hstack copies *)
                        (nfloat (fst pv), map Some (snd pv)))
                        (combine pos_interp (transpose (List.length pos_interp) cols))));
                    mret (Some (mk_arr n 0))
                end;
        match d, i with
        | Some a, Some a' =>
            do d <- read_rows a;
            do i <- read_rows a';
            let d := map orow_float d in
            let all := (combine (seq 0 (List.length d)) d
                        ++ combine (seq 0 (List.length i)) i)%list in
            let by_pos := sort_by (fun r => fst (snd r)) (qs all) in
            do n <- halloc (map (fun r => Some (nfloat (nint (Z.of_nat (fst r))))
                                          :: orow_cells (snd r)) by_pos);
            mret (Some (mk_arr n 1))                  (* 440: [ret_val[:, 1:]], a view *)
        | Some a, None => mret (Some a)
        | None, a => mret a
        end
  end.

(** Elements and beams as in Beam.v, with load cases by reference. *)
Context {S : Type}.
Record elemH : Type := mk_elemH {
  h_length : option T;
  h_section : option S;
  h_loads : list (Z * caseH) }.
Definition elem_of (h : heap) (e : elemH) : option (elem T S) :=
  match all_some (fun kc : Z * caseH =>
          option_map (fun c => (fst kc, c)) (case_of h (snd kc))) (h_loads e) with
  | Some l => Some (mk_elem (h_length e) (h_section e) l)
  | None => None
  end.
Definition beamH : Type := list elemH.
Definition beam_of (h : heap) (b : beamH) : option (beam_t T S) := all_some (elem_of h) b.
(** What the reading methods see of a beam. *)
Definition view_beam (b : beamH) : M (beam_t T S) :=
  fun h => match beam_of h b with Some b => (Ok b, h) | None => (Err TypeError, h) end.

(** beam.py lines 376-394: [val[..., 0] = p] writes into the element's array, [np.vstack]
    copies. *)
Fixpoint accumulateH (qs : argsort_oracle T) (b : beamH) (load_case : Z)
  (component : comp_arg) (acc : option arr) (locs : list (location T)) : M (option arr) :=
  match locs with
  | [] => mret acc
  | (p, e, l) :: r =>
      do el <- mlift (py_index b e);
      do c <- mlift (dict_get load_case (h_loads el));
      do v <- get_loadH qs c (PosNum l) None component;
      match v with
      | None => mlift (Err TypeError)
      | Some a =>
          do rows <- read_rows a;
          do _ <- write_rows a (set_position p rows);               (* 387 *)
          do acc' <- match acc with
                     | None => mret a                               (* 390 *)
                     | Some a0 =>
                         do x <- read_rows a0;
                         do y <- read_rows a;
                         do z <- mlift (vstack x y);
                         do n <- halloc (map orow_cells z);         (* 392 *)
                         mret (mk_arr n 0)
                     end;
          accumulateH qs b load_case component (Some acc') r
      end
  end.

(** beam.py lines 314-394: [get_loads]. *)
Definition beam_get_loadsH (qs : argsort_oracle T) (b : beamH) (load_case : Z)
  (position : pos_arg T) (min_positions : option Z) (component : comp_arg)
  : M (option arr) :=
  do v <- view_beam b;
  do locs <- mlift (beam_list_positions v position min_positions (Some load_case));
  accumulateH qs b load_case component None locs.

(** codecheck.py lines 315-326: [get_tension]: the clipping is in place (line 324). *)
Definition tensionH (qs : argsort_oracle T) (b : beamH) (load_case : Z)
  (position : pos_arg T) (min_positions : option Z) : M arr :=
  do t <- beam_get_loadsH qs b load_case position min_positions (CStr "N");
  match t with
  | None => mlift (Err TypeError)
  | Some a =>
      do rows <- read_rows a;
      do rows' <- mlift (mapM (clip_row (existsb row_has_float rows)) rows);
      do _ <- write_rows a rows';
      mret a
  end.

End ArrayHeap.
Arguments row T : clear implicits.
Arguments buffer T : clear implicits.
Arguments heap T : clear implicits.
Arguments elemH T S : clear implicits.
Arguments beamH T S : clear implicits.
Arguments M T A : clear implicits.

Notation "'do' x <- e ; k" := (mbind e (fun x => k))
  (at level 200, x pattern, e at level 100, k at level 200).

Section Check.
Context {T : Type} {NT : Num T}.

(** An AS4100 object whose beam's load cases are by reference. *)
Record as4100H : Type := mk_as4100H {
  h_beam : option (beamH T (section T));
  h_sect : option (section T);
  h_points : Z;
  h_as : list (as_section T);
  h_phi : T;
  h_au : T;
  h_kt : T }.
Definition check_of (h : heap T) (a : as4100H) : option (as4100 T) :=
  match h_beam a with
  | None => Some (mk_as4100 None (h_sect a) (h_points a) (h_as a) (h_phi a) (h_au a) (h_kt a))
  | Some b => match beam_of h b with
              | Some b => Some (mk_as4100 (Some b) (h_sect a) (h_points a) (h_as a) (h_phi a)
                                 (h_au a) (h_kt a))
              | None => None
              end
  end.
Definition view_check (a : as4100H) : M T (as4100 T) :=
  fun h => match check_of h a with Some a => (Ok a, h) | None => (Err TypeError, h) end.

(** as4100.py lines 229-235. *)
Definition get_tensionH (qs : argsort_oracle T) (a : as4100H) (load_case : Z)
  (position : pos_arg T) (min_positions : option Z) : M T arr :=
  match h_beam a with
  | None => mlift (Err AttributeError)
  | Some b => tensionH qs b load_case position min_positions
  end.

Fixpoint mmap {A B} (f : A -> M T B) (l : list A) : M T (list B) :=
  match l with
  | [] => mret []
  | x :: r => do y <- f x; do ys <- mmap f r; mret (y :: ys)
  end.

(** as4100.py lines 101-144. *)
Definition utils_atH (qs : argsort_oracle T) (a : as4100H) (l : Z) (p : T) : M T (list T) :=
  do v <- view_check a;
  do cap <- mlift (tension_capacity v (PosNum p));
  do t <- get_tensionH qs a l (PosNum p) None;
  do rows <- read_rows t;
  mlift (mapM (fun r => match snd r with
                        | [Some t] => util_one t cap
                        | _ => Err IndexError
                        end) rows).

(** as4100.py lines 94-144. *)
Fixpoint util_loopH (qs : argsort_oracle T) (a : as4100H) (b : beamH T (section T))
  (pos : option (list T)) (ls : list Z) : M T (list T) :=
  match ls with
  | [] => mret []
  | l :: r =>
      do ps <- match pos with
               | Some ps => mret ps
               | None =>
                   do v <- view_beam b;
                   do locs <- mlift (beam_list_positions v PosNone (Some (h_points a)) (Some l));
                   mret (map (fun x => fst (fst x)) locs)
               end;
      do us <- mmap (utils_atH qs a l) ps;
      do rest <- util_loopH qs a b (Some ps) r;
      mret (List.concat us ++ rest)%list
  end.

(** as4100.py lines 65-156: [tension_utilisation]. *)
Definition tension_utilisationH (qs : argsort_oracle T) (a : as4100H) (load_case : lc_arg)
  (position : pos_arg T) : M T T :=
  do v <- view_check a;
  do ls <- mlift match load_case with
             | LCInt z => Ok [z]
             | LCList l => Ok l
             | LCNone => match cc_beam v with
                         | None => Err AttributeError
                         | Some b => beam_load_cases b
                         end
             end;
  do pos <- mlift match position with
              | PosNone => Ok None
              | PosNum x => if nisfloat x then Ok (Some [x])
                            else match ls with [] => Ok (Some []) | _ => Err TypeError end
              | PosList l => Ok (Some l)
              end;
  do us <- match h_beam a with
    | Some b => util_loopH qs a b pos ls
    | None =>
        mlift match ls, pos with
        | [], _ => Ok []
        | _, None => Err AttributeError
        | _, Some [] => Ok []
        | _, Some _ => Err SectionOnlyError
        end
    end;
  mlift (list_max us).

(** A client's session with some load cases, beams and code checks: queries, and writes
    [a[i, j] = x] into arrays. *)
Inductive query : Type :=
| QLoad (c : caseH) (position : pos_arg T) (min_positions : option Z) (component : comp_arg)
| QLoads (b : beamH T (section T)) (load_case : Z) (position : pos_arg T)
    (min_positions : option Z) (component : comp_arg)
| QTension (a : as4100H) (load_case : Z) (position : pos_arg T) (min_positions : option Z)
| QUtil (a : as4100H) (load_case : lc_arg) (position : pos_arg T).
(** The answer: an array (or None), or a number. *)
Inductive answer : Type := AArr (a : option arr) | ANum (x : T).
Definition ask (qs : argsort_oracle T) (q : query) : M T answer :=
  match q with
  | QLoad c p m k => do a <- get_loadH qs c p m k; mret (AArr a)
  | QLoads b l p m k => do a <- beam_get_loadsH qs b l p m k; mret (AArr a)
  | QTension a l p m => do t <- get_tensionH qs a l p m; mret (AArr (Some t))
  | QUtil a l p => do u <- tension_utilisationH qs a l p; mret (ANum u)
  end.

Definition set_cell (i j : nat) (x : option T) (b : buffer T) : buffer T :=
  match nth_error b i with
  | Some r => if Nat.ltb j (List.length r)
              then (firstn i b ++ [firstn j r ++ x :: skipn (Datatypes.S j) r]
                    ++ skipn (Datatypes.S i) b)%list
              else b
  | None => b
  end.
Definition poke (a : arr) (i j : nat) (x : option T) (h : heap T) : heap T :=
  match nth_error h (a_buf a) with
  | Some b => hset (a_buf a) (set_cell i (a_off a + j) x b) h
  | None => h
  end.

End Check.
Arguments as4100H T : clear implicits.
Arguments query T : clear implicits.
