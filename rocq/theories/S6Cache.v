(** Stateful model of beamdesign/codecheck/as4100/S6.py: the same numbers as [S6.v], plus
    what [S6.v] leaves out: the result dictionaries as mutable heap objects, and the three
    [functools.lru_cache]s of lines 115, 137 and 296.  A Python call is a state
    transformer; the state survives an exception.

    Simplifications.  Dictionary contents that no caller can see yet (a [results]
    dictionary under construction) are built as values and allocated when the function
    returns; dictionaries that another party can reach are updated in the heap.  Cache
    keys are compared as real numbers (Python: hash and ==).  Keyword order is part of an
    lru_cache key: a client's order is the tag [o], the module's own calls have tag 0.  A
    complex intermediate value is the outcome [EComplex], which is not cached. *)

From Coq Require Import ZArith Reals List Bool String.
From Verif Require Import Base Num RNum PyReal Symmetry S6.
Import ListNotations.
Open Scope R_scope.
Open Scope string_scope.

(** What a dictionary can hold: numbers, strings, the coefficient list of line 683, the
    text of numpy's roots (line 723), or a reference to another dictionary. *)
Inductive val : Type :=
| VNum (x : R) | VStr (s : string) | VNums (l : list R) | VText (l : list (R * R))
| VRef (a : nat).

(** Dictionaries in insertion order; [d[k] = v] and [d.update({...})]. *)
Definition dict : Type := list (string * val).
Fixpoint dget (k : string) (d : dict) : option val :=
  match d with
  | [] => None
  | (k', v) :: r => if String.eqb k' k then Some v else dget k r
  end.
Fixpoint dset (k : string) (v : val) (d : dict) : dict :=
  match d with
  | [] => [(k, v)]
  | (k', v') :: r => if String.eqb k' k then (k', v) :: r else (k', v') :: dset k v r
  end.
Definition dupdate (d : dict) (kvs : dict) : dict :=
  fold_left (fun d kv => dset (fst kv) (snd kv) d) kvs d.

(** The heap of dictionaries (an address is an index) and the caches (most recently used
    first). *)
Definition heap : Type := list dict.
Definition key : Type := (nat * list R)%type.
Record state : Type := mk_state {
  st_heap : heap;
  st_rol : list (key * R);
  st_fet : list (key * R);
  st_foxz : list (key * nat) }.
Definition fresh : state := mk_state [] [] [] [].

Definition M (A : Type) : Type := state -> res A * state.
Definition ret {A} (a : A) : M A := fun s => (Ok a, s).
Definition lift {A} (r : res A) : M A := fun s => (r, s).
Definition mbind {A B} (m : M A) (f : A -> M B) : M B :=
  fun s => match m s with
           | (Ok a, s') => f a s'
           | (Err e, s') => (Err e, s')
           end.
Notation "'do' x <- e ; k" := (mbind e (fun x => k))
  (at level 200, x pattern, e at level 100, k at level 200).

Definition set_heap (h : heap) (s : state) : state :=
  mk_state h (st_rol s) (st_fet s) (st_foxz s).
Definition set_rol c (s : state) : state := mk_state (st_heap s) c (st_fet s) (st_foxz s).
Definition set_fet c (s : state) : state := mk_state (st_heap s) (st_rol s) c (st_foxz s).
Definition set_foxz c (s : state) : state := mk_state (st_heap s) (st_rol s) (st_fet s) c.

Definition alloc (d : dict) : M nat :=
  fun s => (Ok (List.length (st_heap s)), set_heap (app (st_heap s) [d]) s).
Definition read (a : nat) : M dict :=
  fun s => match nth_error (st_heap s) a with
           | Some d => (Ok d, s)
           | None => (Err KeyError, s)
           end.
Fixpoint replace {A} (a : nat) (d : A) (h : list A) : list A :=
  match h, a with
  | [], _ => []
  | _ :: r, O => d :: r
  | x :: r, S a => x :: replace a d r
  end.
Definition update (a : nat) (kvs : dict) : M unit :=
  do d <- read a;
  fun s => (Ok tt, set_heap (replace a (dupdate d kvs) (st_heap s)) s).
(** [d[k]] where the value is used as a number, or as a dictionary. *)
Definition get_num (a : nat) (k : string) : M R :=
  do d <- read a;
  match dget k d with
  | Some (VNum x) => ret x
  | Some _ => lift (Err TypeError)
  | None => lift (Err KeyError)
  end.
Definition get_ref (a : nat) (k : string) : M nat :=
  do d <- read a;
  match dget k d with
  | Some (VRef b) => ret b
  | Some _ => lift (Err AttributeError)
  | None => lift (Err KeyError)
  end.

(** functools.lru_cache() with its default maxsize: a hit moves the entry to the front; a
    miss runs the function and, if it returns, stores the result and drops the least
    recently used entry beyond 128.  Exceptions are not stored. *)
Definition maxsize : nat := 128.
Fixpoint reals_eqb (a b : list R) : bool :=
  match a, b with
  | [], [] => true
  | x :: a, y :: b => Reqb x y && reals_eqb a b
  | _, _ => false
  end.
Definition key_eqb (a b : key) : bool :=
  Nat.eqb (fst a) (fst b) && reals_eqb (snd a) (snd b).
Fixpoint find {V} (k : key) (c : list (key * V)) : option V :=
  match c with
  | [] => None
  | (k', v) :: r => if key_eqb k' k then Some v else find k r
  end.
Definition without {V} (k : key) (c : list (key * V)) : list (key * V) :=
  filter (fun kv => negb (key_eqb (fst kv) k)) c.
Definition lru {V} (sel : state -> list (key * V)) (put : list (key * V) -> state -> state)
  (k : key) (body : M V) : M V :=
  fun s => match find k (sel s) with
           | Some v => (Ok v, put ((k, v) :: without k (sel s)) s)
           | None => match body s with
                     | (Ok v, s') => (Ok v, put (firstn maxsize ((k, v) :: sel s')) s')
                     | (Err e, s') => (Err e, s')
                     end
           end.

(** Lines 115-134: [r_ol], cached. *)
Definition m_r_ol (o : nat) (r_x r_y x_o y_o : R) : M R :=
  lru st_rol set_rol (o, [r_x; r_y; x_o; y_o]) (ret (r_ol r_x r_y x_o y_o)).

(** Lines 137-175: [f_euler_torsion], cached; it calls the cached [r_ol]. *)
Definition m_f_euler_torsion (o : nat) (A l_ez r_x r_y x_o y_o J I_w E G : R) : M R :=
  lru st_fet set_fet (o, [A; l_ez; r_x; r_y; x_o; y_o; J; I_w; E; G])
    (do r_o <- m_r_ol 0 r_x r_y x_o y_o;                            (* 169 *)
     do a <- lift (rdiv (G * J) (A * r_o * r_o));
     do b <- lift (rdiv (PI * PI * E * I_w) (G * J * (l_ez * l_ez)));
     ret (a * (1 + b))%R).

(** Lines 204-239: [s6_3_3_alpha_c]: a new dictionary holding a new dictionary. *)
Definition ac_inter (r : alpha_c_res) : dict :=
  [("α_a", VNum (ac_alpha_a r)); ("λ", VNum (ac_lambda r)); ("η", VNum (ac_eta r));
   ("ξ", VNum (ac_xi r))].
Definition m_s6_3_3_alpha_c (lambda_n alpha_b : R) : M nat :=
  do r <- lift (s6_3_3_alpha_c lambda_n alpha_b);
  do b <- alloc (ac_inter r);
  alloc [("Intermediate", VRef b); ("α_c", VNum (ac_alpha_c r))].

(** Lines 240-286: [s6_3_3_N_c]. *)
Definition m_s6_3_3_N_c (A_n k_f l_e r f_y f_ref alpha_b : R) : M nat :=
  let N_s := s6_2_N_s (s6_2_A_e A_n k_f) f_y in
  do ln <- lift (s6_3_3_lambda_n k_f l_e r f_y f_ref);              (* 274 *)
  do ac <- m_s6_3_3_alpha_c ln alpha_b;                             (* 275 *)
  do alpha <- get_num ac "α_c";
  do ib <- get_ref ac "Intermediate";
  do inner <- read ib;
  do b <- alloc (dupdate (dupdate (dupdate [("λ_n", VNum ln)] [("α_c", VNum alpha)]) inner)
                   [("l_e", VNum l_e); ("r", VNum r)]);             (* 281-284 *)
  alloc [("N_c", VNum (N_s * alpha)); ("Intermediate", VRef b)].

(** Lines 296-361: [f_oxz], cached: the cached value is the dictionary itself. *)
Definition m_f_oxz (o : nat) (A_n l_ex l_ez r_x r_y x_o y_o J I_w E G : R) : M nat :=
  lru st_foxz set_foxz (o, [A_n; l_ex; l_ez; r_x; r_y; x_o; y_o; J; I_w; E; G])
    (do r_o <- m_r_ol 0 r_x r_y x_o y_o;                            (* 336 *)
     do q <- lift (rdiv x_o r_o);
     let beta := (1 - q * q)%R in                                   (* 337 *)
     do f_ox <- lift (f_euler E l_ex r_x);                          (* 338 *)
     do f_oz <- m_f_euler_torsion 0 A_n l_ez r_x r_y x_o y_o J I_w E G;  (* 339 *)
     do h <- lift (rdiv 1 (2 * beta));
     do rt <- lift (rroot ((f_ox + f_oz) * (f_ox + f_oz) - 4 * beta * f_ox * f_oz));
     let f_ := (h * ((f_ox + f_oz) - rt))%R in                      (* 343-347 *)
     do b <- alloc [("β", VNum beta); ("f_ox", VNum f_ox); ("f_oz", VNum f_oz);
                    ("r_x", VNum r_x); ("r_y", VNum r_y); ("x_o", VNum x_o);
                    ("y_o", VNum y_o); ("r_ol", VNum r_o)];
     alloc [("Intermediate", VRef b); ("f_oxz", VNum f_)]).         (* 349-361 *)

(** The strings of symmetry.py lines 58-71. *)
Definition sym_name (s : symclass) : string :=
  match s with
  | SymNone => "None" | SymDouble => "Double" | SymPoint => "Point" | SymSingle => "Single"
  end.

(** Lines 364-458: [f_oc_double_symmetric]: updates the dictionary inside the cache. *)
Definition m_f_oc_double_symmetric (A_n l_ex l_ez r_x r_y x_o y_o J I_w E G : R)
  (sym : symmetry_t) : M nat :=
  do foxz <- m_f_oxz 0 A_n l_ex l_ez r_x r_y x_o y_o J I_w E G;     (* 414 *)
  do foz <- m_f_euler_torsion 0 A_n l_ez r_x r_y x_o y_o J I_w E G; (* 428 *)
  do f <- get_num foxz "f_oxz";
  do inter <- get_ref foxz "Intermediate";                          (* 448 *)
  do _ <- update inter [("f_oxz", VNum f)];                         (* 451 *)
  do _ <- update inter [("f_oz", VNum foz)];                        (* 452 *)
  do _ <- update inter [("AS4600 Clause", VStr "AS4600 S3.4.3")];   (* 455 *)
  do s <- lift (symmetry sym);
  do _ <- update inter [("Symmetry", VStr (sym_name s))];           (* 456 *)
  alloc [("f_oc", VNum (pymin f foz)); ("Intermediate", VRef inter)].

(** Lines 461-577: [f_oc_single_symmetric]: updates the dictionary inside the cache. *)
Definition m_f_oc_single_symmetric (A_n l_ex l_ey l_ez r_x r_y x_o y_o J I_w E G : R)
  (sym : symmetry_t) : M nat :=
  do n <- lift (symcount sym);
  match sym with
  | Some [a] =>
      let x := axis_is "x" a in
      do d <- (if x then m_f_oxz 0 A_n l_ex l_ez r_x r_y x_o y_o J I_w E G
               else m_f_oxz 0 A_n l_ey l_ez r_y r_x y_o x_o J I_w E G);  (* 534-562 *)
      do inter <- get_ref d "Intermediate";
      do _ <- update inter [("Axis of Symmetry", VStr (if x then "x" else "y"))];
      do f <- get_num d "f_oxz";                                    (* 567 *)
      do _ <- update inter [("f_oxz", VNum f)];                     (* 571 *)
      do s <- lift (symmetry sym);
      do _ <- update inter [("Symmetry", VStr (sym_name s))];       (* 572 *)
      do _ <- update inter [("AS4600 Clause", VStr "AS4600 S3.4.3")];
      alloc [("f_oc", VNum f); ("Intermediate", VRef inter)]
  | _ => lift (Err TypeError)
  end.

(** Lines 580-625: [f_oc_point_symmetric]. *)
Definition m_f_oc_point_symmetric (A_n l_ez r_x r_y x_o y_o J I_w E G : R) : M nat :=
  do f <- m_f_euler_torsion 0 A_n l_ez r_x r_y x_o y_o J I_w E G;
  do b <- alloc [("AS4600 Clause", VStr "AS4600 S3.4.4")];
  alloc [("f_oc", VNum f); ("Intermediate", VRef b)].

(** Lines 628-732: [f_oc_unsymmetric]. *)
Definition m_f_oc_unsymmetric (roots : roots_oracle)
  (A_n l_ex l_ey l_ez r_x r_y x_o y_o J I_w E G : R) : M nat :=
  do f_ox <- lift (f_euler E l_ex r_x);
  do f_oy <- lift (f_euler E l_ey r_y);
  do r_o <- m_r_ol 0 r_x r_y x_o y_o;
  do f_oz <- m_f_euler_torsion 0 A_n l_ez r_x r_y x_o y_o J I_w E G;
  let '(a, b, c, d) := unsym_coeffs f_ox f_oy f_oz r_o x_o y_o in
  let rs := roots a (- b)%R c (- d)%R in
  do m <- lift (match fold_left min_stress rs None with
                | None => Err ValueError
                | Some (re, im) => if Reqb im 0 then Ok re else Err EComplex
                end);
  do i <- alloc [("AS4600 Clause", VStr "S3.4.5"); ("Equation", VNums [a; - b; c; - d]%R);
                 ("Solutions", VText rs); ("f_ox", VNum f_ox); ("f_oy", VNum f_oy);
                 ("f_oz", VNum f_oz); ("a", VNum a); ("b", VNum b); ("c", VNum c);
                 ("d", VNum d)];
  alloc [("f_oc", VNum m); ("Intermediate", VRef i)].

(** Lines 735-887: [s6_3_3_N_c_torsion]. *)
Definition m_f_oc (roots : roots_oracle) (q : sect6) (l_ex l_ey l_ez : R)
  (sym : symmetry_t) : M nat :=
  do s <- lift (symmetry sym);
  match s with
  | SymDouble => m_f_oc_double_symmetric (q_A_n q) l_ex l_ez (q_r_x q) (q_r_y q)
                   (q_x_o q) (q_y_o q) (q_J q) (q_I_w q) (q_E q) (q_G q) sym
  | SymSingle => m_f_oc_single_symmetric (q_A_n q) l_ex l_ey l_ez (q_r_x q) (q_r_y q)
                   (q_x_o q) (q_y_o q) (q_J q) (q_I_w q) (q_E q) (q_G q) sym
  | SymPoint => m_f_oc_point_symmetric (q_A_n q) l_ez (q_r_x q) (q_r_y q)
                   (q_x_o q) (q_y_o q) (q_J q) (q_I_w q) (q_E q) (q_G q)
  | SymNone => m_f_oc_unsymmetric roots (q_A_n q) l_ex l_ey l_ez (q_r_x q) (q_r_y q)
                   (q_x_o q) (q_y_o q) (q_J q) (q_I_w q) (q_E q) (q_G q)
  end.
Definition m_s6_3_3_N_c_torsion (roots : roots_oracle) (q : sect6) (l_ex l_ey l_ez : R)
  (sym : symmetry_t) (uncertainty : R) : M nat :=
  let A_e := s6_2_A_e (q_A_n q) (q_k_f q) in
  do results <- m_f_oc roots q l_ex l_ey l_ez sym;                  (* 796-865 *)
  do f <- get_num results "f_oc";                                   (* 867 *)
  do z <- lift (n_cz_of A_e (q_f_y q) f uncertainty);               (* 868-876 *)
  do inter <- get_ref results "Intermediate";                       (* 882 *)
  do _ <- update inter [("f_oc", VNum f); ("λ_c", VNum (cz_lambda_c z));
                        ("f_n", VNum (cz_f_n z))];                  (* 885 *)
  alloc [("N_cz", VNum (cz_N_cz z)); ("Intermediate", VRef inter)].

(** Lines 895-1046: [s6_1_1_Nc]. *)
Record nc_args : Type := mk_nc_args {
  n_q : sect6; n_l : R; n_k_ex : R; n_k_ey : R; n_k_ez : R; n_sym : symmetry_t;
  n_f_ref : R; n_alpha_b : R; n_uncertainty : R; n_phi : R;
  n_buckling : bool; n_torsion : bool }.

Definition m_s6_1_1_Nc (roots : roots_oracle) (g : nc_args) : M nat :=
  let q := n_q g in
  let A_e := s6_2_A_e (q_A_n q) (q_k_f q) in
  let N_s := s6_2_N_s A_e (q_f_y q) in                              (* 963 *)
  let phiN_s := (n_phi g * N_s)%R in
  do ib <- alloc [("A_e", VNum A_e); ("A_n", VNum (q_A_n q)); ("k_f", VNum (q_k_f q));
                  ("f_y", VNum (q_f_y q))];                         (* 968 *)
  let results := [("N_s", VNum N_s); ("φN_s", VNum phiN_s); ("N_s Intermediate", VRef ib)] in
  if n_buckling g then                                              (* 974 *)
    let l_ex := s6_3_2_l_e (n_l g) (n_k_ex g) in
    let l_ey := s6_3_2_l_e (n_l g) (n_k_ey g) in
    do bx <- m_s6_3_3_N_c (q_A_n q) (q_k_f q) l_ex (q_r_x q) (q_f_y q) (n_f_ref g)
               (n_alpha_b g);
    do by_ <- m_s6_3_3_N_c (q_A_n q) (q_k_f q) l_ey (q_r_y q) (q_f_y q) (n_f_ref g)
               (n_alpha_b g);
    do nx <- get_num bx "N_c";
    do ny <- get_num by_ "N_c";
    let N_cx := pymin nx N_s in                                     (* 985 *)
    let phiN_cx := (n_phi g * N_cx)%R in
    let N_cy := pymin ny N_s in                                     (* 987 *)
    let phiN_cy := (n_phi g * N_cy)%R in
    do ci <- alloc [("f_ref", VNum (n_f_ref g)); ("α_b", VNum (n_alpha_b g))];
    do ix <- get_ref bx "Intermediate";
    do iy <- get_ref by_ "Intermediate";
    let results := dupdate results
      [("N_cx", VNum N_cx); ("N_cy", VNum N_cy); ("φN_cx", VNum phiN_cx);
       ("φN_cy", VNum phiN_cy); ("N_c Intermediate", VRef ci);
       ("N_cx Intermediate", VRef ix); ("N_cy Intermediate", VRef iy)] in (* 990-996 *)
    let N_c := pymin (pymin N_s N_cx) N_cy in                       (* 999 *)
    let phiN_c := pymin (pymin phiN_s phiN_cx) phiN_cy in           (* 1000 *)
    if n_torsion g then                                             (* 1003 *)
      let l_ez := s6_3_2_l_e (n_l g) (n_k_ez g) in
      do z <- m_s6_3_3_N_c_torsion roots q l_ex l_ey l_ez (n_sym g) (n_uncertainty g);
      do iz <- get_ref z "Intermediate";                            (* 1025 *)
      do nz <- get_num z "N_cz";                                    (* 1027 *)
      do _ <- update iz [("N_cz_buckling", VNum nz)];               (* 1029 *)
      let N_cz := pymin N_s nz in                                   (* 1032 *)
      let phiN_cz := (n_phi g * N_cz)%R in
      let N_c' := pymin N_c N_cz in                                 (* 1040 *)
      alloc (dupdate results
        [("N_cz Intermediate", VRef iz); ("N_cz", VNum N_cz); ("φN_cz", VNum phiN_cz);
         ("N_c", VNum N_c'); ("φN_c", VNum (n_phi g * N_c')%R)])    (* 1025-1044 *)
    else alloc (dupdate results [("N_c", VNum N_c); ("φN_c", VNum phiN_c)])
  else alloc (dupdate results [("N_c", VNum N_s); ("φN_c", VNum phiN_s)]).

(** The S6 functions a client can call.  Those left out ([N_euler], [f_euler], ...) return a
    bare number and touch neither cache nor dictionary. *)
Inductive call : Type :=
| CallRol (o : nat) (r_x r_y x_o y_o : R)
| CallTorsion (o : nat) (A l_ez r_x r_y x_o y_o J I_w E G : R)
| CallAlphaC (lambda_n alpha_b : R)
| CallFlexural (A_n k_f l_e r f_y f_ref alpha_b : R)
| CallFoxz (o : nat) (A_n l_ex l_ez r_x r_y x_o y_o J I_w E G : R)
| CallDouble (A_n l_ex l_ez r_x r_y x_o y_o J I_w E G : R) (sym : symmetry_t)
| CallSingle (A_n l_ex l_ey l_ez r_x r_y x_o y_o J I_w E G : R) (sym : symmetry_t)
| CallPoint (A_n l_ez r_x r_y x_o y_o J I_w E G : R)
| CallUnsym (A_n l_ex l_ey l_ez r_x r_y x_o y_o J I_w E G : R)
| CallNcz (q : sect6) (l_ex l_ey l_ez : R) (sym : symmetry_t) (uncertainty : R)
| CallNc (g : nc_args).

Definition as_num (m : M R) : M val := do x <- m; ret (VNum x).
Definition as_ref (m : M nat) : M val := do a <- m; ret (VRef a).
Definition run_call (roots : roots_oracle) (c : call) : M val :=
  match c with
  | CallRol o a b c d => as_num (m_r_ol o a b c d)
  | CallTorsion o A lz rx ry xo yo J Iw E G =>
      as_num (m_f_euler_torsion o A lz rx ry xo yo J Iw E G)
  | CallAlphaC a b => as_ref (m_s6_3_3_alpha_c a b)
  | CallFlexural A k l r fy fr a => as_ref (m_s6_3_3_N_c A k l r fy fr a)
  | CallFoxz o A lx lz rx ry xo yo J Iw E G =>
      as_ref (m_f_oxz o A lx lz rx ry xo yo J Iw E G)
  | CallDouble A lx lz rx ry xo yo J Iw E G s =>
      as_ref (m_f_oc_double_symmetric A lx lz rx ry xo yo J Iw E G s)
  | CallSingle A lx ly lz rx ry xo yo J Iw E G s =>
      as_ref (m_f_oc_single_symmetric A lx ly lz rx ry xo yo J Iw E G s)
  | CallPoint A lz rx ry xo yo J Iw E G =>
      as_ref (m_f_oc_point_symmetric A lz rx ry xo yo J Iw E G)
  | CallUnsym A lx ly lz rx ry xo yo J Iw E G =>
      as_ref (m_f_oc_unsymmetric roots A lx ly lz rx ry xo yo J Iw E G)
  | CallNcz q lx ly lz s u => as_ref (m_s6_3_3_N_c_torsion roots q lx ly lz s u)
  | CallNc g => as_ref (m_s6_1_1_Nc roots g)
  end.

(** A session: the calls made so far; an exception is caught and the session goes on. *)
Definition session (roots : roots_oracle) (cs : list call) (s : state) : state :=
  fold_left (fun s c => snd (run_call roots c s)) cs s.

(** What a client reads: [v[k1][k2]...]. *)
Fixpoint at_path (h : heap) (v : val) (p : list string) : option val :=
  match p with
  | [] => Some v
  | k :: p =>
      match v with
      | VRef a => match nth_error h a with
                  | Some d => match dget k d with
                              | Some w => at_path h w p
                              | None => None
                              end
                  | None => None
                  end
      | _ => None
      end
  end.
Definition numeric (v : option val) : option val :=
  match v with
  | Some (VNum x) => Some (VNum x)
  | Some (VNums l) => Some (VNums l)
  | _ => None
  end.
(** A client edits a dictionary it was given: [v[k1]...[kn][k] = w]. *)
Definition edit (v : val) (p : list string) (k : string) (w : val) (s : state) : state :=
  match at_path (st_heap s) v p with
  | Some (VRef a) =>
      match nth_error (st_heap s) a with
      | Some d => set_heap (replace a (dset k w d) (st_heap s)) s
      | None => s
      end
  | _ => s
  end.
