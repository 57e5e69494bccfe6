(** Model of beamdesign/codecheck/as4100/S6.py called from several threads, with calls that
    can be broken off: the functions of [S6Cache.v] again, cut into the steps between which
    CPython can switch threads.

    A call is a [prog]: it has ended, or its next step changes the shared state (heap of
    dictionaries and the three lru_caches) and goes on depending on that state.  One step
    is one access to something shared: looking up a cache (a hit also reorders it), storing
    into a cache, allocating a dictionary, reading [d[k]], or [d[k] = v] / [d.update({...})].
    The interpreter lock makes each of these indivisible (string keys: no Python code runs
    inside them).  Arithmetic on local variables is not a step of its own.

    Simplifications: those of [S6Cache.v]; a thread makes a fixed list of calls (a run of a
    client that chooses its calls as it goes is a run of the list it ended up making); when
    two threads miss the same key, the first result stored stays (CPython 3.7 and later:
    "the same key was added to the cache during the call"). *)

From Coq Require Import ZArith Reals List Bool String.
From Verif Require Import Base Num RNum PyReal Symmetry S6 S6Cache.
Import ListNotations.
Open Scope R_scope.
Open Scope string_scope.

Inductive prog (A : Type) : Type :=
| Done (r : res A)
| Step (g : state -> state) (k : state -> prog A).
Arguments Done {A} r.
Arguments Step {A} g k.

(** One step doing all of [m]. *)
Definition atom {A} (m : M A) : prog A :=
  Step (fun s => snd (m s)) (fun s => Done (fst (m s))).

Fixpoint pbind {A B} (p : prog A) (f : A -> prog B) : prog B :=
  match p with
  | Done (Ok a) => f a
  | Done (Err e) => Done (Err e)
  | Step g k => Step g (fun s => pbind (k s) f)
  end.
Notation "'par' x <- e ; k" := (pbind e (fun x => k))
  (at level 200, x pattern, e at level 100, k at level 200).

Definition plift {A} (r : res A) : prog A := Done r.

(** functools.lru_cache: look up; on a miss run the function, which other threads can
    interleave with, and store the result unless the key is there by then. *)
Definition store {V} (sel : state -> list (key * V)) (put : list (key * V) -> state -> state)
  (k : key) (v : V) : M V :=
  fun s => match find k (sel s) with
           | Some _ => (Ok v, s)
           | None => (Ok v, put (firstn maxsize ((k, v) :: sel s)) s)
           end.
Definition p_lru {V} (sel : state -> list (key * V)) (put : list (key * V) -> state -> state)
  (k : key) (body : prog V) : prog V :=
  Step (fun s => match find k (sel s) with
                 | Some v => put ((k, v) :: without k (sel s)) s
                 | None => s
                 end)
       (fun s => match find k (sel s) with
                 | Some v => Done (Ok v)
                 | None => par v <- body; atom (store sel put k v)
                 end).

(** Lines 115-134. *)
Definition p_r_ol (o : nat) (r_x r_y x_o y_o : R) : prog R :=
  p_lru st_rol set_rol (o, [r_x; r_y; x_o; y_o]) (plift (Ok (r_ol r_x r_y x_o y_o))).

(** Lines 137-175. *)
Definition p_f_euler_torsion (o : nat) (A l_ez r_x r_y x_o y_o J I_w E G : R) : prog R :=
  p_lru st_fet set_fet (o, [A; l_ez; r_x; r_y; x_o; y_o; J; I_w; E; G])
    (par r_o <- p_r_ol 0 r_x r_y x_o y_o;                           (* 169 *)
     par a <- plift (rdiv (G * J) (A * r_o * r_o));
     par b <- plift (rdiv (PI * PI * E * I_w) (G * J * (l_ez * l_ez)));
     plift (Ok (a * (1 + b))%R)).

(** Lines 204-239. *)
Definition p_s6_3_3_alpha_c (lambda_n alpha_b : R) : prog nat :=
  par r <- plift (s6_3_3_alpha_c lambda_n alpha_b);
  par b <- atom (alloc (ac_inter r));
  atom (alloc [("Intermediate", VRef b); ("α_c", VNum (ac_alpha_c r))]).

(** Lines 240-286. *)
Definition p_s6_3_3_N_c (A_n k_f l_e r f_y f_ref alpha_b : R) : prog nat :=
  let N_s := s6_2_N_s (s6_2_A_e A_n k_f) f_y in
  par ln <- plift (s6_3_3_lambda_n k_f l_e r f_y f_ref);            (* 274 *)
  par ac <- p_s6_3_3_alpha_c ln alpha_b;                            (* 275 *)
  par alpha <- atom (get_num ac "α_c");
  par ib <- atom (get_ref ac "Intermediate");
  par inner <- atom (read ib);
  par b <- atom (alloc (dupdate (dupdate (dupdate [("λ_n", VNum ln)] [("α_c", VNum alpha)])
                   inner) [("l_e", VNum l_e); ("r", VNum r)]));     (* 281-284 *)
  atom (alloc [("N_c", VNum (N_s * alpha)); ("Intermediate", VRef b)]).

(** Lines 296-361. *)
Definition p_f_oxz (o : nat) (A_n l_ex l_ez r_x r_y x_o y_o J I_w E G : R) : prog nat :=
  p_lru st_foxz set_foxz (o, [A_n; l_ex; l_ez; r_x; r_y; x_o; y_o; J; I_w; E; G])
    (par r_o <- p_r_ol 0 r_x r_y x_o y_o;                           (* 336 *)
     par q <- plift (rdiv x_o r_o);
     let beta := (1 - q * q)%R in                                   (* 337 *)
     par f_ox <- plift (f_euler E l_ex r_x);                        (* 338 *)
     par f_oz <- p_f_euler_torsion 0 A_n l_ez r_x r_y x_o y_o J I_w E G;  (* 339 *)
     par h <- plift (rdiv 1 (2 * beta));
     par rt <- plift (rroot ((f_ox + f_oz) * (f_ox + f_oz) - 4 * beta * f_ox * f_oz));
     let f_ := (h * ((f_ox + f_oz) - rt))%R in                      (* 343-347 *)
     par b <- atom (alloc [("β", VNum beta); ("f_ox", VNum f_ox); ("f_oz", VNum f_oz);
                    ("r_x", VNum r_x); ("r_y", VNum r_y); ("x_o", VNum x_o);
                    ("y_o", VNum y_o); ("r_ol", VNum r_o)]);
     atom (alloc [("Intermediate", VRef b); ("f_oxz", VNum f_)])).  (* 349-361 *)

(** Lines 364-458. *)
Definition p_f_oc_double_symmetric (A_n l_ex l_ez r_x r_y x_o y_o J I_w E G : R)
  (sym : symmetry_t) : prog nat :=
  par foxz <- p_f_oxz 0 A_n l_ex l_ez r_x r_y x_o y_o J I_w E G;    (* 414 *)
  par foz <- p_f_euler_torsion 0 A_n l_ez r_x r_y x_o y_o J I_w E G;(* 428 *)
  par f <- atom (get_num foxz "f_oxz");
  par inter <- atom (get_ref foxz "Intermediate");                  (* 448 *)
  par _ <- atom (update inter [("f_oxz", VNum f)]);                 (* 451 *)
  par _ <- atom (update inter [("f_oz", VNum foz)]);                (* 452 *)
  par _ <- atom (update inter [("AS4600 Clause", VStr "AS4600 S3.4.3")]);  (* 455 *)
  par s <- plift (symmetry sym);
  par _ <- atom (update inter [("Symmetry", VStr (sym_name s))]);   (* 456 *)
  atom (alloc [("f_oc", VNum (pymin f foz)); ("Intermediate", VRef inter)]).

(** Lines 461-577. *)
Definition p_f_oc_single_symmetric (A_n l_ex l_ey l_ez r_x r_y x_o y_o J I_w E G : R)
  (sym : symmetry_t) : prog nat :=
  par n <- plift (symcount sym);
  match sym with
  | Some [a] =>
      let x := axis_is "x" a in
      par d <- (if x then p_f_oxz 0 A_n l_ex l_ez r_x r_y x_o y_o J I_w E G
                else p_f_oxz 0 A_n l_ey l_ez r_y r_x y_o x_o J I_w E G);  (* 534-562 *)
      par inter <- atom (get_ref d "Intermediate");
      par _ <- atom (update inter [("Axis of Symmetry", VStr (if x then "x" else "y"))]);
      par f <- atom (get_num d "f_oxz");                            (* 567 *)
      par _ <- atom (update inter [("f_oxz", VNum f)]);             (* 571 *)
      par s <- plift (symmetry sym);
      par _ <- atom (update inter [("Symmetry", VStr (sym_name s))]);  (* 572 *)
      par _ <- atom (update inter [("AS4600 Clause", VStr "AS4600 S3.4.3")]);
      atom (alloc [("f_oc", VNum f); ("Intermediate", VRef inter)])
  | _ => plift (Err TypeError)
  end.

(** Lines 580-625. *)
Definition p_f_oc_point_symmetric (A_n l_ez r_x r_y x_o y_o J I_w E G : R) : prog nat :=
  par f <- p_f_euler_torsion 0 A_n l_ez r_x r_y x_o y_o J I_w E G;
  par b <- atom (alloc [("AS4600 Clause", VStr "AS4600 S3.4.4")]);
  atom (alloc [("f_oc", VNum f); ("Intermediate", VRef b)]).

(** Lines 628-732. *)
Definition p_f_oc_unsymmetric (roots : roots_oracle)
  (A_n l_ex l_ey l_ez r_x r_y x_o y_o J I_w E G : R) : prog nat :=
  par f_ox <- plift (f_euler E l_ex r_x);
  par f_oy <- plift (f_euler E l_ey r_y);
  par r_o <- p_r_ol 0 r_x r_y x_o y_o;
  par f_oz <- p_f_euler_torsion 0 A_n l_ez r_x r_y x_o y_o J I_w E G;
  let '(a, b, c, d) := unsym_coeffs f_ox f_oy f_oz r_o x_o y_o in
  let rs := roots a (- b)%R c (- d)%R in
  par m <- plift (match fold_left min_stress rs None with
                  | None => Err ValueError
                  | Some (re, im) => if Reqb im 0 then Ok re else Err EComplex
                  end);
  par i <- atom (alloc
                [("AS4600 Clause", VStr "S3.4.5"); ("Equation", VNums [a; - b; c; - d]%R);
                 ("Solutions", VText rs); ("f_ox", VNum f_ox); ("f_oy", VNum f_oy);
                 ("f_oz", VNum f_oz); ("a", VNum a); ("b", VNum b); ("c", VNum c);
                 ("d", VNum d)]);
  atom (alloc [("f_oc", VNum m); ("Intermediate", VRef i)]).

(** Lines 735-887. *)
Definition p_f_oc (roots : roots_oracle) (q : sect6) (l_ex l_ey l_ez : R)
  (sym : symmetry_t) : prog nat :=
  par s <- plift (symmetry sym);
  match s with
  | SymDouble => p_f_oc_double_symmetric (q_A_n q) l_ex l_ez (q_r_x q) (q_r_y q)
                   (q_x_o q) (q_y_o q) (q_J q) (q_I_w q) (q_E q) (q_G q) sym
  | SymSingle => p_f_oc_single_symmetric (q_A_n q) l_ex l_ey l_ez (q_r_x q) (q_r_y q)
                   (q_x_o q) (q_y_o q) (q_J q) (q_I_w q) (q_E q) (q_G q) sym
  | SymPoint => p_f_oc_point_symmetric (q_A_n q) l_ez (q_r_x q) (q_r_y q)
                   (q_x_o q) (q_y_o q) (q_J q) (q_I_w q) (q_E q) (q_G q)
  | SymNone => p_f_oc_unsymmetric roots (q_A_n q) l_ex l_ey l_ez (q_r_x q) (q_r_y q)
                   (q_x_o q) (q_y_o q) (q_J q) (q_I_w q) (q_E q) (q_G q)
  end.
Definition p_s6_3_3_N_c_torsion (roots : roots_oracle) (q : sect6) (l_ex l_ey l_ez : R)
  (sym : symmetry_t) (uncertainty : R) : prog nat :=
  let A_e := s6_2_A_e (q_A_n q) (q_k_f q) in
  par results <- p_f_oc roots q l_ex l_ey l_ez sym;                 (* 796-865 *)
  par f <- atom (get_num results "f_oc");                           (* 867 *)
  par z <- plift (n_cz_of A_e (q_f_y q) f uncertainty);             (* 868-876 *)
  par inter <- atom (get_ref results "Intermediate");               (* 882 *)
  par _ <- atom (update inter [("f_oc", VNum f); ("λ_c", VNum (cz_lambda_c z));
                               ("f_n", VNum (cz_f_n z))]);          (* 885 *)
  atom (alloc [("N_cz", VNum (cz_N_cz z)); ("Intermediate", VRef inter)]).

(** Lines 895-1046. *)
Definition p_s6_1_1_Nc (roots : roots_oracle) (g : nc_args) : prog nat :=
  let q := n_q g in
  let A_e := s6_2_A_e (q_A_n q) (q_k_f q) in
  let N_s := s6_2_N_s A_e (q_f_y q) in                              (* 963 *)
  let phiN_s := (n_phi g * N_s)%R in
  par ib <- atom (alloc [("A_e", VNum A_e); ("A_n", VNum (q_A_n q)); ("k_f", VNum (q_k_f q));
                         ("f_y", VNum (q_f_y q))]);                 (* 968 *)
  let results := [("N_s", VNum N_s); ("φN_s", VNum phiN_s); ("N_s Intermediate", VRef ib)] in
  if n_buckling g then                                              (* 974 *)
    let l_ex := s6_3_2_l_e (n_l g) (n_k_ex g) in
    let l_ey := s6_3_2_l_e (n_l g) (n_k_ey g) in
    par bx <- p_s6_3_3_N_c (q_A_n q) (q_k_f q) l_ex (q_r_x q) (q_f_y q) (n_f_ref g)
                (n_alpha_b g);
    par by_ <- p_s6_3_3_N_c (q_A_n q) (q_k_f q) l_ey (q_r_y q) (q_f_y q) (n_f_ref g)
                (n_alpha_b g);
    par nx <- atom (get_num bx "N_c");
    par ny <- atom (get_num by_ "N_c");
    let N_cx := pymin nx N_s in                                     (* 985 *)
    let phiN_cx := (n_phi g * N_cx)%R in
    let N_cy := pymin ny N_s in                                     (* 987 *)
    let phiN_cy := (n_phi g * N_cy)%R in
    par ci <- atom (alloc [("f_ref", VNum (n_f_ref g)); ("α_b", VNum (n_alpha_b g))]);
    par ix <- atom (get_ref bx "Intermediate");
    par iy <- atom (get_ref by_ "Intermediate");
    let results := dupdate results
      [("N_cx", VNum N_cx); ("N_cy", VNum N_cy); ("φN_cx", VNum phiN_cx);
       ("φN_cy", VNum phiN_cy); ("N_c Intermediate", VRef ci);
       ("N_cx Intermediate", VRef ix); ("N_cy Intermediate", VRef iy)] in (* 990-996 *)
    let N_c := pymin (pymin N_s N_cx) N_cy in                       (* 999 *)
    let phiN_c := pymin (pymin phiN_s phiN_cx) phiN_cy in           (* 1000 *)
    if n_torsion g then                                             (* 1003 *)
      let l_ez := s6_3_2_l_e (n_l g) (n_k_ez g) in
      par z <- p_s6_3_3_N_c_torsion roots q l_ex l_ey l_ez (n_sym g) (n_uncertainty g);
      par iz <- atom (get_ref z "Intermediate");                    (* 1025 *)
      par nz <- atom (get_num z "N_cz");                            (* 1027 *)
      par _ <- atom (update iz [("N_cz_buckling", VNum nz)]);       (* 1029 *)
      let N_cz := pymin N_s nz in                                   (* 1032 *)
      let phiN_cz := (n_phi g * N_cz)%R in
      let N_c' := pymin N_c N_cz in                                 (* 1040 *)
      atom (alloc (dupdate results
        [("N_cz Intermediate", VRef iz); ("N_cz", VNum N_cz); ("φN_cz", VNum phiN_cz);
         ("N_c", VNum N_c'); ("φN_c", VNum (n_phi g * N_c')%R)]))   (* 1025-1044 *)
    else atom (alloc (dupdate results [("N_c", VNum N_c); ("φN_c", VNum phiN_c)]))
  else atom (alloc (dupdate results [("N_c", VNum N_s); ("φN_c", VNum phiN_s)])).

Definition p_num (p : prog R) : prog val := par x <- p; plift (Ok (VNum x)).
Definition p_ref (p : prog nat) : prog val := par a <- p; plift (Ok (VRef a)).
Definition p_call (roots : roots_oracle) (c : call) : prog val :=
  match c with
  | CallRol o a b c d => p_num (p_r_ol o a b c d)
  | CallTorsion o A lz rx ry xo yo J Iw E G =>
      p_num (p_f_euler_torsion o A lz rx ry xo yo J Iw E G)
  | CallAlphaC a b => p_ref (p_s6_3_3_alpha_c a b)
  | CallFlexural A k l r fy fr a => p_ref (p_s6_3_3_N_c A k l r fy fr a)
  | CallFoxz o A lx lz rx ry xo yo J Iw E G =>
      p_ref (p_f_oxz o A lx lz rx ry xo yo J Iw E G)
  | CallDouble A lx lz rx ry xo yo J Iw E G s =>
      p_ref (p_f_oc_double_symmetric A lx lz rx ry xo yo J Iw E G s)
  | CallSingle A lx ly lz rx ry xo yo J Iw E G s =>
      p_ref (p_f_oc_single_symmetric A lx ly lz rx ry xo yo J Iw E G s)
  | CallPoint A lz rx ry xo yo J Iw E G =>
      p_ref (p_f_oc_point_symmetric A lz rx ry xo yo J Iw E G)
  | CallUnsym A lx ly lz rx ry xo yo J Iw E G =>
      p_ref (p_f_oc_unsymmetric roots A lx ly lz rx ry xo yo J Iw E G)
  | CallNcz q lx ly lz s u => p_ref (p_s6_3_3_N_c_torsion roots q lx ly lz s u)
  | CallNc g => p_ref (p_s6_1_1_Nc roots g)
  end.

(** A call that has the interpreter to itself. *)
Fixpoint solo {A} (p : prog A) (s : state) : res A * state :=
  match p with
  | Done r => (r, s)
  | Step g k => solo (k s) (g s)
  end.

(** A thread: the outcomes of its calls so far ([None]: the call was broken off), and the
    calls that remain, the first of them under way. *)
Record thread : Type := mk_thread {
  t_out : list (option (res val));
  t_rest : list (prog val) }.
Definition spawn (roots : roots_oracle) (cs : list call) : thread :=
  mk_thread [] (map (p_call roots) cs).

(** What happens next: thread [i] takes a step (or gets the outcome of a call that has
    ended), or the call of thread [i] is broken off where it stands (KeyboardInterrupt or
    another asynchronous exception, caught by the client, which goes on with the next). *)
Inductive tick : Type := Run (i : nat) | Interrupt (i : nat).

Definition happen (ts : list thread * state) (ev : tick) : list thread * state :=
  let (l, s) := ts in
  match ev with
  | Run i =>
      match nth_error l i with
      | Some (mk_thread out (Done r :: ps)) =>
          (replace i (mk_thread (app out [Some r]) ps) l, s)
      | Some (mk_thread out (Step g k :: ps)) =>
          (replace i (mk_thread out (k s :: ps)) l, g s)
      | _ => (l, s)
      end
  | Interrupt i =>
      match nth_error l i with
      | Some (mk_thread out (_ :: ps)) => (replace i (mk_thread (app out [None]) ps) l, s)
      | _ => (l, s)
      end
  end.

(** The threads of [css] after the events [evs]. *)
Definition play (roots : roots_oracle) (css : list (list call)) (evs : list tick)
  : list thread * state :=
  fold_left happen evs (map (spawn roots) css, fresh).

(** The outcome that thread [i] has received from its [j]-th call, if it has. *)
Definition received (ts : list thread) (i j : nat) : option (res val) :=
  match nth_error ts i with
  | Some t => match nth_error (t_out t) j with
              | Some (Some r) => Some r
              | _ => None
              end
  | None => None
  end.
