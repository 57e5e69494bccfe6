(** The three [functools.lru_cache]s of beamdesign/codecheck/as4100/S6.py (lines 115, 137 and 296) on any arithmetic, in
    particular on Python's ints and doubles, where a key can be found although it is another number: 0.0 and -0.0, 3 and
    3.0 are equal keys.

    Simplifications.  A cached dictionary is represented by the entries that are computed from the arguments (β, f_ox, f_oz,
    r_ol and f_oxz, as in NumS6.v); what callers write into it afterwards is in S6Cache.v (no caller reads that back).
    Keyword order is part of a key: a client's order is the tag [o], the module's own calls have tag 0. *)

From Coq Require Import ZArith List Bool String.
From Verif Require Import Base Num Symmetry NumFormulas NumS6.
Import ListNotations.

Section Cache.
Context {T : Type} {NT : Num T}.
Variable pw : T -> T -> res T.
(** Python's [is] on two arguments (keys are compared by identity first, then by [==]). *)
Variable same : T -> T -> bool.
Let half : T := nflt 1 2.

Definition nkey : Type := (nat * list T)%type.
Fixpoint nums_eqb (a b : list T) : bool :=
  match a, b with
  | [], [] => true
  | x :: a, y :: b => (same x y || neqb x y) && nums_eqb a b
  | _, _ => false
  end.
Definition nkey_eqb (a b : nkey) : bool := Nat.eqb (fst a) (fst b) && nums_eqb (snd a) (snd b).

(** The caches, most recently used entry first. *)
Record ncaches : Type := mk_ncaches {
  nc_rol : list (nkey * T);
  nc_fet : list (nkey * T);
  nc_fox : list (nkey * list T) }.
Definition nfresh : ncaches := mk_ncaches [] [] [].
Definition nput_rol c s := mk_ncaches c (nc_fet s) (nc_fox s).
Definition nput_fet c s := mk_ncaches (nc_rol s) c (nc_fox s).
Definition nput_fox c s := mk_ncaches (nc_rol s) (nc_fet s) c.

Definition NM (A : Type) : Type := ncaches -> res A * ncaches.
Definition nlift {A} (r : res A) : NM A := fun s => (r, s).
Definition nbind {A B} (m : NM A) (f : A -> NM B) : NM B :=
  fun s => match m s with
           | (Ok a, s') => f a s'
           | (Err e, s') => (Err e, s')
           end.

(** functools.lru_cache() with its default maxsize 128, see [S6Cache.lru]. *)
Fixpoint nfind {V} (k : nkey) (c : list (nkey * V)) : option V :=
  match c with
  | [] => None
  | (k', v) :: r => if nkey_eqb k' k then Some v else nfind k r
  end.
Definition nwithout {V} (k : nkey) (c : list (nkey * V)) : list (nkey * V) :=
  filter (fun kv => negb (nkey_eqb (fst kv) k)) c.
Definition nlru {V} (sel : ncaches -> list (nkey * V)) (put : list (nkey * V) -> ncaches -> ncaches)
  (k : nkey) (body : NM V) : NM V :=
  fun s => match nfind k (sel s) with
           | Some v => (Ok v, put ((k, v) :: nwithout k (sel s)) s)
           | None => match body s with
                     | (Ok v, s') => (Ok v, put (firstn 128 ((k, v) :: sel s')) s')
                     | (Err e, s') => (Err e, s')
                     end
           end.

(** Lines 115-134. *)
Definition c_r_ol (o : nat) (r_x r_y x_o y_o : T) : NM T :=
  nlru nc_rol nput_rol (o, [r_x; r_y; x_o; y_o]) (nlift (nr_ol pw r_x r_y x_o y_o)).

(** Lines 137-175. *)
Definition c_f_euler_torsion (o : nat) (A l_ez r_x r_y x_o y_o J I_w E G : T) : NM T :=
  nlru nc_fet nput_fet (o, [A; l_ez; r_x; r_y; x_o; y_o; J; I_w; E; G])
    (nbind (c_r_ol 0 r_x r_y x_o y_o) (fun r_o => nlift                               (* 169 *)
      (let! a := pydiv (nmul G J) (nmul (nmul A r_o) r_o) in
       let! b := pydiv (nmul (nmul (nmul npi npi) E) I_w) (nmul (nmul G J) (nmul l_ez l_ez)) in
       Ok (nmul a (nadd (nint 1) b))))).

(** Lines 296-361. *)
Definition c_f_oxz (o : nat) (A_n l_ex l_ez r_x r_y x_o y_o J I_w E G : T) : NM (list T) :=
  nlru nc_fox nput_fox (o, [A_n; l_ex; l_ez; r_x; r_y; x_o; y_o; J; I_w; E; G])
    (nbind (c_r_ol 0 r_x r_y x_o y_o) (fun r_o =>                                     (* 336 *)
     nbind (nlift (let! q := pydiv x_o r_o in
                   let! q2 := pw q (nint 2) in
                   let! f_ox := nf_euler E l_ex r_x in Ok (nsub (nint 1) q2, f_ox))) (fun bf => (* 337-338 *)
     nbind (c_f_euler_torsion 0 A_n l_ez r_x r_y x_o y_o J I_w E G) (fun f_oz => nlift (* 339 *)
      (let '(beta, f_ox) := bf in
       let! h := pydiv (nint 1) (nmul (nint 2) beta) in                               (* 343-347 *)
       let! s2 := pw (nadd f_ox f_oz) (nint 2) in
       let! rt := pw (nsub s2 (nmul (nmul (nmul (nint 4) beta) f_ox) f_oz)) half in
       Ok [beta; f_ox; f_oz; r_o; nmul h (nsub (nadd f_ox f_oz) rt)]))))).

(** A call of one of the three functions, by a client or by the rest of the module. *)
Inductive ncall : Type :=
| NRol (o : nat) (r_x r_y x_o y_o : T)
| NFet (o : nat) (A l_ez r_x r_y x_o y_o J I_w E G : T)
| NFox (o : nat) (A_n l_ex l_ez r_x r_y x_o y_o J I_w E G : T).

(** With the caches, and without. *)
Definition cached (c : ncall) : NM (list T) :=
  match c with
  | NRol o r_x r_y x_o y_o => nbind (c_r_ol o r_x r_y x_o y_o) (fun v => nlift (Ok [v]))
  | NFet o A l_ez r_x r_y x_o y_o J I_w E G =>
      nbind (c_f_euler_torsion o A l_ez r_x r_y x_o y_o J I_w E G) (fun v => nlift (Ok [v]))
  | NFox o A_n l_ex l_ez r_x r_y x_o y_o J I_w E G => c_f_oxz o A_n l_ex l_ez r_x r_y x_o y_o J I_w E G
  end.
Definition uncached (c : ncall) : res (list T) :=
  match c with
  | NRol _ r_x r_y x_o y_o => let! v := nr_ol pw r_x r_y x_o y_o in Ok [v]
  | NFet _ A l_ez r_x r_y x_o y_o J I_w E G =>
      let! v := nf_euler_torsion pw A l_ez r_x r_y x_o y_o J I_w E G in Ok [v]
  | NFox _ A_n l_ex l_ez r_x r_y x_o y_o J I_w E G => nf_oxz pw A_n l_ex l_ez r_x r_y x_o y_o J I_w E G
  end.

(** Any program that calls the three functions, and does with the answers (or exceptions) what it likes. *)
Inductive client (A : Type) : Type :=
| CRet (r : res A)
| CAsk (c : ncall) (k : res (list T) -> client A).
Arguments CRet {A}. Arguments CAsk {A}.
Fixpoint exec {A} (p : client A) (s : ncaches) : res A * ncaches :=
  match p with
  | CRet r => (r, s)
  | CAsk c k => let '(r, s') := cached c s in exec (k r) s'
  end.
Fixpoint plain {A} (p : client A) : res A :=
  match p with
  | CRet r => r
  | CAsk c k => plain (k (uncached c))
  end.

Fixpoint cbind {A B} (p : client A) (f : A -> client B) : client B :=
  match p with
  | CRet (Ok a) => f a
  | CRet (Err e) => CRet (Err e)
  | CAsk c k => CAsk c (fun r => cbind (k r) f)
  end.
Definition ask (c : ncall) : client (list T) := CAsk c CRet.
Definition the (l : list T) : T := nth 0 l (nint 0).

(** * The functions that use them; NumS6.v has the same without caches *)

(** Lines 364-458. *)
Definition q_f_oc_double (A_n l_ex l_ez r_x r_y x_o y_o J I_w E G : T) : client T :=
  cbind (ask (NFox 0 A_n l_ex l_ez r_x r_y x_o y_o J I_w E G)) (fun foxz =>
  cbind (ask (NFet 0 A_n l_ez r_x r_y x_o y_o J I_w E G)) (fun foz =>
  CRet (Ok (pymin (nth 4 foxz (nint 0)) (the foz))))).
(** Lines 461-577. *)
Definition q_f_oc_single (A_n l_ex l_ey l_ez r_x r_y x_o y_o J I_w E G : T) (sym : symmetry_t) : client T :=
  cbind (CRet (symcount sym)) (fun _ =>
  match sym with
  | Some [a] =>
      if axis_is "x"%string a then
        cbind (ask (NFox 0 A_n l_ex l_ez r_x r_y x_o y_o J I_w E G)) (fun f => CRet (Ok (nth 4 f (nint 0))))
      else
        cbind (ask (NFox 0 A_n l_ey l_ez r_y r_x y_o x_o J I_w E G)) (fun f => CRet (Ok (nth 4 f (nint 0))))
  | _ => CRet (Err TypeError)
  end).
(** Lines 580-625. *)
Definition q_f_oc_point (A_n l_ez r_x r_y x_o y_o J I_w E G : T) : client T :=
  cbind (ask (NFet 0 A_n l_ez r_x r_y x_o y_o J I_w E G)) (fun v => CRet (Ok (the v))).
(** Lines 628-732. *)
Definition q_f_oc_unsym (roots : T -> T -> T -> T -> list (T * T))
  (A_n l_ex l_ey l_ez r_x r_y x_o y_o J I_w E G : T) : client T :=
  cbind (CRet (nf_euler E l_ex r_x)) (fun f_ox =>
  cbind (CRet (nf_euler E l_ey r_y)) (fun f_oy =>
  cbind (ask (NRol 0 r_x r_y x_o y_o)) (fun r_o =>
  cbind (ask (NFet 0 A_n l_ez r_x r_y x_o y_o J I_w E G)) (fun f_oz =>
  cbind (CRet (nunsym_coeffs pw f_ox f_oy (the f_oz) (the r_o) x_o y_o)) (fun cs =>
  CRet (let '(a, b, c, d) := cs in
        match fold_left nmin_stress (roots a (nneg b) c (nneg d)) None with
        | None => Err ValueError
        | Some (re, im) => if neqb im (nint 0) then Ok re else Err EComplex
        end)))))).

(** Lines 793-865. *)
Definition q_f_oc (roots : T -> T -> T -> T -> list (T * T)) (q : nsect T) (l_ex l_ey l_ez : T)
  (sym : symmetry_t) : client T :=
  cbind (CRet (symmetry sym)) (fun s =>
  match s with
  | SymDouble => q_f_oc_double (w_A_n q) l_ex l_ez (w_r_x q) (w_r_y q)
                   (w_x_o q) (w_y_o q) (w_J q) (w_I_w q) (w_E q) (w_G q)
  | SymSingle => q_f_oc_single (w_A_n q) l_ex l_ey l_ez (w_r_x q) (w_r_y q)
                   (w_x_o q) (w_y_o q) (w_J q) (w_I_w q) (w_E q) (w_G q) sym
  | SymPoint => q_f_oc_point (w_A_n q) l_ez (w_r_x q) (w_r_y q)
                   (w_x_o q) (w_y_o q) (w_J q) (w_I_w q) (w_E q) (w_G q)
  | SymNone => q_f_oc_unsym roots (w_A_n q) l_ex l_ey l_ez (w_r_x q) (w_r_y q)
                   (w_x_o q) (w_y_o q) (w_J q) (w_I_w q) (w_E q) (w_G q)
  end).
(** Lines 735-887. *)
Definition q_N_c_torsion (roots : T -> T -> T -> T -> list (T * T)) (q : nsect T)
  (l_ex l_ey l_ez : T) (sym : symmetry_t) (uncertainty : T) : client (list T) :=
  let A_e := ns6_2_A_e (w_A_n q) (w_k_f q) in
  cbind (q_f_oc roots q l_ex l_ey l_ez sym) (fun f => CRet (nn_cz_of pw A_e (w_f_y q) f uncertainty)).
(** Lines 895-1046. *)
Definition q_Nc (roots : T -> T -> T -> T -> list (T * T)) (q : nsect T) (l k_ex k_ey k_ez : T)
  (sym : symmetry_t) (f_ref alpha_b uncertainty phi : T)
  (calc_buckling calc_torsion : bool) : client (list (option T)) :=
  let A_e := ns6_2_A_e (w_A_n q) (w_k_f q) in
  let N_s := ns6_2_N_s A_e (w_f_y q) in
  let phiN_s := nmul phi N_s in
  if calc_buckling then
    let l_ex := ns6_3_2_l_e l k_ex in
    let l_ey := ns6_3_2_l_e l k_ey in
    cbind (CRet (ns6_3_3_N_c pw (w_A_n q) (w_k_f q) l_ex (w_r_x q) (w_f_y q) f_ref alpha_b)) (fun bx =>
    cbind (CRet (ns6_3_3_N_c pw (w_A_n q) (w_k_f q) l_ey (w_r_y q) (w_f_y q) f_ref alpha_b)) (fun by_ =>
    let N_cx := pymin bx N_s in
    let N_cy := pymin by_ N_s in
    let phiN_cx := nmul phi N_cx in
    let phiN_cy := nmul phi N_cy in
    let N_c := pymin (pymin N_s N_cx) N_cy in
    let phiN_c := pymin (pymin phiN_s phiN_cx) phiN_cy in
    if calc_torsion then
      let l_ez := ns6_3_2_l_e l k_ez in
      cbind (q_N_c_torsion roots q l_ex l_ey l_ez sym uncertainty) (fun z =>
      let N_cz := pymin N_s (nth 0 z (nint 0)) in
      let phiN_cz := nmul phi N_cz in
      let N_c' := pymin N_c N_cz in
      CRet (Ok [Some N_s; Some phiN_s; Some N_cx; Some phiN_cx; Some N_cy; Some phiN_cy;
                Some N_cz; Some phiN_cz; Some N_c'; Some (nmul phi N_c')]))
    else
      CRet (Ok [Some N_s; Some phiN_s; Some N_cx; Some phiN_cx; Some N_cy; Some phiN_cy;
                None; None; Some N_c; Some phiN_c])))
  else CRet (Ok [Some N_s; Some phiN_s; None; None; None; None; None; None; Some N_s; Some phiN_s]).

End Cache.
Arguments CRet {T A}. Arguments CAsk {T A}.
