(** Models of beamdesign/materials/material.py, materials/material.toml,
    sections/section.py, sections/circle.py and the strength look-up of
    codecheck/as4100/as4100_sect_props.py. *)

From Coq Require Import ZArith List Bool String.
From Verif Require Import Base Num.
Import ListNotations.
Open Scope Z_scope.

Section Material.
Context {T : Type} {NT : Num T}.

(** const.py lines 17-19: [MatType]. *)
Inductive mat_type : Type := Steel | Concrete.

(** A parsed TOML value: a string, a number, an array of arrays of numbers, or anything
    else. *)
Inductive tval : Type :=
| TStr (s : string)
| TNum (x : T)
| TTable (rows : list (list T))
| TOther.

(** A dict with string keys, in insertion order. *)
Definition sdict (V : Type) : Type := list (string * V).

Fixpoint sget {V} (k : string) (d : sdict V) : res V :=
  match d with
  | [] => Err KeyError
  | (k', v) :: r => if String.eqb k k' then Ok v else sget k r
  end.

(** [d.pop(k)]: the value and the dict without the key. *)
Fixpoint spop {V} (k : string) (d : sdict V) : res (V * sdict V) :=
  match d with
  | [] => Err KeyError
  | (k', v) :: r =>
      if String.eqb k k' then Ok (v, r)
      else let! vr := spop k r in Ok (fst vr, (k', v) :: snd vr)
  end.

(** Material attributes (material.py lines 26-51).  [mtype] is None for a [type] that is
    not a string (kept as is by the constructor, never equal to [MatType.steel]). *)
Record material : Type := mk_material {
  mtype : option mat_type;
  mname : tval;
  mstandard : tval;
  mprops : sdict tval }.

(** [==] on lists, on parsed values (a string, a number and a list are never equal) and on
    dicts: the same keys with equal values, in any order.  Values outside the model
    ([TOther]) are taken as different.  Inside lists and dicts Python takes an object to be
    equal to itself before asking [==], which matters for NaN only: not modelled. *)
Fixpoint list_eqb {A} (eqb : A -> A -> bool) (l l' : list A) : bool :=
  match l, l' with
  | [], [] => true
  | a :: r, a' :: r' => eqb a a' && list_eqb eqb r r'
  | _, _ => false
  end.
Definition tval_eqb (v v' : tval) : bool :=
  match v, v' with
  | TStr s, TStr s' => String.eqb s s'
  | TNum x, TNum x' => neqb x x'
  | TTable t, TTable t' => list_eqb (list_eqb neqb) t t'
  | _, _ => false
  end.
Definition sdict_eqb {V} (eqb : V -> V -> bool) (d d' : sdict V) : bool :=
  Nat.eqb (List.length d) (List.length d')
  && forallb (fun kv => match sget (fst kv) d' with
                        | Ok v' => eqb (snd kv) v'
                        | Err _ => false
                        end) d.

(** material.py lines 53-61: [__eq__] between two Materials: their [__dict__]s, i.e. the
    four attributes.  Types that are not members of [MatType] are taken as different. *)
Definition mat_eqb (m m' : material) : bool :=
  match mtype m, mtype m' with
  | Some Steel, Some Steel | Some Concrete, Some Concrete =>
      tval_eqb (mname m) (mname m') && tval_eqb (mstandard m) (mstandard m')
      && sdict_eqb tval_eqb (mprops m) (mprops m')
  | _, _ => false
  end.

(** [MatType(s)]: look-up by value. *)
Definition mat_type_of (s : string) : res mat_type :=
  if String.eqb s "steel" then Ok Steel
  else if String.eqb s "concrete" then Ok Concrete
  else Err ValueError.

(** material.py lines 26-51: the constructor. *)
Definition make_material (type : tval) (name standard : tval) (props : sdict tval)
  : res material :=
  match type with
  | TStr s => let! t := mat_type_of s in Ok (mk_material (Some t) name standard props)
  | _ => Ok (mk_material None name standard props)
  end.

(** material.py lines 92-100: one entry of the file. *)
Definition load_entry (v : sdict tval) : res material :=
  let! tv := spop "type" v in
  let! nv := spop "name" (snd tv) in
  let! sv := spop "standard" (snd nv) in
  make_material (fst tv) (fst nv) (fst sv) (snd sv).

(** material.py lines 72-106: [load_material]; the file is its parsed content. *)
Definition load_all (file : sdict (sdict tval)) : res (sdict material) :=
  mapM (fun kv => let! m := load_entry (snd kv) in Ok (fst kv, m)) file.

Definition load_material (file : sdict (sdict tval)) (name : string) : res material :=
  let! d := load_all file in sget name d.

(** material.py lines 108-119: [load_list]. *)
Definition load_list (file : sdict (sdict tval)) : list string := map fst file.

(** sections/circle.py lines 12-52.  The other sections (only [HollowCircle], which has
    abstract methods left and cannot be instantiated, and user subclasses) are
    [SOther]. *)
Inductive section : Type :=
| SCircle (radius : T) (mat : option material)
| SOther.

(** circle.py lines 18-29: the constructor. *)
Definition circle (mat : option material) (radius : T) : res section :=
  if nleb (nflt 0 1) radius then Ok (SCircle radius mat) else Err AssertionError.

(** circle.py lines 46-52: [area] and [area_net] ([radius ** 2] as a product). *)
Definition circle_area (radius : T) : T := nmul npi (nmul radius radius).

(** as4100_sect_props.py lines 139-148: the sortedness check. *)
Fixpoint thick_sorted (l : list T) : bool :=
  match l with
  | s :: ((l1 :: _) as r) => negb (nleb (nsub l1 s) (nint 0)) && thick_sorted r
  | _ => true
  end.

(** Lines 169-175: the search loop; [None] when no entry covers the thickness. *)
Fixpoint find_band (thickness : T) (ts : list T) (i : nat) : option nat :=
  match ts with
  | [] => None
  | t :: r => if nleb thickness t then Some i else find_band thickness r (Datatypes.S i)
  end.

(** [yield_or_ult]: a string (lower-cased) or a bool (lines 161-166). *)
Inductive yu : Type := YUStr (s : string) | YUBool (b : bool).

Definition strength_index (y : yu) : res nat :=
  match y with
  | YUStr s =>
      if String.eqb s "y" || String.eqb s "Y" then Ok 1%nat
      else if String.eqb s "u" || String.eqb s "U" then Ok 2%nat
      else Err KeyError
  | YUBool true => Ok 1%nat
  | YUBool false => Ok 2%nat
  end.

Definition nth_res {A} (l : list A) (i : nat) : res A :=
  match nth_error l i with Some a => Ok a | None => Err IndexError end.

(** as4100_sect_props.py lines 104-179: [_get_f]. *)
Definition get_f (thickness : T) (y : yu) (strengths : list (list T)) : res T :=
  let! ts := nth_res strengths 0 in                                 (* 130 *)
  if nltb thickness (nint 0) then Err InvalidThicknessError         (* 132-136 *)
  else if negb (thick_sorted ts) then Err InvalidMaterialError      (* 139-148 *)
  else
    let! largest := nth_res (rev ts) 0 in                           (* 153 [-1] *)
    if nltb largest thickness then Err InvalidThicknessError        (* 153-157 *)
    else
      let! idx := strength_index y in                               (* 161-166 *)
      match find_band thickness ts 0 with                           (* 169-175 *)
      | Some i => let! row := nth_res strengths idx in nth_res row i
      | None => Err MaterialError                                   (* 177-179 *)
      end.

(** as4100_sect_props.py lines 22-43, 181-196: the wrapper objects.  An AS4100 section
    is the circle's radius and its material. *)
Record as_section : Type := mk_as { as_radius : T; as_material : material }.

(** [AS4100_sect_factory] (181-187) and the constructors (29-43, 194-196):
    [None.type] is an AttributeError. *)
Definition as_factory (s : option section) : res as_section :=
  match s with
  | Some (SCircle r mat) =>
      match mat with
      | None => Err AttributeError
      | Some m =>
          match mtype m with
          | Some Steel => Ok (mk_as r m)
          | _ => Err InvalidMaterialError
          end
      end
  | Some SOther | None => Err NotImplementedError
  end.

(** Lines 61-67: [_strengths]; a value that is not a table is not modelled further
    (indexing a number raises TypeError). *)
Definition as_strengths (s : as_section) : res (list (list T)) :=
  let! v := sget "strengths" (mprops (as_material s)) in
  match v with TTable t => Ok t | _ => Err TypeError end.

(** Lines 198-224: [min_fy], [min_fu], [Ag], [An]. *)
Definition min_fy (s : as_section) : res T :=
  let! st := as_strengths s in get_f (nmul (as_radius s) (nint 2)) (YUStr "Y") st.
Definition min_fu (s : as_section) : res T :=
  let! st := as_strengths s in get_f (nmul (as_radius s) (nint 2)) (YUStr "U") st.
Definition Ag (s : as_section) : T := circle_area (as_radius s).
Definition An (s : as_section) : T := circle_area (as_radius s).

(** materials/material.toml, transcribed ([n]e6 is [nflt (n*10^6) 1]). *)
Definition mpa (n : Z) : T := nflt (n * 1000000) 1.
Definition mm (n : Z) : T := nflt n 1000.
Definition steel_entry (name standard : string) (ts : list Z) (fy fu : list Z)
  : sdict tval :=
  [("type", TStr "steel"); ("name", TStr name); ("standard", TStr standard);
   ("E", TNum (nflt 200000000000 1));
   ("strengths", TTable [map mm ts; map mpa fy; map mpa fu])]%string.

Definition material_toml : sdict (sdict tval) :=
  [("AS3678-2016-250", steel_entry "250" "AS3678-2016"
      [8; 12; 20; 50; 80; 150; 200]
      [280; 260; 250; 250; 240; 230; 220] [410; 410; 410; 410; 410; 410; 400]);
   ("AS3678-2016-300", steel_entry "300" "AS3678-2016"
      [8; 12; 20; 50; 80; 150; 200]
      [320; 310; 300; 280; 270; 260; 250] [430; 430; 430; 430; 430; 430; 420]);
   ("AS3678-2016-350", steel_entry "350" "AS3678-2016"
      [8; 12; 20; 32; 50; 80; 150; 200]
      [360; 360; 350; 340; 340; 340; 330; 320] [450; 450; 450; 450; 450; 450; 450; 450]);
   ("AS3678-2016-400", steel_entry "400" "AS3678-2016"
      [8; 12; 20; 32; 50; 80]
      [400; 400; 380; 360; 360; 360] [450; 450; 450; 450; 450; 450]);
   ("AS3679.1-1996-250", steel_entry "250" "AS3679.1-1996"
      [11; 17; 40; 200] [260; 250; 250; 230] [410; 410; 410; 410]);
   ("AS3679.1-2016-300", steel_entry "300" "AS3679.1-2016"
      [11; 17; 40; 200] [320; 300; 280; 280] [440; 440; 440; 440]);
   ("AS3679.1-2016-350", steel_entry "350" "AS3679.1-2016"
      [11; 17; 40; 200] [360; 340; 340; 330] [480; 480; 480; 480]);
   ("test_propertyless",
      [("type", TStr "steel"); ("name", TStr "test"); ("standard", TStr "test")])]%string.

End Material.
Arguments tval T : clear implicits.
Arguments material T : clear implicits.
Arguments section T : clear implicits.
Arguments as_section T : clear implicits.
