(** The attributes of Material, Section, Element, Beam and AS4100 objects as mutable state.
    LoadCase.v .. AS4100.v give the answer of every query as a function of the attribute
    values; here those values live in objects that the client may reassign between queries.

    Simplifications: objects are numbered per class; every object that ever exists is in the
    world from the start, with the attributes its constructor gave it (what a client does
    with it later is an [op]).  The arrays inside load cases are the subject of ArrayHeap.v
    and immutable here.  A client puts only Element objects into a list of elements and only
    Material objects into [section.material], and does not assign to attributes whose name
    starts with an underscore, nor into the list [as4100_sections]. *)

From Coq Require Import ZArith List Bool PeanoNat.
From Verif Require Import Base Num Numpy LoadCase Beam Material AS4100.
Import ListNotations.
Open Scope Z_scope.

Section Objects.
Context {T : Type} {NT : Num T}.

(** A Circle (circle.py lines 18-29: [radius]; section.py lines 30-35: [material]) or a
    section of another class. *)
Inductive sobj : Type :=
| OCircle (radius : T) (mat : option nat)
| OOther.

(** element.py lines 37-41: [length], [section], [_loads] (a dict the caller made). *)
Record eobj : Type := mk_eobj {
  eo_length : option T;
  eo_section : option nat;
  eo_loads : nat }.

(** The objects: materials, sections, dicts of load cases, elements, lists of elements.
    A Beam has the single attribute [_elements], the list given to its constructor
    (beam.py line 76; a single Element is put into a new list, line 72): it is the number of
    that list. *)
Record world : Type := mk_world {
  w_mat : nat -> material T;
  w_sec : nat -> sobj;
  w_dict : nat -> list (Z * lcase T);
  w_elem : nat -> eobj;
  w_list : nat -> list nat }.

(** An AS4100 object: codecheck.py lines 48-56, as4100.py lines 33-44.  A wrapper
    (as4100_sect_props.py line 36) is the section object it wraps. *)
Record check : Type := mk_check {
  k_beam : option nat;
  k_section : option nat;
  k_points : Z;
  k_wrappers : list nat;
  k_phi : T;
  k_alpha_u : T;
  k_kt : T }.

(** ** The values an object has now *)

Definition sec_now (w : world) (s : nat) : section T :=
  match w_sec w s with
  | OCircle r m => SCircle r (option_map (w_mat w) m)
  | OOther => SOther
  end.

Definition elem_now (w : world) (e : nat) : elem T (section T) :=
  let o := w_elem w e in
  mk_elem (eo_length o) (option_map (sec_now w) (eo_section o)) (w_dict w (eo_loads o)).

(** What [beam.elements] is now (beam.py lines 126-134). *)
Definition beam_now (w : world) (l : nat) : beam_t T (section T) :=
  map (elem_now w) (w_list w l).

(** A wrapper reads the radius and the material of its section at every access
    (as4100_sect_props.py lines 45-67, 198-224); without a material that is an
    AttributeError. *)
Definition wrapper_now (w : world) (s : nat) : res (as_section T) :=
  match w_sec w s with
  | OCircle r (Some m) => Ok (mk_as r (w_mat w m))
  | _ => Err AttributeError
  end.

Definition check_now (w : world) (k : check) : res (as4100 T) :=
  let! ws := mapM (wrapper_now w) (k_wrappers k) in
  Ok (mk_as4100 (option_map (beam_now w) (k_beam k)) (option_map (sec_now w) (k_section k))
        (k_points k) ws (k_phi k) (k_alpha_u k) (k_kt k)).

(** ** Constructors *)

(** beam.py lines 54-124: the checks read the elements; the list itself is kept. *)
Definition new_beam (w : world) (l : nat) : res nat :=
  let! _ := check_elements (beam_now w l) in Ok l.

(** as4100.py lines 23-44: one wrapper per section; the wrapper keeps the section. *)
Definition new_check (w : world) (phi au kt : T) (b s : option nat) : res check :=
  match b, s with
  | None, None => Err CodeCheckError
  | _, _ =>
      let secs := match b with
                  | None => [s]
                  | Some l => map (fun e => eo_section (w_elem w e)) (w_list w l)
                  end in
      let! ws := mapM (fun so =>
                   let! _ := as_factory (option_map (sec_now w) so) in
                   match so with Some s => Ok s | None => Err NotImplementedError end) secs in
      Ok (mk_check b s 20 ws phi au kt)
  end.

(** ** What a client may do between queries *)

Inductive op : Type :=
| SetMaterial (m : nat) (v : material T)        (* [m.type = ...], edits of m.properties *)
| SetRadius (s : nat) (r : T)                   (* [section.radius = r] *)
| SetSectionMaterial (s m : nat)                (* [section.material = m] *)
| SetLength (e : nat) (l : option T)            (* [element.length = l] *)
| SetElementSection (e : nat) (s : option nat)  (* [element.section = s] *)
| SetLoads (d : nat) (l : list (Z * lcase T))   (* edits of a dict of load cases *)
| SetList (l : nat) (es : list nat)             (* edits of a list of elements *)
| SetPhi (x : T) | SetAlphaU (x : T) | SetKt (x : T)   (* attributes of the AS4100 object *)
| SetPoints (n : Z).                            (* codecheck.py lines 105-115 *)

Definition upd {A} (f : nat -> A) (i : nat) (v : A) : nat -> A :=
  fun j => if Nat.eqb j i then v else f j.

Definition step (wk : world * check) (o : op) : world * check :=
  let (w, k) := wk in
  match o with
  | SetMaterial m v =>
      (mk_world (upd (w_mat w) m v) (w_sec w) (w_dict w) (w_elem w) (w_list w), k)
  | SetRadius s r =>
      let v := match w_sec w s with OCircle _ m => OCircle r m | OOther => OOther end in
      (mk_world (w_mat w) (upd (w_sec w) s v) (w_dict w) (w_elem w) (w_list w), k)
  | SetSectionMaterial s m =>
      let v := match w_sec w s with OCircle r _ => OCircle r (Some m) | OOther => OOther end in
      (mk_world (w_mat w) (upd (w_sec w) s v) (w_dict w) (w_elem w) (w_list w), k)
  | SetLength e l =>
      let o := w_elem w e in
      let v := mk_eobj l (eo_section o) (eo_loads o) in
      (mk_world (w_mat w) (w_sec w) (w_dict w) (upd (w_elem w) e v) (w_list w), k)
  | SetElementSection e s =>
      let o := w_elem w e in
      let v := mk_eobj (eo_length o) s (eo_loads o) in
      (mk_world (w_mat w) (w_sec w) (w_dict w) (upd (w_elem w) e v) (w_list w), k)
  | SetLoads d l =>
      (mk_world (w_mat w) (w_sec w) (upd (w_dict w) d l) (w_elem w) (w_list w), k)
  | SetList l es =>
      (mk_world (w_mat w) (w_sec w) (w_dict w) (w_elem w) (upd (w_list w) l es), k)
  | SetPhi x =>
      (w, mk_check (k_beam k) (k_section k) (k_points k) (k_wrappers k) x (k_alpha_u k) (k_kt k))
  | SetAlphaU x =>
      (w, mk_check (k_beam k) (k_section k) (k_points k) (k_wrappers k) (k_phi k) x (k_kt k))
  | SetKt x =>
      (w, mk_check (k_beam k) (k_section k) (k_points k) (k_wrappers k) (k_phi k) (k_alpha_u k) x)
  | SetPoints n =>
      (w, mk_check (k_beam k) (k_section k) n (k_wrappers k) (k_phi k) (k_alpha_u k) (k_kt k))
  end.

Definition run (wk : world * check) (h : list op) : world * check := fold_left step h wk.

(** ** Queries *)

(** Queries on a Beam. *)
Inductive beam_query : Type :=
| QLength
| QLoadCases
| QSections
| QListPositions (p : pos_arg T) (n : option Z) (l : option Z)
| QGetLoads (l : Z) (p : pos_arg T) (n : option Z) (c : comp_arg)
| QGetSection (p : pos_arg T) (n : option Z) (l : option Z).

(** Queries on an AS4100 object. *)
Inductive check_query : Type :=
| QNty (p : pos_arg T) | QNtu (p : pos_arg T) | QNt (p : pos_arg T)
| QPhiNty (p : pos_arg T) | QPhiNtu (p : pos_arg T) | QPhiNt (p : pos_arg T)
| QTensionCapacity (p : pos_arg T)
| QTensionUtilisation (l : lc_arg) (p : pos_arg T)
| QGetTension (l : Z) (p : pos_arg T) (n : option Z)
| QCheckLoads (l : Z) (p : pos_arg T) (n : option Z) (c : comp_arg)
| QCheckSection (p : pos_arg T) (n : option Z) (l : option Z).

Inductive answer : Type :=
| ANumber (x : T)
| ACases (l : list Z)
| ASections (l : list (option (section T)))
| APositions (l : list (location T))
| ARows (r : option (list (orow T)))
| APosSections (r : list T * list (option (section T))).

Definition beam_answer (qs : argsort_oracle T) (b : beam_t T (section T)) (q : beam_query)
  : res answer :=
  match q with
  | QLength => rmap ANumber (beam_length b)
  | QLoadCases => rmap ACases (beam_load_cases b)
  | QSections => Ok (ASections (beam_sections b))
  | QListPositions p n l => rmap APositions (beam_list_positions b p n l)
  | QGetLoads l p n c => rmap ARows (beam_get_loads qs b l p n c)
  | QGetSection p n l => rmap APosSections (beam_get_section b p n l)
  end.

Definition check_answer (qs : argsort_oracle T) (a : as4100 T) (q : check_query) : res answer :=
  match q with
  | QNty p => rmap ANumber (Nty a p)
  | QNtu p => rmap ANumber (Ntu a p)
  | QNt p => rmap ANumber (Nt a p)
  | QPhiNty p => rmap ANumber (phiNty a p)
  | QPhiNtu p => rmap ANumber (phiNtu a p)
  | QPhiNt p => rmap ANumber (phiNt a p)
  | QTensionCapacity p => rmap ANumber (tension_capacity a p)
  | QTensionUtilisation l p => rmap ANumber (tension_utilisation qs a l p)
  | QGetTension l p n => rmap (fun r => ARows (Some r)) (get_tension qs a l p n)
  | QCheckLoads l p n c => rmap ARows (cc_get_loads qs a l p n c)
  | QCheckSection p n l => rmap APosSections (cc_get_section a p n l)
  end.

Definition ask_beam (qs : argsort_oracle T) (w : world) (l : nat) (q : beam_query) : res answer :=
  beam_answer qs (beam_now w l) q.
Definition ask_check (qs : argsort_oracle T) (wk : world * check) (q : check_query) : res answer :=
  let! a := check_now (fst wk) (snd wk) in check_answer qs a q.

(** The same question to an AS4100 object made now for the same beam or section, with the
    factors and the number of points the object has now. *)
Definition ask_fresh (qs : argsort_oracle T) (wk : world * check) (q : check_query) : res answer :=
  let (w, k) := wk in
  let! k' := new_check w (k_phi k) (k_alpha_u k) (k_kt k) (k_beam k) (k_section k) in
  ask_check qs (step (w, k') (SetPoints (k_points k))) q.

End Objects.
Arguments sobj T : clear implicits.
Arguments eobj T : clear implicits.
Arguments world T : clear implicits.
Arguments check T : clear implicits.
Arguments op T : clear implicits.
Arguments beam_query T : clear implicits.
Arguments check_query T : clear implicits.
Arguments answer T : clear implicits.
