(** C162: printed forms. *)

From Coq Require Import ZArith Reals List Bool String Ascii Lra.
From Verif Require Import Base Num RNum PyNum LoadCase Beam BeamMisc Material Symmetry Repr.
Import ListNotations.
Open Scope string_scope.

(** Texts of the doubles used in the examples. *)
Definition plain : texts pynum :=
  mk_texts pynum (fun x => if neqb x (fl 2 1) then "2.0" else if neqb x (fl 3 1) then "3.0" else "1.0")
    (fun _ => "[]") "1" "<Section>" (fun _ => "[[]]") (fun _ => "[]").
Definition steel_300 : material pynum := mk_material (Some Steel) (TStr "300") (TStr "AS3679") [].
Definition round_elem (l : option pynum) : elem pynum (section pynum) :=
  mk_elem l (Some (SCircle (fl 2 1) (Some steel_300))) [(1%Z, None); (2%Z, None)].

(** C162.  Full statement: every object can be printed, and each field of the printed form shows the attribute it is
    labelled with.  False four ways.  Of an element with a Circle for a section, whatever it is made of, the field
    [material] does not show the material. *)
Theorem C162_element_refuted : forall T (tx : texts T) e r m, esection e = Some (SCircle r m) ->
  element_repr tx e <> "Element(length=" ++ opt_text (t_num tx) (elength e) ++ ", section=" ++ opt_text (section_repr tx) (esection e)
    ++ ", material=" ++ opt_text (material_repr tx) m ++ ", no. load cases=" ++ nat_text (List.length (eloads e)) ++ ")".
Proof.
  intros T tx e r m Es E. apply (element_wrong tx e r m Es). rewrite Es at 1. exact E.
Qed.
Print Assumptions C162_element_refuted.

Example C162_element_case : esection (round_elem (Some (fl 3 1))) = Some (SCircle (fl 2 1) (Some steel_300))
  /\ element_repr plain (round_elem (Some (fl 3 1))) =
     "Element(length=3.0, section=Circle(radius=2.0, material=Material(type=MatType.steel, name=300, standard=AS3679)), "
     ++ "material=Circle(radius=2.0, material=Material(type=MatType.steel, name=300, standard=AS3679)), no. load cases=2)".
Proof. split; reflexivity. Qed.

(** Printing a beam fails when the length of an element is not known, which the constructors allow. *)
Theorem C162_beam_refuted : ~ (forall T (NT : Num T) (tx : texts T) S (inp : beam_input T S) b, beam inp = Ok b ->
  exists s, beam_repr tx b = Ok s).
Proof.
  intros H. destruct (H pynum _ plain (section pynum) (BElem (round_elem None)) [round_elem None] eq_refl) as (s & E). discriminate.
Qed.
Print Assumptions C162_beam_refuted.

(** [str()] of a default Symmetry object fails. *)
Theorem C162_symmetry_refuted : ~ (forall s, exists t, symmetry_str s = Ok t).
Proof. intros H. destruct (H None) as (t & E). discriminate. Qed.
Print Assumptions C162_symmetry_refuted.

(** Materials with different names and standards print alike. *)
Theorem C162_material_refuted : ~ (forall T (tx : texts T) (m m' : material T), material_repr tx m = material_repr tx m' ->
  mname m = mname m' /\ mstandard m = mstandard m').
Proof.
  intros H. specialize (H pynum plain (mk_material (Some Steel) (TStr "300") (TStr "A, standard=B") [])
    (mk_material (Some Steel) (TStr "300, standard=A") (TStr "B") []) eq_refl). destruct H as [H _]. discriminate.
Qed.
Print Assumptions C162_material_refuted.

(** What holds.  An element without a section prints its four fields.  Missing: elements with a section. *)
Theorem C162_element_partial : forall T (tx : texts T) e, esection e = None ->
  element_repr tx e = "Element(length=" ++ opt_text (t_num tx) (elength e) ++ ", section=None, material=None, no. load cases="
    ++ nat_text (List.length (eloads e)) ++ ")".
Proof. intros T tx e Es. rewrite element_labelled. unfold labelled. rewrite Es. reflexivity. Qed.
Print Assumptions C162_element_partial.

Example C162_empty_case : esection (mk_elem (Some (fl 3 1)) (@None (section pynum)) [(1%Z, None)]) = None
  /\ element_repr plain (mk_elem (Some (fl 3 1)) None [(1%Z, None)]) = "Element(length=3.0, section=None, material=None, no. load cases=1)".
Proof. split; reflexivity. Qed.

(** A beam can be printed exactly when the lengths of all its elements are known; otherwise a TypeError. *)
Theorem C162_beam_partial : forall T (NT : Num T) (tx : texts T) S (inp : beam_input T S) b, beam inp = Ok b ->
  ((exists s, beam_repr tx b = Ok s) <-> (forall e, In e b -> elength e <> None)) /\
  (forall x, beam_repr tx b = Err x -> x = TypeError).
Proof.
  intros T NT tx S inp b E. assert (Nb : b <> []) by (apply (C13_accept inp b) in E; apply E).
  destruct (beam_prints tx b Nb) as (P & U). assert (K : known b <-> (forall e, In e b -> elength e <> None)).
  { unfold known. rewrite Forall_forall. split; intros H e He.
    - destruct (H e He) as (l & ->). discriminate.
    - specialize (H e He). destruct (elength e); [eauto|easy]. }
  split; [now rewrite P|]. intros x Ex. destruct (known_dec b) as [Kb|Kb].
  - apply P in Kb. destruct Kb as (s & Es). congruence.
  - rewrite (U Kb) in Ex. congruence.
Qed.
Print Assumptions C162_beam_partial.

(** Two beams print alike exactly when the three numbers shown do (texts of numbers have no comma in them). *)
Theorem C162_beams_told_apart : forall T (NT : Num T) (tx : texts T) S S' (b : beam_t T S) (b' : beam_t T S') l l' cs cs' s s',
  (forall x, free "," (t_num tx x) = true) ->
  beam_length b = Ok l -> beam_length b' = Ok l' -> beam_load_cases b = Ok cs -> beam_load_cases b' = Ok cs' ->
  beam_repr tx b = Ok s -> beam_repr tx b' = Ok s' ->
  (s = s' <-> t_num tx l = t_num tx l' /\ List.length b = List.length b' /\ List.length cs = List.length cs').
Proof. exact @beam_text. Qed.
Print Assumptions C162_beams_told_apart.

Theorem C162_circles_told_apart : forall T (tx : texts T) r r' m m', (forall x, free "," (t_num tx x) = true) ->
  (section_repr tx (SCircle r m) = section_repr tx (SCircle r' m') <->
   t_num tx r = t_num tx r' /\ opt_text (material_repr tx) m = opt_text (material_repr tx) m').
Proof. exact @circle_text. Qed.
Print Assumptions C162_circles_told_apart.

Example C162_beam_case : (forall x, free "," (t_num plain x) = true)
  /\ beam (BElem (round_elem (Some (fl 2 1)))) = Ok [round_elem (Some (fl 2 1))]
  /\ (forall e, In e [round_elem (Some (fl 2 1))] -> elength e <> None)
  /\ beam_repr plain [round_elem (Some (fl 2 1))] = Ok "Beam(length=2.0, no. elements=1, no. load cases=2)"
  /\ beam_repr plain [round_elem (Some (fl 2 1)); round_elem None] = Err TypeError
  /\ section_repr plain (SCircle (fl 2 1) None) <> section_repr plain (SCircle (fl 3 1) None).
Proof.
  split; [intros x; unfold plain, t_num; repeat match goal with |- context [if ?c then _ else _] => destruct c end; reflexivity|].
  split; [reflexivity|]. split; [intros e [<-|[]]; discriminate|]. split; [reflexivity|]. split; [reflexivity|discriminate].
Qed.

(** symmetry.py, lines 5-8: comparing [str()]s compares the kinds of symmetry, and the test for double symmetry given there
    finds exactly the two lists of both axes. *)
Theorem C162_symmetry_partial : forall s s' t t', symmetry_str s = Ok t -> symmetry_str s' = Ok t' ->
  (t = t' <-> symmetry s = symmetry s').
Proof. exact str_class. Qed.
Print Assumptions C162_symmetry_partial.

Theorem C162_double : forall s, symmetry_str s = symmetry_str (Some [AxStr "x"; AxStr "y"]) <->
  s = Some [AxStr "x"; AxStr "y"] \/ s = Some [AxStr "y"; AxStr "x"].
Proof. exact str_double. Qed.
Print Assumptions C162_double.

Example C162_symmetry_case : symmetry_str (Some [AxStr "y"; AxStr "x"]) = Ok "Double" /\ symmetry_str (Some [AxStr "POINT"]) = Ok "Point"
  /\ symmetry_str (Some [AxStr "x"; AxStr "x"]) = Ok "None" /\ symmetry_str (Some [AxAngle (1 / 2)]) = Ok "Single".
Proof. repeat split; reflexivity. Qed.
