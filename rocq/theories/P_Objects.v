(** C94-C98: what constructors accept, and attributes reassigned between queries, for all histories of assignments and in
    any arithmetic. *)

From Coq Require Import ZArith Reals Lra List Bool.
From Verif Require Import Base Num RNum PyNum Numpy LoadCase Beam Material AS4100 Objects ObjectFacts
  ObjectCases CtorFacts.
Import ListNotations.
Open Scope Z_scope.

(** C94 is false: [w0] has a beam of one element with a 20 mm bar and the check [k0] of it.
    After [element.section = bar_10mm] the check reports the capacity of the old bar, more
    than three times that of a check made now. *)
Theorem C94_check_follows_its_beam_refuted :
  new_check w0 (fl 9 10) (fl 85 100) (fl 1 1) (Some 0%nat) None = Ok k0
  /\ forall qs, exists x y,
     let now := run (w0, k0) [SetElementSection 0 (Some 1%nat)] in
     ask_check qs now (QTensionCapacity PosNone) = Ok (ANumber x)
     /\ ask_fresh qs now (QTensionCapacity PosNone) = Ok (ANumber y)
     /\ ask_check qs (w0, k0) (QTensionCapacity PosNone) = Ok (ANumber x)
     /\ nltb (nmul (nint 3) y) x = true.
Proof. exact (conj k0_made stale_capacity). Qed.
Print Assumptions C94_check_follows_its_beam_refuted.

(** Likewise when an element is appended to the list the beam was made of. *)
Theorem C94_appended_element_refuted :
  forall qs,
  let now := run (w0, k0) [SetList 0 [0%nat; 1%nat]] in
  ask_check qs now (QTensionCapacity (PosNum (fl 3 2))) = Err IndexError
  /\ exists y, ask_fresh qs now (QTensionCapacity (PosNum (fl 3 2))) = Ok (ANumber y).
Proof. exact appended. Qed.
Print Assumptions C94_appended_element_refuted.

(** What holds: after any history without those two kinds of edits, a check answers every
    query as one made now would - unless one made now is refused because a section is no
    longer of steel. *)
Theorem C94_check_follows_its_beam_partial :
  forall (T : Type) (NT : Num T) (qs : argsort_oracle T) w phi au kt b s k h q,
  new_check w phi au kt b s = Ok k ->
  Forall (keeps_sections (elements_of w b) b) h ->
  ask_fresh qs (run (w, k) h) q = ask_check qs (run (w, k) h) q
  \/ ask_fresh qs (run (w, k) h) q = Err InvalidMaterialError.
Proof. exact (@check_follows). Qed.
Print Assumptions C94_check_follows_its_beam_partial.

(** If moreover every material assigned is steel. *)
Theorem C94_check_follows_its_steel_beam_partial :
  forall (T : Type) (NT : Num T) (qs : argsort_oracle T) w phi au kt b s k h q,
  new_check w phi au kt b s = Ok k ->
  Forall (keeps_sections (elements_of w b) b) h -> Forall (steel_op w) h ->
  ask_fresh qs (run (w, k) h) q = ask_check qs (run (w, k) h) q.
Proof. exact (@check_follows_steel). Qed.
Print Assumptions C94_check_follows_its_steel_beam_partial.

(** A history of nine such edits; it changes the capacity. *)
Example C94_case :
  (Forall (keeps_sections (elements_of w0 (Some 0%nat)) (Some 0%nat)) edits /\ Forall (steel_op w0) edits)
  /\ forall qs, exists x y,
     ask_check qs (w0, k0) (QTensionCapacity PosNone) = Ok (ANumber x)
     /\ ask_check qs (run (w0, k0) edits) (QTensionCapacity PosNone) = Ok (ANumber y)
     /\ nltb x y = true.
Proof. exact (conj edits_keep edits_answer). Qed.

(** C95 is false: once the material is declared concrete, the check still rates it. *)
Theorem C95_only_steel_is_rated_refuted :
  forall qs, exists x,
  let now := run (w0, k0) [SetMaterial 0 concrete] in
  ask_check qs now (QTensionCapacity PosNone) = Ok (ANumber x)
  /\ Forall (fun s => ~ steel_circle (fst now) s) (k_wrappers (snd now)).
Proof. exact concrete_rated. Qed.
Print Assumptions C95_only_steel_is_rated_refuted.

(** What holds: as long as the materials assigned are steel. *)
Theorem C95_only_steel_is_rated_partial :
  forall (T : Type) (w : world T) phi au kt b s k h,
  new_check w phi au kt b s = Ok k -> Forall (steel_op w) h ->
  Forall (steel_circle (fst (run (w, k) h))) (k_wrappers (snd (run (w, k) h))).
Proof. exact (@only_steel). Qed.
Print Assumptions C95_only_steel_is_rated_partial.

Example C95_case : new_check w0 (fl 9 10) (fl 85 100) (fl 1 1) (Some 0%nat) None = Ok k0
  /\ Forall (steel_op w0) edits.
Proof. exact (conj k0_made (proj2 edits_keep)). Qed.

(** C96 is false: an element with other load cases is appended to the list (or a load case
    is deleted from one element's dict); the beam still lists load case 1 but cannot answer
    it.  Emptying the list leaves a beam without elements. *)
Theorem C96_beam_stays_consistent_refuted :
  new_beam w0 0 = Ok 0%nat /\ forall qs,
  let w := fst (run (w0, k0) [SetList 0 [0%nat; 2%nat]]) in
  new_beam w 0 = Err ElementCaseError
  /\ ask_beam qs w 0 QLoadCases = Ok (ACases [1; 2])
  /\ ask_beam qs w 0 (QGetLoads 1 (PosNum (fl 3 2)) None CNone) = Err KeyError.
Proof. exact (conj list0_beam beam_broken). Qed.
Print Assumptions C96_beam_stays_consistent_refuted.

Theorem C96_deleted_load_case_refuted :
  new_beam w0 1 = Ok 1%nat /\ forall qs,
  let w := fst (run (w0, k0) [SetLoads 1 [(2, Some (AS4100Cases.spike (fl 50000 1)))]]) in
  new_beam w 1 = Err ElementCaseError
  /\ ask_beam qs w 1 QLoadCases = Ok (ACases [1; 2])
  /\ ask_beam qs w 1 (QGetLoads 1 (PosNum (fl 3 2)) None CNone) = Err KeyError.
Proof. exact (conj list1_beam beam_broken_by_dict). Qed.
Print Assumptions C96_deleted_load_case_refuted.

Theorem C96_emptied_list_refuted :
  forall qs,
  let w := fst (run (w0, k0) [SetList 0 []]) in
  new_beam w 0 = Err ElementError /\ ask_beam qs w 0 QLoadCases = Err IndexError
  /\ ask_beam qs w 0 QLength = Ok (ANumber (nint 0)).
Proof. exact beam_emptied. Qed.
Print Assumptions C96_emptied_list_refuted.

(** What holds: edits of anything but the list and its elements' dicts leave a beam that
    passes the constructor's checks. *)
Theorem C96_beam_stays_consistent_partial :
  forall (T : Type) (l : nat) (h : list (op T)) w k,
  new_beam w l = Ok l -> Forall (keeps_cases w l) h -> new_beam (fst (run (w, k) h)) l = Ok l.
Proof. exact (@beam_consistent). Qed.
Print Assumptions C96_beam_stays_consistent_partial.

Example C96_case : new_beam w0 1 = Ok 1%nat /\ Forall (keeps_cases w0 1)
  [SetRadius 0 (fl 2 100); SetLength 0 (Some (fl 2 1)); SetElementSection 1 None; SetLoads 2 []; SetList 0 []].
Proof. exact (conj list1_beam edits_keep_cases). Qed.

(** C97: edits of objects a check does not refer to change none of its answers, nor its
    beam's. *)
Theorem C97_frame :
  forall (T : Type) (NT : Num T) (qs : argsort_oracle T) w k h q,
  Forall (foreign w k) h -> ask_check qs (run (w, k) h) q = ask_check qs (w, k) q.
Proof. exact (@frame). Qed.
Print Assumptions C97_frame.

Theorem C97_frame_beam :
  forall (T : Type) (NT : Num T) (qs : argsort_oracle T) w k l h q,
  k_beam k = Some l -> Forall (foreign w k) h ->
  ask_beam qs (fst (run (w, k) h)) l q = ask_beam qs w l q.
Proof. exact (@frame_beam). Qed.
Print Assumptions C97_frame_beam.

Example C97_case : Forall (foreign w0 k0) elsewhere.
Proof. exact elsewhere_foreign. Qed.

(** The constructor on objects is that of AS4100.v on their present attributes, which ties
    these theorems to those of P_AS4100.v. *)
Theorem C94_constructor_refines :
  forall (T : Type) (NT : Num T) w (phi au kt : T) b s,
  match new_check w phi au kt b s with
  | Ok k => exists v,
      make_as4100 phi au kt (option_map (beam_now w) b) (option_map (sec_now w) s) = Ok v
      /\ forall qs p l n c,
        ask_check qs (w, k) (QNty p) = rmap ANumber (Nty v p)
        /\ ask_check qs (w, k) (QNtu p) = rmap ANumber (Ntu v p)
        /\ ask_check qs (w, k) (QNt p) = rmap ANumber (Nt v p)
        /\ ask_check qs (w, k) (QPhiNty p) = rmap ANumber (phiNty v p)
        /\ ask_check qs (w, k) (QPhiNtu p) = rmap ANumber (phiNtu v p)
        /\ ask_check qs (w, k) (QPhiNt p) = rmap ANumber (phiNt v p)
        /\ ask_check qs (w, k) (QTensionCapacity p) = rmap ANumber (tension_capacity v p)
        /\ (forall ls, ask_check qs (w, k) (QTensionUtilisation ls p) = rmap ANumber (tension_utilisation qs v ls p))
        /\ (forall ls, ask_check qs (w, k) (QGetTension ls p n) = rmap (fun r => ARows (Some r)) (get_tension qs v ls p n))
        /\ ask_check qs (w, k) (QCheckLoads l p n c) = rmap ARows (cc_get_loads qs v l p n c)
        /\ (forall m, ask_check qs (w, k) (QCheckSection p n m) = rmap APosSections (cc_get_section v p n m))
  | Err e => make_as4100 phi au kt (option_map (beam_now w) b) (option_map (sec_now w) s) = Err e
  end.
Proof. exact (@constructor_refines). Qed.
Print Assumptions C94_constructor_refines.

(** C98: an Element is refused exactly when its length is below zero; a Circle when its
    radius is not at or above zero; otherwise the attributes are those given. *)
Theorem C98_element :
  forall Sec (loads : list (Z * lcase R)) length (section : option Sec),
  ((forall l, length = Some l -> (0 <= l)%R) ->
     exists e, element loads length section = Ok e
               /\ elength e = length /\ esection e = section /\ eloads e = loads)
  /\ (forall l, length = Some l -> (l < 0)%R -> element loads length section = Err ElementLengthError).
Proof. exact @element_R. Qed.
Print Assumptions C98_element.

Theorem C98_circle :
  forall (mat : option (material R)) r,
  (0 <= r -> circle mat r = Ok (SCircle r mat))%R /\ (r < 0 -> circle mat r = Err AssertionError)%R.
Proof. exact circle_R. Qed.
Print Assumptions C98_circle.

(** On Python numbers: NaN is accepted as a length and refused as a radius. *)
Theorem C98_element_floats :
  forall Sec (loads : list (Z * lcase pynum)) length (section : option Sec),
  (element loads length section = Err ElementLengthError <-> exists l, length = Some l /\ below_zero l)
  /\ (forall x, element loads length section = Err x -> x = ElementLengthError)
  /\ forall e, element loads length section = Ok e ->
       elength e = length /\ esection e = section /\ eloads e = loads.
Proof. exact @element_floats. Qed.
Print Assumptions C98_element_floats.

Theorem C98_circle_floats :
  forall (mat : option (material pynum)) r,
  (from_zero r -> circle mat r = Ok (SCircle r mat))
  /\ (~ from_zero r -> circle mat r = Err AssertionError).
Proof. exact circle_floats. Qed.
Print Assumptions C98_circle_floats.

Example C98_case : below_zero (fl (-1) 10) /\ ~ below_zero (fl 0 1) /\ from_zero (PInt 3)
  /\ ~ from_zero (PFlt SpecFloat.S754_nan).
Proof. split; [exact I|]. split; [intros []|]. split; [discriminate|intros []]. Qed.
