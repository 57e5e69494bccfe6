(** Concrete worlds for the properties of Objects.v. *)

From Coq Require Import ZArith List Bool PeanoNat.
From Verif Require Import Base Num PyNum Numpy LoadCase Beam Material AS4100 Objects ObjectFacts
  AS4100Cases.
Import ListNotations.
Open Scope Z_scope.

Definition st300 : material pynum :=
  match steel300 with Some m => m | None => mk_material None TOther TOther [] end.

(** Material 0 is grade 300 steel, material 1 the same grade; section 0 a 20 mm bar and
    section 1 a 10 mm bar, both of material 0; element 0 (1 m of section 0, load cases 1 and
    2), element 1 (1 m of section 1, the same cases), element 2 (load case 7 only); list 0
    is [element 0], list 1 is [element 0; element 1]. *)
Definition w0 : world pynum := mk_world
  (fun _ => st300)
  (fun s => match s with
            | O => OCircle (fl 1 100) (Some 0%nat)
            | _ => OCircle (fl 5 1000) (Some 0%nat)
            end)
  (fun d => match d with
            | 2%nat => [(7, Some calm)]
            | _ => [(1, Some calm); (2, Some (spike (fl 50000 1)))]
            end)
  (fun e => match e with
            | O => mk_eobj (Some (fl 1 1)) (Some 0%nat) 0
            | 1%nat => mk_eobj (Some (fl 1 1)) (Some 1%nat) 1
            | _ => mk_eobj (Some (fl 1 1)) (Some 0%nat) 2
            end)
  (fun l => match l with O => [0%nat] | _ => [0%nat; 1%nat] end).

Definition k0 : check pynum := mk_check (Some 0%nat) None 20 [0%nat] (fl 9 10) (fl 85 100) (fl 1 1).
Lemma k0_made : new_check w0 (fl 9 10) (fl 85 100) (fl 1 1) (Some 0%nat) None = Ok k0.
Proof. vm_compute. reflexivity. Qed.
Lemma list0_beam : new_beam w0 0 = Ok 0%nat.
Proof. vm_compute. reflexivity. Qed.
Lemma list1_beam : new_beam w0 1 = Ok 1%nat.
Proof. vm_compute. reflexivity. Qed.

Definition number (r : res (answer pynum)) : option pynum :=
  match r with Ok (ANumber x) => Some x | _ => None end.

(** Replacing the 20 mm bar by the 10 mm bar: the check reports the old capacity. *)
Lemma stale_capacity qs :
  exists x y,
  ask_check qs (run (w0, k0) [SetElementSection 0 (Some 1%nat)]) (QTensionCapacity PosNone) = Ok (ANumber x)
  /\ ask_fresh qs (run (w0, k0) [SetElementSection 0 (Some 1%nat)]) (QTensionCapacity PosNone) = Ok (ANumber y)
  /\ ask_check qs (w0, k0) (QTensionCapacity PosNone) = Ok (ANumber x)
  /\ nltb (nmul (nint 3) y) x = true.
Proof. eexists; eexists. repeat split; vm_compute; reflexivity. Qed.

(** The answer of [sections] is up to date (the property is inconsistent with the
    capacities). *)
Lemma sections_current qs :
  ask_beam qs (fst (run (w0, k0) [SetElementSection 0 (Some 1%nat)])) 0 QSections
  = Ok (ASections [Some (SCircle (fl 5 1000) (Some st300))]).
Proof. vm_compute. reflexivity. Qed.

(** Appending an element: the check has no wrapper for it. *)
Lemma appended qs :
  ask_check qs (run (w0, k0) [SetList 0 [0%nat; 1%nat]]) (QTensionCapacity (PosNum (fl 3 2)))
  = Err IndexError
  /\ exists y, ask_fresh qs (run (w0, k0) [SetList 0 [0%nat; 1%nat]]) (QTensionCapacity (PosNum (fl 3 2)))
               = Ok (ANumber y).
Proof. split; [|eexists]; vm_compute; reflexivity. Qed.

(** Declaring the material to be concrete. *)
Definition concrete : material pynum :=
  mk_material (Some Concrete) (mname st300) (mstandard st300) (mprops st300).
Lemma concrete_rated qs :
  exists x, ask_check qs (run (w0, k0) [SetMaterial 0 concrete]) (QTensionCapacity PosNone) = Ok (ANumber x)
  /\ Forall (fun s => ~ steel_circle (fst (run (w0, k0) [SetMaterial 0 concrete])) s)
       (k_wrappers (snd (run (w0, k0) [SetMaterial 0 concrete]))).
Proof.
  eexists. split; [vm_compute; reflexivity|]. constructor; [|constructor].
  intros (r & m & E & M). cbn in E. injection E as _ <-. cbn in M. discriminate M.
Qed.

(** Appending an element with other load cases to the list a beam was made of. *)
Lemma beam_broken qs :
  let w := fst (run (w0, k0) [SetList 0 [0%nat; 2%nat]]) in
  new_beam w 0 = Err ElementCaseError
  /\ ask_beam qs w 0 QLoadCases = Ok (ACases [1; 2])
  /\ ask_beam qs w 0 (QGetLoads 1 (PosNum (fl 3 2)) None CNone) = Err KeyError.
Proof. repeat split; vm_compute; reflexivity. Qed.

(** Deleting a load case from the dict of one element of a two-element beam; emptying the
    list. *)
Lemma beam_broken_by_dict qs :
  let w := fst (run (w0, k0) [SetLoads 1 [(2, Some (spike (fl 50000 1)))]]) in
  new_beam w 1 = Err ElementCaseError
  /\ ask_beam qs w 1 QLoadCases = Ok (ACases [1; 2])
  /\ ask_beam qs w 1 (QGetLoads 1 (PosNum (fl 3 2)) None CNone) = Err KeyError.
Proof. repeat split; vm_compute; reflexivity. Qed.

Lemma beam_emptied qs :
  let w := fst (run (w0, k0) [SetList 0 []]) in
  new_beam w 0 = Err ElementError /\ ask_beam qs w 0 QLoadCases = Err IndexError
  /\ ask_beam qs w 0 QLength = Ok (ANumber (nint 0)).
Proof. repeat split; vm_compute; reflexivity. Qed.

(** A history meeting the hypotheses of the positive theorems: a thicker bar, another
    material, another length, new loads, other factors; then the capacity differs. *)
Definition edits : list (op pynum) :=
  [SetRadius 0 (fl 2 100); SetSectionMaterial 0 1; SetMaterial 0 st300; SetLength 0 (Some (fl 2 1));
   SetLoads 0 [(1, Some calm)]; SetElementSection 1 None; SetList 1 []; SetPhi (fl 8 10); SetPoints 5].
Lemma edits_keep : Forall (keeps_sections (elements_of w0 (Some 0%nat)) (Some 0%nat)) edits
  /\ Forall (steel_op w0) edits.
Proof.
  split; repeat constructor; try exact I; try (cbn; intros [H|[]]; discriminate H);
    try discriminate; try (vm_compute; reflexivity).
Qed.
Lemma edits_answer qs : exists x y,
  ask_check qs (w0, k0) (QTensionCapacity PosNone) = Ok (ANumber x)
  /\ ask_check qs (run (w0, k0) edits) (QTensionCapacity PosNone) = Ok (ANumber y)
  /\ nltb x y = true.
Proof. eexists; eexists. repeat split; vm_compute; reflexivity. Qed.

(** A history on foreign objects. *)
Definition elsewhere : list (op pynum) :=
  [SetMaterial 5 concrete; SetRadius 1 (fl 9 10); SetSectionMaterial 1 5; SetLength 1 None;
   SetElementSection 2 None; SetLoads 1 []; SetList 1 []].
Lemma elsewhere_foreign : Forall (foreign w0 k0) elsewhere.
Proof.
  assert (S : forall s, section_of_check w0 k0 s -> s = 0%nat).
  { intros s [[H|[]]|[H|[H|[]]]]; cbn in H; try discriminate; try congruence. }
  repeat constructor; cbn.
  - intros s r Hs. apply S in Hs. subst. cbn. discriminate.
  - intros Hs. apply S in Hs. discriminate.
  - intros Hs. apply S in Hs. discriminate.
  - intros [H|[]]; discriminate H.
  - intros [H|[]]; discriminate H.
  - intros e [<-|[]]. cbn. discriminate.
  - discriminate.
Qed.
Lemma edits_keep_cases : Forall (keeps_cases w0 1) 
  [SetRadius 0 (fl 2 100); SetLength 0 (Some (fl 2 1)); SetElementSection 1 None; SetLoads 2 []; SetList 0 []].
Proof.
  repeat constructor; cbn; try exact I; try discriminate.
  intros e [<-|[<-|[]]]; cbn; discriminate.
Qed.
