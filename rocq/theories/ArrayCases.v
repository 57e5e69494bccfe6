(** Concrete memories and sessions for the array properties. *)

From Coq Require Import ZArith List Bool String Lia.
From Verif Require Import Base Num PyNum Numpy LoadCase Beam Material Solvers AS4100 ArrayHeap
  ArrayFacts ArrayBeam ArraySpec ArrayProofs AS4100Cases.
Import ListNotations.
Open Scope Z_scope.

(** The 20 mm bar of AS4100Cases.v, 3 long, with 7 of compression in load case 2. *)
Definition bar_memory : heap pynum :=
  [map lrow_cells calm; map lrow_cells (spike (fl (-7) 1))].
Definition bar_beamH : beamH pynum (section pynum) :=
  [mk_elemH (Some (fl 3 1)) (Some bar20) [(1, Some 0%nat); (2, Some 1%nat)]].
Definition bar_checkH : as4100H pynum :=
  mk_as4100H (Some bar_beamH) None 20 (cc_as_sections (bar_check (fl 3 1) (fl (-7) 1)))
    (nflt 90 100) (nflt 85 100) (nflt 100 100).

Lemma bar_in_memory : check_of bar_memory bar_checkH = Some (bar_check (fl 3 1) (fl (-7) 1)).
Proof. vm_compute. reflexivity. Qed.

(** A session: the loads, the tension (clipped in place), a write of 99 into both, and the
    same questions again. *)
Definition bar_session : list (step pynum) :=
  [Ask (QLoads bar_beamH 2 PosNone None (CStr "N"));
   Ask (QTension bar_checkH 2 PosNone None);
   Write 0 0 1 (Some (fl 99 1)); Write 1 0 1 (Some (fl 99 1));
   Ask (QLoads bar_beamH 2 PosNone None (CStr "N"));
   Ask (QUtil bar_checkH LCNone PosNone);
   Ask (QLoad (Some 1%nat) PosNone (Some 3) CNone)].

Lemma bar_asks : Forall (only_asks bar_memory) bar_session.
Proof.
  assert (S0 : sound_case bar_memory (Some 0%nat)) by (eexists; reflexivity).
  assert (S1 : sound_case bar_memory (Some 1%nat)) by (eexists; reflexivity).
  assert (B : forall c, (exists e k, In e bar_beamH /\ In (k, c) (h_loads e)) ->
            sound_case bar_memory c).
  { intros c (e & k & [<-|[]] & [E|[E|[]]]); injection E as _ <-; assumption. }
  assert (Q : forall c, c = Some 1%nat -> sound_case bar_memory c) by (intros c ->; exact S1).
  unfold bar_session. repeat (constructor; [first [exact Logic.I|exact B|exact Q]|]).
  constructor.
Qed.

(** A load case of 10 at one end and 20 at the other.  First its [loads] array is taken and
    the first load overwritten with 5, then its [load_positions] and the first position
    overwritten with 5. *)
Definition ends_memory : heap pynum :=
  [map lrow_cells [row_N (fl 0 1) (fl 10 1); row_N (fl 1 1) (fl 20 1)]; map lrow_cells calm].
Definition rude_session : list (step pynum) :=
  [Loads (Some 0%nat); Write 0 0 3 (Some (fl 5 1));
   Ask (QLoad (Some 0%nat) (PosNum (fl 0 1)) None (CStr "N"));
   LoadPositions (Some 0%nat); Write 3 0 0 (Some (fl 5 1));
   Ask (QLoad (Some 1%nat) (PosNum (fl 1 2)) None (CStr "N"))].

(** Load case 0 is as its constructor made it. *)
Lemma ends_made :
  load_caseH (InRows [lrow_list (row_N (fl 0 1) (fl 10 1)); lrow_list (row_N (fl 1 1) (fl 20 1))]) []
  = (Ok (Some 0%nat), firstn 1 ends_memory).
Proof. vm_compute. reflexivity. Qed.

(** It should say 10, and says 5. *)
Lemma rude_refuted :
  says stable_argsort ends_memory (QLoad (Some 0%nat) (PosNum (fl 0 1)) None (CStr "N"))
    = Some (Ok (VRows (Some [(fl 0 1, [Some (fl 10 1)])]))) /\
  exists o, nth_error (session stable_argsort rude_session [] ends_memory) 2 = Some o /\
    reads_as o (Ok (VRows (Some [(fl 0 1, [Some (fl 5 1)])]))).
Proof. split; [vm_compute; reflexivity|]. eexists. split; [vm_compute; reflexivity|]. reflexivity. Qed.

(** After the second write its table is one that the constructor refuses. *)
Lemma rude_table :
  exists o rows, nth_error (session stable_argsort rude_session [] ends_memory) 4 = Some o /\
    case_of (memory o) (Some 0%nat) = Some (Some rows) /\
    load_case (InRows (map lrow_list rows)) = Err AssertionError.
Proof.
  eexists. eexists. split; [vm_compute; reflexivity|]. split; [vm_compute; reflexivity|].
  vm_compute. reflexivity.
Qed.

Lemma rude_takes : Forall (takes_only (Some 0%nat) ends_memory)
  (firstn 2 rude_session ++ skipn 3 rude_session).
Proof.
  cbn. repeat constructor; try reflexivity.
  - intros c ->. eexists. reflexivity.
  - discriminate.
Qed.
