(** C136: what a load case and a beam list is what they answer for.  The vocabulary is
    LoadSpec.v and BeamSpec.v. *)

From Coq Require Import ZArith Reals List Bool String Lra Lia.
From Verif Require Import Base Num RNum PyNum Numpy LoadCase LoadSpec LoadProofs Beam BeamSpec BeamFacts BeamCases Sanity
  Listing ListingFacts.
Import ListNotations.
Open Scope R_scope.

(** Asking for the stored positions gives the table as stored, in any numbers (no NaN). *)
Theorem C136_table_read_back :
  forall T (NT : Num T) qs (rows : list (lrow T)) ps comp cs, designates comp cs ->
  Forall (fun r => neqb (lpos r) (lpos r) = true) rows -> load_positions (Some rows) = Ok ps ->
  get_load qs (Some rows) (PosList ps) None comp =
  Ok (Some (map (fun r => (lpos r, map (fun c => Some (load_of c r)) cs)) rows)).
Proof. exact @read_back. Qed.
Print Assumptions C136_table_read_back.

(** The component listing is that answer, errors included. *)
Theorem C136_input_loads :
  forall T (NT : Num T) qs (rows : list (lrow T)) ps comp, comp <> CNone -> (forall l, comp <> CList l) ->
  Forall (fun r => neqb (lpos r) (lpos r) = true) rows -> load_positions (Some rows) = Ok ps ->
  input_loads (Some rows) comp = get_load qs (Some rows) (PosList ps) None comp.
Proof. exact @read_input. Qed.
Print Assumptions C136_input_loads.

Theorem C136_num_positions :
  forall T (NT : Num T) qs (lc : lcase T) ps comp out n, num_positions lc = Ok n -> load_positions lc = Ok ps ->
  Forall (fun p => neqb p p = true) ps ->
  get_load qs lc (PosList ps) None comp = Ok (Some out) -> List.length ps = n /\ List.length out = n.
Proof. exact @read_count. Qed.
Print Assumptions C136_num_positions.

Theorem C136_counts :
  forall T (NT : Num T) Sec (inp : beam_input T Sec) b, beam inp = Ok b -> exists es, gives inp es /\
  no_elements b = List.length es /\ List.length (beam_sections b) = no_elements b /\
  (forall ends, element_ends b = Ok ends -> List.length ends = no_elements b) /\
  exists cs, beam_load_cases b = Ok cs /\ no_load_cases b = Ok (List.length cs) /\
    forall e, In e b -> el_load_cases e = cs.
Proof. exact @counts. Qed.
Print Assumptions C136_counts.

(** A listed load case is never refused as unknown ... *)
Theorem C136_listed :
  forall T (NT : Num T) Sec (inp : beam_input T Sec) b cs qs c position mp comp xs,
  beam inp = Ok b -> beam_load_cases b = Ok cs -> In c cs ->
  designates comp xs -> beam_get_loads qs b c position mp comp <> Err KeyError.
Proof. exact @listed. Qed.
Print Assumptions C136_listed.

(** ... and one that is not listed never gets loads: *)
Theorem C136_unlisted :
  forall T (NT : Num T) Sec (inp : beam_input T Sec) b cs qs c position mp comp rows,
  beam inp = Ok b -> beam_load_cases b = Ok cs -> ~ In c cs ->
  beam_get_loads qs b c position mp comp <> Ok (Some rows).
Proof. exact @unlisted. Qed.
Print Assumptions C136_unlisted.

(** a proper question is answered with a KeyError. *)
Theorem C136_unlisted_is_KeyError :
  forall Sec inp (b : beam_t R Sec) ls cs qs c position ps comp, beam inp = Ok b -> has_lengths b ls ->
  beam_load_cases b = Ok cs -> ~ In c cs -> requested position ps -> ps <> [] ->
  Forall (fun p => 0 <= p <= span ls) ps ->
  beam_get_loads qs b c position None comp = Err KeyError.
Proof. exact @unlisted_refused. Qed.
Print Assumptions C136_unlisted_is_KeyError.

Theorem C136_unlisted_min_positions :
  forall Sec inp (b : beam_t R Sec) ls cs qs c n comp, beam inp = Ok b -> has_lengths b ls ->
  beam_load_cases b = Ok cs -> ~ In c cs -> (0 <= n)%Z ->
  beam_get_loads qs b c PosNone (Some n) comp = Err KeyError.
Proof. exact @unlisted_refused_many. Qed.
Print Assumptions C136_unlisted_min_positions.

Example C136_case : designates (CStr "MY") [MY]
  /\ Forall (fun r => neqb (lpos r) (lpos r) = true) tab4 /\ num_positions (Some tab4) = Ok 4%nat
  /\ beam (BList (map Some ex_beam)) = Ok ex_beam /\ has_lengths ex_beam ex_lengths
  /\ beam_load_cases ex_beam = Ok [7%Z] /\ no_elements ex_beam = 3%nat /\ no_load_cases ex_beam = Ok 1%nat
  /\ ~ In 8%Z [7%Z] /\ Forall (fun p => 0 <= p <= span ex_lengths) [1; 5 / 2].
Proof.
  split; [apply (d_name MY)|]. split.
  { repeat constructor; cbn; now apply Reqb_true. }
  split; [reflexivity|]. split; [reflexivity|]. split; [apply ex_has_lengths|]. split; [reflexivity|].
  split; [reflexivity|]. split; [reflexivity|]. split; [intros [H|[]]; discriminate H|].
  unfold span, ex_lengths. cbn. repeat constructor; lra.
Qed.
