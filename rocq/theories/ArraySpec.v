(** Vocabulary of the array properties (C26, C84, C85): client sessions. *)

From Coq Require Import ZArith List Bool String.
From Verif Require Import Base Num Numpy LoadCase Beam Material Solvers AS4100 ArrayHeap.
Import ListNotations.
Open Scope Z_scope.

Section ArraySpec.
Context {T : Type} {NT : Num T}.

(** A step of a session: ask something; read the [loads] or [load_positions] property of a
    load case (the step then returns that array); or write [a[i, j] = x] into the array
    returned by the [r]-th step so far. *)
Inductive step : Type :=
| Ask (q : query T)
| Loads (c : caseH)
| LoadPositions (c : caseH)
| Write (r i j : nat) (x : option T).

(** What a step gives: an answer or an exception, and the memory it is read in. *)
Record outcome : Type := mk_outcome { given : res (answer (T := T)); memory : heap T }.

Definition returned (o : outcome) : option arr :=
  match given o with Ok (AArr a) => a | _ => None end.

Definition do_step (qs : argsort_oracle T) (s : step) (past : list outcome) (h : heap T)
  : res (answer (T := T)) * heap T :=
  match s with
  | Ask q => ask qs q h
  | Loads c => (do a <- loads_prop c; mret (AArr a)) h
  | LoadPositions c => (do a <- load_positions_prop c; mret (AArr (Some a))) h
  | Write r i j x =>
      match nth_error past r with
      | Some o => match returned o with
                  | Some a => (Ok (AArr None), poke a i j x h)
                  | None => (Err TypeError, h)
                  end
      | None => (Err IndexError, h)
      end
  end.
Fixpoint session (qs : argsort_oracle T) (ss : list step) (past : list outcome) (h : heap T)
  : list outcome :=
  match ss with
  | [] => past
  | s :: r =>
      let (a, h') := do_step qs s past h in
      session qs r (past ++ [mk_outcome a h'])%list h'
  end.

(** What the pure models say, given what the stored load cases contain. *)
Inductive value : Type := VRows (rows : option (list (orow T))) | VNum (x : T).
Definition res_map {A B} (f : A -> B) (r : res A) : res B :=
  match r with Ok a => Ok (f a) | Err e => Err e end.
Definition says (qs : argsort_oracle T) (h : heap T) (q : query T) : option (res value) :=
  match q with
  | QLoad c p m k =>
      option_map (fun lc => res_map VRows (get_load qs lc p m k)) (case_of h c)
  | QLoads b l p m k =>
      option_map (fun v => res_map VRows (beam_get_loads qs v l p m k)) (beam_of h b)
  | QTension a l p m =>
      option_map (fun v => res_map (fun r => VRows (Some r)) (get_tension qs v l p m))
        (check_of h a)
  | QUtil a l p =>
      option_map (fun v => res_map VNum (tension_utilisation qs v l p)) (check_of h a)
  end.

(** The outcome, read where it was given, is that value. *)
Definition reads_as (o : outcome) (v : res value) : Prop :=
  match given o, v with
  | Ok (AArr (Some a)), Ok (VRows (Some rows)) =>
      content (memory o) a = Some (map orow_cells rows)
  | Ok (AArr None), Ok (VRows None) => True
  | Ok (ANum x), Ok (VNum y) => x = y
  | Err e, Err e' => e = e'
  | _, _ => False
  end.

(** The load cases a query is about, and a query that makes sense in a memory: they hold
    tables of loads. *)
Definition in_query (q : query T) (c : caseH) : Prop :=
  let in_beam (b : beamH T (section T)) := exists e k, In e b /\ In (k, c) (h_loads e) in
  let in_check (a : as4100H T) :=
    match h_beam a with Some b => in_beam b | None => False end in
  match q with
  | QLoad c' _ _ _ => c = c'
  | QLoads b _ _ _ _ => in_beam b
  | QTension a _ _ _ => in_check a
  | QUtil a _ _ => in_check a
  end.
Definition sound_case (h : heap T) (c : caseH) : Prop := exists lc, case_of h c = Some lc.
Definition sound_query (h : heap T) (q : query T) : Prop :=
  forall c, in_query q c -> sound_case h c.

(** A session that never takes the stored arrays out with [loads] or [load_positions]. *)
Definition only_asks (h : heap T) (s : step) : Prop :=
  match s with
  | Ask q => sound_query h q
  | Loads _ | LoadPositions _ => False
  | Write _ _ _ _ => True
  end.
(** A session that takes out and writes into those of the load case [c] only. *)
Definition takes_only (c : caseH) (h : heap T) (s : step) : Prop :=
  match s with
  | Ask q => sound_query h q /\ ~ in_query q c
  | Loads c' | LoadPositions c' => c' = c
  | Write _ _ _ _ => True
  end.

End ArraySpec.
Arguments step T : clear implicits.
Arguments outcome T : clear implicits.
