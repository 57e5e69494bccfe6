(** Vocabulary for the exceptions of queries. *)

From Coq Require Import ZArith List Bool String.
From Verif Require Import Base Num LoadCase Beam Material AS4100.
Import ListNotations.

(** The answer, if it is a refusal, is one of the exceptions [P]. *)
Definition refuses_only {A} (P : exn -> Prop) (m : res A) : Prop := forall e, m = Err e -> P e.

Section Spec.
Context {T : Type} {NT : Num T} {Sec : Type}.

Definition known_lengths (b : beam_t T Sec) : Prop := forall e, In e b -> exists l, elength e = Some l.

(** Every element has a table of the load case, not empty, with floats as positions. *)
Definition stored_tables (b : beam_t T Sec) (c : Z) : Prop :=
  forall e, In e b -> exists rows, dict_get c (eloads e) = Ok (Some rows) /\ rows <> [] /\
    Forall (fun r => nisfloat (lpos r) = true) rows.
Definition tables_if_any (b : beam_t T Sec) (lc : option Z) : Prop :=
  match lc with None => True | Some c => stored_tables b c end.

(** No position that is an int instead of a float or a list, no negative number of positions. *)
Definition well_asked (position : pos_arg T) (min_positions : option Z) : Prop :=
  (forall x, position = PosNum x -> nisfloat x = true) /\ (forall n, min_positions = Some n -> (0 <= n)%Z).
End Spec.

(** ** Code checks *)
Section Check.
Context {T : Type} {NT : Num T}.

(** A material with a table of thicknesses, yield strengths and tensile strengths of the same number of entries. *)
Definition rated (m : material T) : Prop := exists ts fy fu, sget "strengths" (mprops m) = Ok (TTable [ts; fy; fu]) /\
  ts <> [] /\ List.length fy = List.length ts /\ List.length fu = List.length ts.

(** Elements of known length (a float) that are round bars of such a material. *)
Definition rated_bars (b : beam_t T (section T)) : Prop := forall e, In e b ->
  (exists l, elength e = Some l /\ nisfloat l = true) /\ exists r m, esection e = Some (SCircle r (Some m)) /\ rated m.

(** Positions, if given, are floats. *)
Definition float_positions (position : pos_arg T) : Prop :=
  match position with
  | PosNone => True
  | PosNum x => nisfloat x = true
  | PosList l => Forall (fun x => nisfloat x = true) l
  end.
End Check.
