(** Vocabulary for the utilisation computed on doubles. *)

From Coq Require Import ZArith Reals List String.
From Verif Require Import Base Num PyNum Numpy LoadCase Beam Material AS4100 AS4100Spec FloatSpec FloatValSpec.
Import ListNotations.
Open Scope R_scope.

(** The axial loads that load case [l] reports at position [p]. *)
Definition axial_double (qs : argsort_oracle pynum) (b : beam_t pynum (section pynum)) (l : Z) (p n : pynum) : Prop :=
  exists rows x, beam_get_loads qs b l (PosNum p) None (CStr "N") = Ok (Some rows) /\ In (x, [Some n]) rows.

(** The exact quotients of the axial loads, compression counted as none, and the capacities. *)
Definition ratio_double (qs : argsort_oracle pynum) (b : beam_t pynum (section pynum)) (cap : pynum -> pynum)
  (ls : list Z) (ps : list pynum) (x : R) : Prop :=
  exists l p n, In l ls /\ In p ps /\ axial_double qs b l p n /\ x = Rmax (val n) 0 / val (cap p).

(** The positions looked at: a float, a list, or those offered for the first load case. *)
Inductive looked_double (b : beam_t pynum (section pynum)) (points : Z) : pos_arg pynum -> list Z -> list pynum -> Prop :=
| ld_one p ls : nisfloat p = true -> looked_double b points (PosNum p) ls [p]
| ld_list ps ls : looked_double b points (PosList ps) ls ps
| ld_first l ls locs : beam_list_positions b PosNone (Some points) (Some l) = Ok locs ->
    looked_double b points PosNone (l :: ls) (map (fun x => fst (fst x)) locs).

(** Load case [l] has axial loads at [p]; they are finite, and compression, none, or between
    2^-13 and 2^20 of the capacity [c]. *)
Definition moderate_loads (qs : argsort_oracle pynum) (b : beam_t pynum (section pynum)) (c : pynum) (l : Z) (p : pynum) : Prop :=
  exists rows, beam_get_loads qs b l (PosNum p) None (CStr "N") = Ok (Some rows) /\ rows <> [] /\
    Forall (fun o => exists n, snd o = [Some n] /\ finite_double n /\
      (val n <= 0 \/ powerRZ 2 (-13) <= val n / val c <= powerRZ 2 20)) rows.

(** A double of everyday size. *)
Definition moderate (x : pynum) : Prop := finite_double x /\ powerRZ 2 (-60) <= val x <= powerRZ 2 60.

(** The sections a capacity is taken over: those at the positions asked for, else all. *)
Inductive assessed : option (beam_t pynum (section pynum)) -> option (section pynum) -> pos_arg pynum ->
  list (option (section pynum)) -> Prop :=
| as_all b s : assessed b s PosNone (checked_sections b s)
| as_given b s position ps ss : position <> PosNone -> beam_get_section b position None None = Ok (ps, ss) ->
    assessed (Some b) s position ss.

(** AS4100 section 7.2, evaluated exactly: the capacities of the round bars [ss]. *)
Definition bar_capacities (kt au : pynum) (ss : list (option (section pynum))) (c : R) : Prop :=
  exists r m fy fu, In (Some (SCircle r (Some m))) ss /\ min_fy (mk_as r m) = Ok fy /\ min_fu (mk_as r m) = Ok fu /\
    c = Rmin (PI * val r ^ 2 * val fy) (PI * val r ^ 2 * val fu * val kt * val au).

(** The exact quotients of the axial loads and the exact design capacities [phi] times [C]. *)
Definition exact_ratio (qs : argsort_oracle pynum) (b : beam_t pynum (section pynum)) (phi : pynum) (C : pynum -> R)
  (ls : list Z) (ps : list pynum) (x : R) : Prop :=
  exists l p n, In l ls /\ In p ps /\ axial_double qs b l p n /\ x = Rmax (val n) 0 / (val phi * C p).
