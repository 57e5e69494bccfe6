(** What the documentation of the AS4100 tension check says, independent of how it is
    computed: wrapped sections, section capacities, extrema, scaled loads. *)

From Coq Require Import ZArith Reals List Bool String.
From Verif Require Import Base Num RNum PyNum Numpy LoadCase LoadSpec Beam BeamSpec Material AS4100.
Import ListNotations.
Open Scope R_scope.

Section Sections.
Context {T : Type} {NT : Num T}.

(** [w] is the AS4100 view of the steel circle [s]. *)
Inductive wraps : option (section T) -> as_section T -> Prop :=
| wraps_circle r m : mtype m = Some Steel -> wraps (Some (SCircle r (Some m))) (mk_as r m).

(** What is wrong with a section that cannot be checked to AS4100. *)
Inductive offence : option (section T) -> exn -> Prop :=
| no_section : offence None NotImplementedError
| not_circle : offence (Some SOther) NotImplementedError
| not_steel r m : mtype m <> Some Steel -> offence (Some (SCircle r (Some m))) InvalidMaterialError
| no_material r : offence (Some (SCircle r None)) AttributeError.

(** The sections of a code check object: those of the beam, else the single one. *)
Definition checked_sections (b : option (beam_t T (section T))) (s : option (section T))
  : list (option (section T)) :=
  match b with Some b => map esection b | None => [s] end.
End Sections.

(** Smallest and largest element of a set of reals. *)
Definition least (n : R) (P : R -> Prop) : Prop := P n /\ forall x, P x -> n <= x.
Definition greatest (n : R) (P : R -> Prop) : Prop := P n /\ forall x, P x -> x <= n.

(** AS4100 section 7.2: tension capacity of a round bar of radius [r] and material [m]. *)
Definition bar_capacity (kt au r : R) (m : material R) (c : R) : Prop :=
  exists fy fu, min_fy (mk_as r m) = Ok fy /\ min_fu (mk_as r m) = Ok fu /\
    c = Rmin (PI * r ^ 2 * fy) (PI * r ^ 2 * fu * kt * au).

(** The capacity of the section of element [i]. *)
Definition element_capacity (kt au : R) (b : beam_t R (section R)) (i : nat) (c : R) : Prop :=
  exists e r m, nth_error b i = Some e /\ esection e = Some (SCircle r (Some m)) /\
    bar_capacity kt au r m c.

(** The capacities at the positions [ps]. *)
Definition capacities_at (kt au : R) (b : beam_t R (section R)) (ls ps : list R) (c : R) : Prop :=
  exists p i, In p ps /\ covers ls i p /\ element_capacity kt au b i c.

(** [n] is the axial load at [p] in load case [l] (several where elements meet or where
    the load jumps). *)
Definition axial (qs : argsort_oracle R) (b : beam_t R (section R)) (l : Z) (p n : R) : Prop :=
  exists rows x, beam_get_loads qs b l (PosNum p) None (CStr "N") = Ok (Some rows) /\
    In (x, [Some n]) rows.

(** The load to capacity ratios at [ps] for the load cases [ls]. *)
Definition ratios (qs : argsort_oracle R) (b : beam_t R (section R)) (cap : R -> R)
  (ls : list Z) (ps : list R) (x : R) : Prop :=
  exists l p n, In l ls /\ In p ps /\ axial qs b l p n /\ x = Rmax n 0 / cap p.

(** The load cases a [load_case] argument stands for. *)
Inductive wanted {T Sec} (b : beam_t T Sec) : lc_arg -> list Z -> Prop :=
| w_int z : wanted b (LCInt z) [z]
| w_list l : wanted b (LCList l) l
| w_all l : beam_load_cases b = Ok l -> wanted b LCNone l.

(** The smallest ratio the solver can find is just above 5e-15. *)
Definition smallest_ratio : R := / 1000000000 / (200000 - / 10000).

(** [b'] is [b] with all axial loads multiplied by [k] (other components free). *)
Definition axial_scaled_table (k : R) (t t' : lcase R) : Prop :=
  match t, t' with
  | Some rows, Some rows' =>
      Forall2 (fun r r' => lpos r' = lpos r /\ lN r' = k * lN r) rows rows'
  | None, None => True
  | _, _ => False
  end.
Definition axial_scaled (k : R) (b b' : beam_t R (section R)) : Prop :=
  Forall2 (fun e e' => elength e' = elength e /\ esection e' = esection e /\
             Forall2 (fun d d' => fst d' = fst d /\ axial_scaled_table k (snd d) (snd d'))
                     (eloads e) (eloads e')) b b'.

(** The positions looked at by a utilisation query for the load cases [ls]: the given
    ones, else those list_positions offers for the first load case. *)
Inductive looked_at (b : beam_t R (section R)) (points : Z) : pos_arg R -> list Z -> list R -> Prop :=
| at_given position ls ps : requested position ps -> looked_at b points position ls ps
| at_first l ls locs : beam_list_positions b PosNone (Some points) (Some l) = Ok locs ->
    looked_at b points PosNone (l :: ls) (positions_of locs).
