(** C15-C18, C24, C81, C112-C114 on IEEE doubles (beams of any number of elements; lengths, positions and
    table entries any finite doubles).  The vocabulary is FloatSpec.v and FloatValSpec.v. *)

From Coq Require Import ZArith Reals List Bool Sorted Floats.SpecFloat.
From Verif Require Import Base Num PyNum Numpy LoadCase LoadSpec LoadProofs Beam BeamSpec BeamCases Solvers
  FloatSpec FloatValSpec FloatBeam FloatLocs FloatInterp FloatError FloatQueries FloatSolvers FloatCases.
Import ListNotations.

(** C15: an ascending run of elements, exactly those whose computed ends enclose the position;
    some element does just if the position is on the beam. *)
Theorem C15_floats :
  forall Sec (b : beam_t pynum Sec) ls p, with_lengths b ls -> Forall length_double ls -> b <> [] ->
  exists is ends total, in_elements b p = Ok (map Z.of_nat is) /\ element_ends b = Ok ends /\ beam_length b = Ok total /\
    StronglySorted Peano.lt is /\
    (forall i, In i is <-> exists s e, nth_error ends i = Some (s, Some e) /\ nleb s p = true /\ nleb p e = true) /\
    (is <> [] <-> nleb (fl 0 1) p = true /\ nleb p total = true) /\
    (forall i j k, In i is -> In k is -> (i <= j <= k)%nat -> In j is).
Proof. exact @C15_double. Qed.
Print Assumptions C15_floats.

Example C15_floats_case : with_lengths fl_beam [fl 1 10; fl 2 10] /\ Forall length_double [fl 1 10; fl 2 10] /\ fl_beam <> [] /\
  in_elements fl_beam (fl 1 10) = Ok [0%Z; 1%Z] /\ in_elements fl_beam fl_length = Ok [1%Z] /\ in_elements fl_beam (fl 4 10) = Ok [].
Proof. split; [apply short_float|]. split; [apply short_float|]. split; [discriminate|]. repeat split; vm_compute; reflexivity. Qed.

(** C16: a local position is (p - start) / length and in [0, 1]; positions before the element are refused. *)
Theorem C16_floats_beam_to_local :
  forall Sec (b : beam_t pynum Sec) ls p e i ends s t, with_lengths b ls -> Forall length_double ls ->
  designated (List.length b) e i -> element_ends b = Ok ends -> nth_error ends i = Some (s, Some t) -> nisinf s = false ->
  finite_double p ->
  (nltb p s = true -> beam_to_local b p e = Err PositionNotInElementError) /\
  (forall x, beam_to_local b p e = Ok x -> unit_double x /\ x = ndiv (nsub p s) (nth i ls (fl 0 1))) /\
  (forall x, beam_to_local b p e = Err x ->
     x = PositionNotInElementError \/ (x = ElementLengthError /\ neqb (nth i ls (fl 0 1)) (fl 0 1) = true)).
Proof. exact @C16_double_local. Qed.
Print Assumptions C16_floats_beam_to_local.

(** Any local position in [0, 1] is a position between the computed ends of the element. *)
Theorem C16_floats_local_to_beam :
  forall Sec (b : beam_t pynum Sec) ls x e i ends s t, with_lengths b ls -> Forall length_double ls ->
  designated (List.length b) e i -> element_ends b = Ok ends -> nth_error ends i = Some (s, Some t) ->
  unit_double x -> exists p, local_to_beam b x e = Ok p /\ nleb s p = true /\ nleb p t = true /\ double p.
Proof. exact @C16_double_beam. Qed.
Print Assumptions C16_floats_local_to_beam.

Example C16_floats_case : designated (List.length fl_beam) (-1) 1 /\ element_ends fl_beam = Ok short_ends /\
  nisinf (fl 1 10) = false /\ finite_double (fl 2 10) /\ beam_to_local fl_beam (fl 2 10) (-1) = Ok (fl 1 2) /\
  unit_double (fl 1 2) /\ local_to_beam fl_beam (fl 1 2) (-1) = Ok (fl 2 10).
Proof.
  split; [vm_compute; auto|]. split; [vm_compute; reflexivity|]. split; [vm_compute; reflexivity|]. split; [a_finite|].
  split; [vm_compute; reflexivity|]. split; [split; [a_finite|split; vm_compute; reflexivity]|vm_compute; reflexivity].
Qed.

(** C17: whenever a query for explicit positions is answered. *)
Theorem C17_floats :
  forall Sec (b : beam_t pynum Sec) ls ends total position ps lc locs, FloatSpec.float_beam b ls ends total ->
  asked position ps -> Forall finite_double ps -> beam_list_positions b position None lc = Ok locs ->
  Forall (well_placed ls ends) locs /\
  StronglySorted (fun a b => nleb a b = true) (points locs) /\
  (forall p, In p (points locs) -> In p ps) /\
  (forall q, In q ps -> exists p, In p (points locs) /\ neqb q p = true) /\
  (forall p i s t, In p (points locs) -> nth_error ends i = Some (s, Some t) -> nleb s p = true -> nleb p t = true ->
     exists x, In (p, Z.of_nat i, x) locs).
Proof. exact @C17_double. Qed.
Print Assumptions C17_floats.

Example C17_floats_case : FloatSpec.float_beam step_beam step_lengths step_ends (fl 11 4) /\ Forall finite_double [fl 5 2; fl 2 1] /\
  exists locs, beam_list_positions step_beam (PosList [fl 5 2; fl 2 1]) None (Some 7%Z) = Ok locs /\
    map (fun t => snd (fst t)) locs = [0; 1; 1; 1; 2; 2]%Z /\ hd_error (points locs) = Some (fl 2 1).
Proof.
  split; [apply step_float|]. split; [repeat constructor; try a_double; vm_compute; reflexivity|].
  eexists. split; [vm_compute; reflexivity|]. split; vm_compute; reflexivity.
Qed.

(** C18: whenever a query for a minimum number of positions is answered, all ends of elements, all
    positions with stored loads and the evenly spaced positions are there. *)
Theorem C18_floats :
  forall Sec (b : beam_t pynum Sec) ls ends total lc n locs, FloatSpec.float_beam b ls ends total -> tables_ok b lc ->
  (0 <= n <= 2 ^ 52)%Z -> beam_list_positions b PosNone (Some n) lc = Ok locs ->
  Forall (well_placed ls ends) locs /\
  StronglySorted (fun a b => nleb a b = true) (points locs) /\
  (forall i s t, nth_error ends i = Some (s, Some t) ->
     (exists p, In p (points locs) /\ neqb s p = true) /\ (exists p, In p (points locs) /\ neqb t p = true)) /\
  (forall i el x, nth_error b i = Some el -> In x (stored_points el lc) ->
     exists q p, local_to_beam b x (Z.of_nat i) = Ok q /\ In p (points locs) /\ neqb q p = true) /\
  (exists lin, linspace (fl 0 1) total n = Ok lin /\
     forall q, In q lin -> nleb (fl 0 1) q = true -> nleb q total = true -> exists p, In p (points locs) /\ neqb q p = true) /\
  (forall p i s t, In p (points locs) -> nth_error ends i = Some (s, Some t) -> nleb s p = true -> nleb p t = true ->
     exists x, In (p, Z.of_nat i, x) locs).
Proof. exact @C18_double. Qed.
Print Assumptions C18_floats.

Example C18_floats_case : FloatSpec.float_beam step_beam step_lengths step_ends (fl 11 4) /\ tables_ok step_beam (Some 7%Z) /\
  exists locs, beam_list_positions step_beam PosNone (Some 5%Z) (Some 7%Z) = Ok locs /\ (9 <= List.length locs)%nat.
Proof.
  split; [apply step_float|]. split; [apply loads_tables, fl_loads|]. eexists. split; [vm_compute; reflexivity|].
  apply PeanoNat.Nat.leb_le. vm_compute. reflexivity.
Qed.

(** C24 on doubles: every query for positions on the beam is answered just if no element is
    shorter than the difference of its computed ends.  (Missing from the full claim: the other beams.) *)
Theorem C24_floats_partial :
  forall Sec qs (b : beam_t pynum Sec) ls ends total c a cs, any_argsort qs ->
  FloatSpec.float_beam b ls ends total -> float_loads b c -> designates a cs -> cs <> [] ->
  ends_fit ls ends <->
  forall position ps, asked position ps ->
    Forall (fun p => finite_double p /\ nleb (fl 0 1) p = true /\ nleb p total = true) ps ->
    exists out, beam_get_loads qs b c position None a = Ok out.
Proof. exact @C24_double_iff. Qed.
Print Assumptions C24_floats_partial.

(** On the other beams, asking for loads at the end of a short element raises. *)
Theorem C24_floats_short_element_refuted :
  forall Sec qs (b : beam_t pynum Sec) ls ends total c a i l s t, FloatSpec.float_beam b ls ends total -> float_loads b c ->
  nth_error ls i = Some l -> nth_error ends i = Some (s, Some t) -> neqb l (fl 0 1) = false -> nleb (nsub t s) l = false ->
  beam_get_loads qs b c (PosNum t) None a = Err PositionNotInElementError.
Proof. exact @C24_double_fails. Qed.
Print Assumptions C24_floats_short_element_refuted.

Theorem C24_floats_min_positions_partial :
  forall Sec qs (b : beam_t pynum Sec) ls ends total c n a cs, any_argsort qs ->
  FloatSpec.float_beam b ls ends total -> ends_fit ls ends -> float_loads b c -> designates a cs -> cs <> [] ->
  (0 <= n <= 2 ^ 52)%Z -> exists out, beam_get_loads qs b c PosNone (Some n) a = Ok out.
Proof. exact @C24_double_min. Qed.
Print Assumptions C24_floats_min_positions_partial.

(** Lengths in whole millimetres, eighths of an inch, ... are never short. *)
Theorem C24_whole_steps_floats_partial :
  forall Sec (b : beam_t pynum Sec) ls ends total,
  FloatSpec.float_beam b ls ends total -> whole_steps ls -> ends_fit ls ends.
Proof. exact @whole_steps_fit. Qed.
Print Assumptions C24_whole_steps_floats_partial.

Example C24_floats_case : FloatSpec.float_beam step_beam step_lengths step_ends (fl 11 4) /\ whole_steps step_lengths /\
  float_loads step_beam 7 /\ FloatSpec.float_beam fl_beam [fl 1 10; fl 2 10] short_ends fl_length /\ float_loads fl_beam 7 /\
  nleb (nsub fl_length (fl 1 10)) (fl 2 10) = false.
Proof.
  split; [apply step_float|]. split; [apply step_whole|]. split; [apply fl_loads|]. split; [apply short_float|].
  split; [apply (fl_loads [fl 1 10; fl 2 10])|vm_compute; reflexivity].
Qed.

(** C81: the result is between the guesses if these are floats below 2^1023 or ints of at most 53
    bits, for any function.  (Missing from the full claim: larger guesses.) *)
Theorem C81_ordinary_brackets_partial :
  forall (func : pynum -> res pynum) fuel lo hi tol max_its fail x n, guess lo -> guess hi ->
  bisection func fuel lo hi tol max_its fail = Ok (x, n) ->
  between lo hi x /\ nisinf x = false /\ nisnan x = false.
Proof. exact bisection_double. Qed.
Print Assumptions C81_ordinary_brackets_partial.

Example C81_ordinary_case : guess (PInt 0) /\ guess (fl 7 10) /\
  bisection (fun x => Ok (nsub x (fl 1 3))) 99 (PInt 0) (fl 7 10) (fl 1 10) None true = Ok (fl 35 100, 2%Z).
Proof.
  split; [left; exists 0%Z; split; [reflexivity|vm_compute; discriminate]|]. split; [right; split; [a_finite|vm_compute; reflexivity]|].
  vm_compute. reflexivity.
Qed.

(** C112: between two stored rows a load leaves the left value in the direction of the right one
    and never turns back. *)
Theorem C112_floats_monotone :
  forall qs rows l r1 r2 l' p p' c,
  any_argsort qs ->
  Forall (fun r => unit_double (lpos r) /\ forall c, finite_double (load_of c r)) rows ->
  StronglySorted (fun a b => nleb (lpos a) (lpos b) = true) rows ->
  rows = l ++ r1 :: r2 :: l' -> finite_double p -> finite_double p' ->
  nltb (lpos r1) p = true -> nleb p p' = true -> nltb p' (lpos r2) = true ->
  exists v v',
  get_load qs (Some rows) (PosNum p) None (CEnum c) = Ok (Some [(p, [Some v])])
  /\ get_load qs (Some rows) (PosNum p') None (CEnum c) = Ok (Some [(p', [Some v'])])
  /\ (nleb (load_of c r1) (load_of c r2) = true -> nleb (load_of c r1) v = true /\ nleb v v' = true)
  /\ (nleb (load_of c r2) (load_of c r1) = true -> nleb v (load_of c r1) = true /\ nleb v' v = true).
Proof. exact between_monotone. Qed.
Print Assumptions C112_floats_monotone.

(** C113 is false on doubles: with 0 at 1/7 and 29 at 6/7 the load just before 6/7 exceeds 29 ... *)
Theorem C113_floats_envelope_refuted :
  forall qs, any_argsort qs ->
  Forall (fun r => unit_double (lpos r) /\ forall c, finite_double (load_of c r)) seventh_table
  /\ Forall (fun r => nleb (load_of N r) (fl 29 1) = true) seventh_table
  /\ exists v,
     get_load qs (Some seventh_table) (PosNum seventh_point) None (CEnum N) = Ok (Some [(seventh_point, [Some v])])
     /\ nltb (fl 29 1) v = true.
Proof. exact leaves_all. Qed.
Print Assumptions C113_floats_envelope_refuted.

(** ... and between two rows less than 1e-300 apart a load can be infinite. *)
Theorem C113_floats_infinite_refuted :
  forall qs, any_argsort qs ->
  Forall (fun r => unit_double (lpos r) /\ forall c, finite_double (load_of c r)) steep_table
  /\ get_load qs (Some steep_table) (PosNum steep_point) None (CEnum N)
     = Ok (Some [(steep_point, [Some (PFlt (S754_infinity false))])]).
Proof. exact steep_all. Qed.
Print Assumptions C113_floats_infinite_refuted.

(** What holds: the value is between its neighbours if these are a power of two apart (the whole
    element, a half, a quarter, ...) and their loads are whole multiples of a common power of two.
    Missing: other spacings and loads, where C112 gives the left bound only. *)
Theorem C113_floats_envelope_partial :
  forall qs rows l r1 r2 l' p c h,
  any_argsort qs ->
  Forall (fun r => unit_double (lpos r) /\ forall c, finite_double (load_of c r)) rows ->
  StronglySorted (fun a b => nleb (lpos a) (lpos b) = true) rows ->
  rows = l ++ r1 :: r2 :: l' -> finite_double p ->
  nltb (lpos r1) p = true -> nltb p (lpos r2) = true ->
  (0 <= h <= 60)%Z -> dyadic (nsub (lpos r2) (lpos r1)) 1 (- h) ->
  same_steps (load_of c r1) (load_of c r2) ->
  exists v, get_load qs (Some rows) (PosNum p) None (CEnum c) = Ok (Some [(p, [Some v])])
  /\ between (load_of c r1) (load_of c r2) v.
Proof. exact between_stays. Qed.
Print Assumptions C113_floats_envelope_partial.

Example C113_case :
  Forall (fun r => unit_double (lpos r) /\ forall c, finite_double (load_of c r)) half_table
  /\ StronglySorted (fun a b => nleb (lpos a) (lpos b) = true) half_table
  /\ half_table = [axial_row (fl 0 1) (fl 7 1)] ++ axial_row (fl 1 2) (fl 100 1) :: axial_row (fl 1 1) (fl (-3) 1) :: []
  /\ finite_double (fl 6 10) /\ finite_double (fl 7 10)
  /\ nltb (fl 1 2) (fl 6 10) = true /\ nleb (fl 6 10) (fl 7 10) = true /\ nltb (fl 7 10) (fl 1 1) = true
  /\ dyadic (nsub (fl 1 1) (fl 1 2)) 1 (-1) /\ same_steps (fl 100 1) (fl (-3) 1).
Proof. exact half_case. Qed.

(** C114: between two stored rows the load is finite and within 2^-49 of the larger load (and
    2^-1073) of the point on the straight line, if no load exceeds 2^500 and the rows are 2^-500 or
    more apart. *)
Theorem C114_floats_accurate :
  forall qs rows l r1 r2 l' p c Y,
  any_argsort qs ->
  Forall (fun r => unit_double (lpos r) /\ forall c, finite_double (load_of c r)) rows ->
  StronglySorted (fun a b => nleb (lpos a) (lpos b) = true) rows ->
  rows = l ++ r1 :: r2 :: l' -> finite_double p ->
  nltb (lpos r1) p = true -> nltb p (lpos r2) = true ->
  (powerRZ 2 (-500) <= val (lpos r2) - val (lpos r1))%R ->
  (Rabs (val (load_of c r1)) <= Y)%R -> (Rabs (val (load_of c r2)) <= Y)%R -> (Y <= powerRZ 2 500)%R ->
  exists v, get_load qs (Some rows) (PosNum p) None (CEnum c) = Ok (Some [(p, [Some v])])
  /\ finite_double v
  /\ (Rabs (val v - on_line (val (lpos r1)) (val (load_of c r1)) (val (lpos r2)) (val (load_of c r2)) (val p))
     <= powerRZ 2 (-49) * Y + powerRZ 2 (-1073))%R.
Proof. exact between_accurate. Qed.
Print Assumptions C114_floats_accurate.

Example C114_case :
  Forall (fun r => unit_double (lpos r) /\ forall c, finite_double (load_of c r)) seventh_table
  /\ StronglySorted (fun a b => nleb (lpos a) (lpos b) = true) seventh_table
  /\ seventh_table = [] ++ axial_row (fl 1 7) (fl 0 1) :: axial_row (fl 6 7) (fl 29 1) :: []
  /\ finite_double seventh_point
  /\ nltb (fl 1 7) seventh_point = true /\ nltb seventh_point (fl 6 7) = true
  /\ (powerRZ 2 (-500) <= val (fl 6 7) - val (fl 1 7))%R
  /\ (Rabs (val (fl 0 1)) <= 29)%R /\ (Rabs (val (fl 29 1)) <= 29)%R /\ (29 <= powerRZ 2 500)%R.
Proof. exact seventh_close. Qed.
