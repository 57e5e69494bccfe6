(** C25 (code check part), C26-C35, C77: the AS4100 tension check.  The vocabulary is
    AS4100Spec.v and BeamSpec.v; [R] theorems are about exact arithmetic, [pynum] theorems
    about IEEE doubles and ints. *)

From Coq Require Import ZArith Reals List Bool String Lra Lia.
From Verif Require Import Base Num RNum PyNum Numpy LoadCase LoadSpec LoadProofs
  Beam BeamSpec Material AS4100 AS4100Spec AS4100Facts AS4100Util AS4100Scale AS4100Int AS4100Cases.
Import ListNotations.
Open Scope R_scope.

(** C25, the code check part (any numbers). *)
Theorem C25_wrapped_sections :
  forall T (NT : Num T) phi au kt (b : beam_t T (section T)) s a position mp lc,
  make_as4100 phi au kt (Some b) s = Ok a ->
  (forall ps ws, get_as4100_section a position mp lc = Ok (ps, ws) <->
     exists ss, beam_get_section b position mp lc = Ok (ps, ss) /\ Forall2 wraps ss ws) /\
  (forall e, get_as4100_section a position mp lc = Err e <-> beam_get_section b position mp lc = Err e).
Proof.
  exact (fun T NT phi au kt b s a position mp lc H =>
    conj (fun ps ws => C25_as4100_ok phi au kt b s a position mp lc ps ws H)
         (fun e => C25_as4100_err phi au kt b s a position mp lc e H)).
Qed.
Print Assumptions C25_wrapped_sections.

Example C25_case : make_as4100 (9 / 10) (85 / 100) 1 (Some rod_beam) None = Ok rod_check.
Proof. exact rod_made. Qed.

(** C26 on reals; that no stored array is written to is in P_Arrays.v. *)
Theorem C26_positive_part :
  forall qs phi au kt (b : beam_t R (section R)) s a c position mp out,
  make_as4100 phi au kt (Some b) s = Ok a ->
  get_tension qs a c position mp = Ok out <->
  exists rows, beam_get_loads qs b c position mp (CStr "N") = Ok (Some rows) /\
    Forall2 (fun r o => fst o = fst r /\ exists n, snd r = [Some n] /\ snd o = [Some (Rmax n 0)]) rows out.
Proof. exact C26_real. Qed.
Print Assumptions C26_positive_part.

(** As executed: negative loads become a zero, the others are kept bit for bit. *)
Theorem C26_positive_part_doubles :
  forall qs phi au kt (b : beam_t pynum (section pynum)) s a c position mp out,
  make_as4100 phi au kt (Some b) s = Ok a -> get_tension qs a c position mp = Ok out ->
  exists rows, beam_get_loads qs b c position mp (CStr "N") = Ok (Some rows) /\
    Forall2 (fun r o => fst o = fst r /\ exists n m, snd r = [Some n] /\ snd o = [Some m] /\
       (nltb n (PInt 0) = true -> m = PInt 0 \/ m = fl 0 1) /\ (nltb n (PInt 0) = false -> m = n)) rows out.
Proof. exact C26_py. Qed.
Print Assumptions C26_positive_part_doubles.

Theorem C26_errors :
  forall T (NT : Num T) qs phi au kt (b : beam_t T (section T)) s a c position mp e,
  make_as4100 phi au kt (Some b) s = Ok a ->
  beam_get_loads qs b c position mp (CStr "N") = Err e -> get_tension qs a c position mp = Err e.
Proof. exact @C26_error. Qed.
Print Assumptions C26_errors.

Example C26_case : exists rows, get_tension stable_argsort (bar_check (fl 3 1) (fl (-7) 1)) 2 PosNone (Some 2%Z) = Ok rows
  /\ List.length rows = 5%nat /\ default_as4100 (Some (bar_beam (fl 3 1) (fl (-7) 1))) None = Ok (bar_check (fl 3 1) (fl (-7) 1)).
Proof. eexists. split; [vm_compute; reflexivity|]. split; [reflexivity|apply bar_made]. Qed.

(** C27 (any numbers). *)
Theorem C27_accepted :
  forall T phi au kt (b : option (beam_t T (section T))) s a,
  make_as4100 phi au kt b s = Ok a <->
  ~ (b = None /\ s = None) /\
  exists ws, Forall2 wraps (checked_sections b s) ws /\ a = mk_as4100 b s 20 ws phi au kt.
Proof. exact @make_ok. Qed.
Print Assumptions C27_accepted.

Theorem C27_refused :
  forall T phi au kt (b : option (beam_t T (section T))) s e,
  make_as4100 phi au kt b s = Err e <->
  (b = None /\ s = None /\ e = CodeCheckError) \/
  (~ (b = None /\ s = None) /\
   exists good bad rest, checked_sections b s = good ++ bad :: rest /\
     (forall x, In x good -> exists w, wraps x w) /\ offence bad e).
Proof. exact @make_err. Qed.
Print Assumptions C27_refused.

Example C27_case : default_as4100 (T := R) None None = Err CodeCheckError
  /\ offence (T := R) (Some (SCircle 1 (Some (mk_material (Some Concrete) TOther TOther [])))) InvalidMaterialError.
Proof. split; [reflexivity|]. constructor. discriminate. Qed.

(** C28: explicit positions, no positions, only a section. *)
Theorem C28_at_positions :
  forall phi au kt b s a ls position ps n,
  make_as4100 phi au kt (Some b) s = Ok a -> has_lengths b ls -> b <> [] -> requested position ps ->
  Nt a position = Ok n <->
  Forall (fun p => 0 <= p <= span ls) ps /\
  (forall p i, In p ps -> covers ls i p -> exists c, element_capacity kt au b i c) /\
  least n (capacities_at kt au b ls ps).
Proof. exact C28_explicit. Qed.
Print Assumptions C28_at_positions.

Theorem C28_all_sections :
  forall phi au kt b s a n, make_as4100 phi au kt (Some b) s = Ok a ->
  Nt a PosNone = Ok n <->
  (forall i, (i < List.length b)%nat -> exists c, element_capacity kt au b i c) /\
  least n (fun c => exists i, element_capacity kt au b i c).
Proof. exact C28_all. Qed.
Print Assumptions C28_all_sections.

Theorem C28_single_section :
  forall phi au kt r m a n, make_as4100 phi au kt None (Some (SCircle r (Some m))) = Ok a ->
  Nt a PosNone = Ok n <-> bar_capacity kt au r m n.
Proof. exact C28_section. Qed.
Print Assumptions C28_single_section.

Theorem C28_lower_bound :
  forall phi au kt b s a ls position ps n,
  make_as4100 phi au kt (Some b) s = Ok a -> has_lengths b ls -> b <> [] ->
  requested position ps -> ps <> [] -> Forall (fun p => 0 <= p <= span ls) ps ->
  Nt a PosNone = Ok n -> exists n', Nt a position = Ok n' /\ n <= n'.
Proof. exact C28_order. Qed.
Print Assumptions C28_lower_bound.

Theorem C28_list_of_positions :
  forall phi au kt b s a ls ps n,
  make_as4100 phi au kt (Some b) s = Ok a -> has_lengths b ls -> b <> [] ->
  Nt a (PosList ps) = Ok n <->
  exists ns, Forall2 (fun p m => Nt a (PosNum p) = Ok m) ps ns /\ least n (fun m => In m ns).
Proof. exact C28_list. Qed.
Print Assumptions C28_list_of_positions.

Theorem C28_design_capacity :
  forall phi au kt b s a position x, make_as4100 phi au kt b s = Ok a ->
  (phiNt a position = Ok x <-> exists n, Nt a position = Ok n /\ x = phi * n) /\
  tension_capacity a position = phiNt a position.
Proof. exact C28_phi. Qed.
Print Assumptions C28_design_capacity.

(** The default factors are those of the standard: 0.9, and 0.85 for fracture. *)
Theorem C28_default_factors :
  forall r m a x, default_as4100 None (Some (SCircle r (Some m))) = Ok a ->
  tension_capacity a PosNone = Ok x <->
  exists fy fu, min_fy (mk_as r m) = Ok fy /\ min_fu (mk_as r m) = Ok fu /\
    x = 9 / 10 * Rmin (PI * r ^ 2 * fy) (85 / 100 * (PI * r ^ 2 * fu)).
Proof. exact C28_default_bar. Qed.
Print Assumptions C28_default_factors.

Example C28_default_case : exists a, default_as4100 None (Some (rod (1 / 10))) = Ok a /\
  rod (1 / 10) = SCircle (1 / 10) (Some rod_steel).
Proof. eexists. split; reflexivity. Qed.

(** Three bars of radius 0.1, 0.2 and 0.05: at 2 all three are present. *)
Example C28_case : has_lengths rod_beam rod_lengths /\
  (forall i c, (i < 3)%nat -> element_capacity 1 (85 / 100) rod_beam i c <-> c = rod_capacity (rod_radius i)) /\
  phiNt rod_check (PosNum 1) = Ok (9 / 10 * rod_capacity (if Rlt_dec 1 2 then 1 / 10 else 1 / 20)) /\
  phiNt rod_check (PosNum 2) = Ok (9 / 10 * rod_capacity (if Rlt_dec 2 2 then 1 / 10 else 1 / 20)).
Proof.
  split; [exact rod_has_lengths|]. split; [exact rod_element|].
  split; [exact (proj1 (proj2 (rod_sound 1 ltac:(lra))))|exact (proj1 (proj2 (rod_sound 2 ltac:(lra))))].
Qed.

(** C29 is false: [phiNtu] multiplies [Nty]. *)
Theorem C29_refuted :
  ~ (forall (b : option (beam_t pynum (section pynum))) s a position n, default_as4100 b s = Ok a ->
     Ntu a position = Ok n -> phiNtu a position = Ok (nmul (phi_steel a) n)).
Proof. exact C29_counterexample. Qed.
Print Assumptions C29_refuted.

(** It holds exactly when the two capacities happen to agree. *)
Theorem C29_partial :
  forall phi au kt (b : option (beam_t R (section R))) s a position y u,
  make_as4100 phi au kt b s = Ok a -> Nty a position = Ok y -> Ntu a position = Ok u ->
  phiNty a position = Ok (phi * y) /\
  (phiNtu a position = Ok (phi * u) <-> phi = 0 \/ u = y).
Proof. exact C29_what_it_is. Qed.
Print Assumptions C29_partial.

Example C29_case : exists y u, Nty (bar_check (fl 3 1) (fl 1 1)) PosNone = Ok y
  /\ Ntu (bar_check (fl 3 1) (fl 1 1)) PosNone = Ok u /\ nltb y u = true.
Proof. eexists. eexists. split; [vm_compute; reflexivity|]. split; [vm_compute; reflexivity|]. vm_compute. reflexivity. Qed.

(** C30, also for [load_case=None] and [position=None] (at the positions looked at).
    [sound_position a ls cap p]: on the beam, with a positive capacity [cap p]. *)
Theorem C30_worst_ratio :
  forall qs phi au kt b s a ls cap lc cs position ps,
  any_argsort qs -> make_as4100 phi au kt (Some b) s = Ok a -> has_lengths b ls -> b <> [] ->
  wanted b lc cs -> looked_at b (assessment_points a) position cs ps ->
  Forall (loaded b) cs ->
  Forall (fun p => 0 <= p <= span ls /\ phiNt a (PosNum p) = Ok (cap p) /\ 0 < cap p) ps ->
  forall u, tension_utilisation qs a lc position = Ok u <->
     greatest u (ratios qs b cap cs ps) /\
     forall x, ratios qs b cap cs ps x -> 0 < x -> smallest_ratio < x.
Proof.
  exact (fun qs phi au kt b s a ls cap lc cs position ps Hq Hm Hl Nb Hw Ha Hld Hp =>
    proj1 (util_iff qs phi au kt b s a ls cap Hq Hm Hl Nb lc cs position ps Hw Ha Hld Hp)).
Qed.
Print Assumptions C30_worst_ratio.

Example C30_case : smallest_ratio < 51 / 10000000000000000
  /\ Forall (fun p => 0 <= p <= span rod_lengths /\ phiNt rod_check (PosNum p) = Ok (rod_cap p) /\ 0 < rod_cap p) [1; 5 / 2]
  /\ tension_utilisation stable_argsort rod_check LCNone (PosNum 1) = Ok (3 / rod_cap 1)
  /\ wanted rod_beam LCNone [7%Z] /\ Forall (loaded rod_beam) [7%Z].
Proof.
  split; [exact smallest_small|]. split.
  - constructor; [apply rod_sound; lra|]. constructor; [apply rod_sound; lra|constructor].
  - split; [exact (rod_utilisation stable_argsort stable_argsort_ok)|]. split; [now apply w_all|exact rod_loaded].
Qed.

(** C31 is false: the root finder gives up on very small ratios. *)
Theorem C31_refuted :
  ~ (forall b s a c p t cap, plain_beam b -> default_as4100 (Some b) s = Ok a ->
     get_tension stable_argsort a c (PosNum p) None = Ok [(p, [Some t])] -> nltb (nint 0) t = true ->
     tension_capacity a (PosNum p) = Ok cap -> nltb (nint 0) cap = true ->
     exists u, tension_utilisation stable_argsort a (LCInt c) (PosNum p) = Ok u).
Proof. exact C31_counterexample. Qed.
Print Assumptions C31_refuted.

(** On reals it fails exactly when a positive ratio is at most [smallest_ratio]. *)
Theorem C31_partial :
  forall qs phi au kt b s a ls cap lc cs position ps,
  any_argsort qs -> make_as4100 phi au kt (Some b) s = Ok a -> has_lengths b ls -> b <> [] ->
  wanted b lc cs -> looked_at b (assessment_points a) position cs ps ->
  Forall (loaded b) cs ->
  Forall (fun p => 0 <= p <= span ls /\ phiNt a (PosNum p) = Ok (cap p) /\ 0 < cap p) ps ->
  (tension_utilisation qs a lc position = Err ValueError <->
     cs = [] \/ ps = [] \/ exists x, ratios qs b cap cs ps x /\ 0 < x <= smallest_ratio) /\
  (forall e, tension_utilisation qs a lc position = Err e -> e = ValueError).
Proof.
  exact (fun qs phi au kt b s a ls cap lc cs position ps Hq Hm Hl Nb Hw Ha Hld Hp =>
    proj2 (util_iff qs phi au kt b s a ls cap Hq Hm Hl Nb lc cs position ps Hw Ha Hld Hp)).
Qed.
Print Assumptions C31_partial.

(** C32 is false without positions: the positions of the first load case are reused for
    the others. *)
Theorem C32_refuted :
  ~ (forall b s a c u v, plain_beam b -> default_as4100 (Some b) s = Ok a ->
     tension_utilisation stable_argsort a LCNone PosNone = Ok u ->
     tension_utilisation stable_argsort a (LCInt c) PosNone = Ok v -> nleb v u = true).
Proof. exact C32_counterexample. Qed.
Print Assumptions C32_refuted.

Example C32_refuted_case :
  tension_utilisation stable_argsort (bar_check (fl 3 1) (fl 1000000 1)) LCNone PosNone = Ok (fl 0 1) /\
  exists v, tension_utilisation stable_argsort (bar_check (fl 3 1) (fl 1000000 1)) (LCInt 2) PosNone = Ok v /\
    nltb (nint 12) v = true.
Proof. exact C32_how_bad. Qed.

(** It holds with explicit positions ... *)
Theorem C32_explicit_positions_partial :
  forall qs phi au kt b s a ls cap cs,
  any_argsort qs -> make_as4100 phi au kt (Some b) s = Ok a -> has_lengths b ls -> b <> [] ->
  beam_load_cases b = Ok cs -> Forall (loaded b) cs ->
  forall position ps, requested position ps ->
  Forall (fun p => 0 <= p <= span ls /\ phiNt a (PosNum p) = Ok (cap p) /\ 0 < cap p) ps ->
  forall u, tension_utilisation qs a LCNone position = Ok u <->
  exists us, Forall2 (fun c v => tension_utilisation qs a (LCInt c) position = Ok v) cs us /\
    greatest u (fun v => In v us).
Proof. exact C32_explicit. Qed.
Print Assumptions C32_explicit_positions_partial.

(** ... and when every load case is given at the same positions. *)
Theorem C32_same_positions_partial :
  forall qs phi au kt b s a ls cap cs,
  any_argsort qs -> make_as4100 phi au kt (Some b) s = Ok a -> has_lengths b ls -> b <> [] ->
  beam_load_cases b = Ok cs -> Forall (loaded b) cs ->
  (forall e c c', In e b -> In c cs -> In c' cs -> el_load_positions e c = el_load_positions e c') ->
  (forall p, 0 <= p <= span ls -> phiNt a (PosNum p) = Ok (cap p) /\ 0 < cap p) ->
  forall u, tension_utilisation qs a LCNone PosNone = Ok u <->
  exists us, Forall2 (fun c v => tension_utilisation qs a (LCInt c) PosNone = Ok v) cs us /\
    greatest u (fun v => In v us).
Proof. exact C32_same_positions. Qed.
Print Assumptions C32_same_positions_partial.

(** What is computed instead (any numbers). *)
Theorem C32_first_case_positions_partial :
  forall T (NT : Num T) qs (a : as4100 T) b lc l ls locs,
  cc_beam a = Some b -> wanted b lc (l :: ls) ->
  beam_list_positions b PosNone (Some (assessment_points a)) (Some l) = Ok locs ->
  tension_utilisation qs a lc PosNone
  = tension_utilisation qs a lc (PosList (map (fun t => fst (fst t)) locs)).
Proof. exact @util_first. Qed.
Print Assumptions C32_first_case_positions_partial.

Example C32_case : beam_load_cases rod_beam = Ok [7%Z] /\
  (forall p, 0 <= p <= 5 -> phiNt rod_check (PosNum p) = Ok (rod_cap p) /\ 0 < rod_cap p).
Proof. split; [reflexivity|]. intros p Hp. exact (proj2 (rod_sound p Hp)). Qed.

(** C33.  The ratios must stay in the range of the root finder (C31). *)
Theorem C33_scaling :
  forall qs phi au kt b b' s a ls cap lc cs position ps k u,
  any_argsort qs -> make_as4100 phi au kt (Some b) s = Ok a -> has_lengths b ls -> b <> [] ->
  wanted b lc cs -> looked_at b (assessment_points a) position cs ps ->
  Forall (loaded b) cs ->
  Forall (fun p => 0 <= p <= span ls /\ phiNt a (PosNum p) = Ok (cap p) /\ 0 < cap p) ps ->
  0 < k -> axial_scaled k b b' -> tension_utilisation qs a lc position = Ok u ->
  (forall x, ratios qs b cap cs ps x -> 0 < x -> smallest_ratio < k * x) ->
  exists a', make_as4100 phi au kt (Some b') s = Ok a' /\
    tension_utilisation qs a' lc position = Ok (k * u).
Proof. exact C33_scale. Qed.
Print Assumptions C33_scaling.

Theorem C33_at_most_one :
  forall qs phi au kt b s a ls cap lc cs position ps u,
  any_argsort qs -> make_as4100 phi au kt (Some b) s = Ok a -> has_lengths b ls -> b <> [] ->
  wanted b lc cs -> looked_at b (assessment_points a) position cs ps ->
  Forall (loaded b) cs ->
  Forall (fun p => 0 <= p <= span ls /\ phiNt a (PosNum p) = Ok (cap p) /\ 0 < cap p) ps ->
  tension_utilisation qs a lc position = Ok u ->
  u <= 1 <-> (forall l p n, In l cs -> In p ps -> axial qs b l p n -> n <= cap p).
Proof. exact C33_safe. Qed.
Print Assumptions C33_at_most_one.

Example C33_case : axial_scaled 2 rod_beam rod_beam2
  /\ (forall n, axial stable_argsort rod_beam 7 1 n <-> n = 2 \/ n = 3).
Proof. split; [exact rod_scaled|]. intros n. exact (rod_axial stable_argsort n stable_argsort_ok). Qed.

(** C34 is false: the code check object drops [min_positions] and [load_case]. *)
Theorem C34_refuted :
  ~ (forall b s a position mp lc, plain_beam b -> default_as4100 (Some b) s = Ok a ->
     cc_get_section a position mp lc = beam_get_section b position mp lc).
Proof. exact C34_counterexample. Qed.
Print Assumptions C34_refuted.

(** It holds for explicit positions when no load case is given or no element has length
    zero (any numbers). *)
Theorem C34_explicit_positions_partial :
  forall T (NT : Num T) phi au kt (b : beam_t T (section T)) s a position lc,
  make_as4100 phi au kt (Some b) s = Ok a ->
  (lc = None \/ forall e l, In e b -> elength e = Some l -> neqb l (nint 0) = false) ->
  cc_get_section a position None lc = beam_get_section b position None lc.
Proof. exact @C34_when. Qed.
Print Assumptions C34_explicit_positions_partial.

Theorem C34_what_it_is_partial :
  forall T (NT : Num T) phi au kt (b : beam_t T (section T)) s a position mp lc,
  make_as4100 phi au kt (Some b) s = Ok a ->
  cc_get_section a position mp lc = beam_get_section b position None None.
Proof. exact @C34_ignored. Qed.
Print Assumptions C34_what_it_is_partial.

Example C34_case : forall e l, In e (bar_beam (fl 3 1) (fl 1 1)) -> elength e = Some l -> neqb l (nint 0) = false.
Proof. intros e l [<-|[]] [= <-]. vm_compute. reflexivity. Qed.

(** C35 is false for get_tension ... *)
Theorem C35_refuted :
  ~ (forall (s : section pynum) a qs c position mp, default_as4100 None (Some s) = Ok a -> any_argsort qs ->
     get_tension qs a c position mp = Err SectionOnlyError).
Proof. exact C35_counterexample. Qed.
Print Assumptions C35_refuted.

(** ... and true for the others (any numbers). *)
Theorem C35_section_only_partial :
  forall T (NT : Num T) phi au kt s (a : as4100 T), make_as4100 phi au kt None s = Ok a ->
  forall qs c position mp lc component,
  cc_get_section a position mp lc = Err SectionOnlyError /\
  get_as4100_section a position mp lc = Err SectionOnlyError /\
  cc_get_loads qs a c position mp component = Err SectionOnlyError.
Proof. exact @C35_most. Qed.
Print Assumptions C35_section_only_partial.

Theorem C35_no_tension_partial :
  forall T (NT : Num T) phi au kt s (a : as4100 T), make_as4100 phi au kt None s = Ok a ->
  forall qs c position mp, get_tension qs a c position mp = Err AttributeError.
Proof. exact @C35_tension. Qed.
Print Assumptions C35_no_tension_partial.

Theorem C35_no_utilisation_partial :
  forall T (NT : Num T) phi au kt s (a : as4100 T), make_as4100 phi au kt None s = Ok a ->
  forall qs lc position,
  exists e, tension_utilisation qs a lc position = Err e /\ (lc = LCNone -> e = AttributeError).
Proof. exact @C35_utilisation. Qed.
Print Assumptions C35_no_utilisation_partial.

Example C35_case : default_as4100 None (Some bar20) = Ok lone_check.
Proof. exact lone_made. Qed.

(** C77 is false: an int among the positions is refused later on. *)
Theorem C77_refuted :
  ~ (forall b b' s a a', lengths_floated b b' -> plain_beam b' -> default_as4100 (Some b) s = Ok a ->
     default_as4100 (Some b') s = Ok a' ->
     tension_utilisation stable_argsort a LCNone PosNone = tension_utilisation stable_argsort a' LCNone PosNone).
Proof. exact C77_counterexample. Qed.
Print Assumptions C77_refuted.

(** It holds bit for bit with explicit float positions. *)
Theorem C77_float_positions_partial :
  forall b b', lengths_floated b b' ->
  forall qs phi au kt s a lc position,
  make_as4100 phi au kt (Some b) s = Ok a -> float_position position ->
  exists a', make_as4100 phi au kt (Some b') s = Ok a' /\
    tension_utilisation qs a' lc position = tension_utilisation qs a lc position.
Proof. exact C77_partial_lemma. Qed.
Print Assumptions C77_float_positions_partial.

Example C77_case : lengths_floated (bar_beam (PInt 3) (fl 10000 1)) (bar_beam (fl 3 1) (fl 10000 1))
  /\ float_position (PosList [fl 3 2; fl 0 1]).
Proof. split; [exact bar_floated|]. repeat constructor. Qed.
