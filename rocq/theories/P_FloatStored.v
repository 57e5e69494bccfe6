(** C149 and C150: stored loads among the loads and utilisations reported without positions, on IEEE doubles.
    The vocabulary is FloatStoredSpec.v and FloatPlaceSpec.v. *)

From Coq Require Import ZArith Reals List Bool String.
From Verif Require Import Base Num RNum PyNum Numpy LoadCase LoadSpec LoadProofs Beam BeamSpec Material AS4100 AS4100Spec AS4100Cases
  FloatSpec FloatValSpec FloatPlaceSpec FloatUtilSpec FloatStoredSpec FloatStored FloatEnd FloatDesignCases FloatStoredCases.
Import ListNotations.
Open Scope R_scope.

(** C149 is false where a table jumps: no reported load is even half of the stored one. *)
Theorem C149_refuted :
  ~ (forall qs Y (b : beam_t pynum (section pynum)) ls c n a k out i l rows r, any_argsort qs -> ordinary_beam b ls -> ordinary_loads Y b c ->
     (0 <= n <= 2 ^ 52)%Z -> designates a [k] -> beam_get_loads qs b c PosNone (Some n) a = Ok (Some out) ->
     long_element b ls c i l rows -> In r rows ->
     exists p v, In (p, [Some v]) out /\ Rabs (val v - val (load_of k r)) <= Rabs (val (load_of k r)) / 2).
Proof. exact C149_counterexample. Qed.
Print Assumptions C149_refuted.

Example C149_refuted_case : exists out, beam_get_loads stable_argsort (one_bar (jump heavy)) 1 PosNone (Some 20%Z) (CStr "N") = Ok (Some out) /\
  List.length out = 22%nat /\ Forall (fun o => snd o = [Some (fl 0 1)]) out /\ In (row_N (fl 2 10) heavy) (jump heavy).
Proof.
  destruct jump_rows as (out & E & L & F). exists out. split; [exact E|]. split; [exact L|]. split; [exact F|]. cbn [jump In]. auto.
Qed.

(** Without jumps every stored load is reported, up to the slope of the table over the error of the position ... *)
Theorem C149_stored_partial :
  forall Sec qs Y (b : beam_t pynum Sec) ls c n a k out i l rows g r, any_argsort qs -> ordinary_beam b ls -> ordinary_loads Y b c ->
  (0 <= n <= 2 ^ 52)%Z -> designates a [k] -> beam_get_loads qs b c PosNone (Some n) a = Ok (Some out) ->
  long_element b ls c i l rows -> 0 < g -> spread g rows -> In r rows ->
  exists p v, In (p, [Some v]) out /\ finite_double v /\ Rabs (val v - val (load_of k r)) <= load_error Y g ls i l.
Proof. exact @stored_reported. Qed.
Print Assumptions C149_stored_partial.

(** ... so the reported loads enclose the loads anywhere on the element. *)
Theorem C149_extremes_partial :
  forall Sec qs Y (b : beam_t pynum Sec) ls c n a k out i l rows g x y, any_argsort qs -> ordinary_beam b ls -> ordinary_loads Y b c ->
  (0 <= n <= 2 ^ 52)%Z -> designates a [k] -> beam_get_loads qs b c PosNone (Some n) a = Ok (Some out) ->
  long_element b ls c i l rows -> 0 < g -> spread g rows -> exact_load (map exact_row rows) k x y ->
  (exists p v, In (p, [Some v]) out /\ finite_double v /\ y <= val v + load_error Y g ls i l) /\
  (exists p v, In (p, [Some v]) out /\ finite_double v /\ val v - load_error Y g ls i l <= y).
Proof. exact @extremes_reported. Qed.
Print Assumptions C149_extremes_partial.

Example C149_case : ordinary_beam (one_bar slope) [fl 3 1] /\ ordinary_loads 100000 (one_bar slope) 1
  /\ (exists out, beam_get_loads stable_argsort (one_bar slope) 1 PosNone (Some 20%Z) (CStr "N") = Ok (Some out) /\ List.length out = 21%nat)
  /\ long_element (one_bar slope) [fl 3 1] 1 0 (fl 3 1) slope /\ spread (1 / 10) slope /\ In (row_N (fl 2 10) pull) slope
  /\ load_error 100000 (1 / 10) [fl 3 1] 0 (fl 3 1) <= 1 / 1000000.
Proof.
  split; [apply one_ordinary|]. split; [exact (one_loads _ _ _ slope_ordinary (or_introl eq_refl))|].
  split; [eexists; split; vm_compute; reflexivity|]. split; [apply one_long|]. split; [exact slope_spread|].
  split; [cbn [slope In]; auto|exact slope_error].
Qed.

(** C150 is false where a table jumps: 0 without positions, over 12 at 0.6 m. *)
Theorem C150_refuted :
  ~ (forall (b : beam_t pynum (section pynum)) ls Y s a c i p u v, ordinary_beam b ls -> ordinary_loads Y b c -> beam_load_cases b = Ok [c] ->
     default_as4100 (Some b) s = Ok a -> extends b i p ->
     tension_utilisation stable_argsort a LCNone PosNone = Ok u -> tension_utilisation stable_argsort a LCNone (PosNum p) = Ok v ->
     nltb (nint 12) v = true -> nltb (nint 0) u = true).
Proof. exact C150_counterexample. Qed.
Print Assumptions C150_refuted.

Example C150_refuted_case : tension_utilisation stable_argsort (one_check (jump heavy)) LCNone PosNone = Ok (fl 0 1) /\
  exists v, tension_utilisation stable_argsort (one_check (jump heavy)) LCNone (PosNum (fl 6 10)) = Ok v /\ nltb (nint 12) v = true.
Proof. exact jump_numbers. Qed.

(** Without jumps the utilisation covers the loads anywhere on the beam, for the first of the load cases. *)
Theorem C150_partial :
  forall qs phi au kt b s a lc c cs locs C ls Y, any_argsort qs -> make_as4100 phi au kt (Some b) s = Ok a ->
  wanted b lc (c :: cs) -> beam_list_positions b PosNone (Some (assessment_points a)) (Some c) = Ok locs ->
  let ps := map (fun x => fst (fst x)) locs in ps <> [] ->
  moderate phi -> moderate kt -> moderate au ->
  (forall p, In p ps -> exists at_p ss, beam_get_section b (PosNum p) None None = Ok (at_p, ss) /\
     least (C p) (bar_capacities kt au ss) /\
     forall x, In x ss -> exists r m fy fu, x = Some (SCircle r (Some m)) /\ min_fy (mk_as r m) = Ok fy /\
       min_fu (mk_as r m) = Ok fu /\ moderate r /\ moderate fy /\ moderate fu) ->
  (forall l p, In l (c :: cs) -> In p ps -> exists rows, beam_get_loads qs b l (PosNum p) None (CStr "N") = Ok (Some rows) /\ rows <> [] /\
     Forall (fun o => exists n, snd o = [Some n] /\ finite_double n /\
       (val n <= 0 \/ powerRZ 2 (-12) <= val n / (val phi * C p) <= powerRZ 2 19)) rows) ->
  ordinary_beam b ls -> (forall l, In l (c :: cs) -> ordinary_loads Y b l) ->
  exists u, tension_utilisation qs a lc PosNone = Ok u /\ finite_double u /\
    forall i l rows g x y, long_element b ls c i l rows -> 0 < g -> spread g rows -> exact_load (map exact_row rows) N x y ->
    exists p, In p ps /\ extends b i p /\
      Rmax y 0 / (val phi * C p) <= val u * (1 + powerRZ 2 (-47)) + load_error Y g ls i l / (val phi * C p).
Proof. exact C150_lemma. Qed.
Print Assumptions C150_partial.

Example C150_case : default_as4100 (Some (one_bar slope)) None = Ok (one_check slope) /\ assessment_points (one_check slope) = 20%Z
  /\ wanted (one_bar slope) LCNone [1%Z]
  /\ beam_list_positions (one_bar slope) PosNone (Some 20%Z) (Some 1%Z) = Ok slope_locs /\ List.length slope_points = 21%nat
  /\ moderate (fl 90 100) /\ moderate (fl 100 100) /\ moderate (fl 85 100)
  /\ (forall p, In p slope_points -> exists at_p ss, beam_get_section (one_bar slope) (PosNum p) None None = Ok (at_p, ss) /\
     least (bar_exact p) (bar_capacities (fl 100 100) (fl 85 100) ss) /\
     forall x, In x ss -> exists r m fy fu, x = Some (SCircle r (Some m)) /\ min_fy (mk_as r m) = Ok fy /\
       min_fu (mk_as r m) = Ok fu /\ moderate r /\ moderate fy /\ moderate fu)
  /\ (forall l p, In l [1%Z] -> In p slope_points -> exists rows,
     beam_get_loads stable_argsort (one_bar slope) l (PosNum p) None (CStr "N") = Ok (Some rows) /\ rows <> [] /\
     Forall (fun o => exists n, snd o = [Some n] /\ finite_double n /\
       (val n <= 0 \/ powerRZ 2 (-12) <= val n / (val (fl 90 100) * bar_exact p) <= powerRZ 2 19)) rows)
  /\ ordinary_beam (one_bar slope) [fl 3 1] /\ (forall l, In l [1%Z] -> ordinary_loads 100000 (one_bar slope) l)
  /\ long_element (one_bar slope) [fl 3 1] 1 0 (fl 3 1) slope /\ spread (1 / 10) slope.
Proof.
  destruct slope_made as (A & B & C & D). destruct slope_case as (E & F).
  exact (conj A (conj B (conj (w_all (one_bar slope) [1%Z] eq_refl) (conj C (conj D (conj phi_moderate (conj kt_moderate (conj au_moderate (conj E (conj F
    (conj (one_ordinary _) (conj (fun l => one_loads _ _ l slope_ordinary) (conj (one_long _) slope_spread))))))))))))).
Qed.
