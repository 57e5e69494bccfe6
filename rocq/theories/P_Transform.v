(** C99-C101: one beam described in two parts, in other units, from the other end.  The
    vocabulary is TransformSpec.v and BeamSpec.v; exact arithmetic. *)

From Coq Require Import ZArith Reals List Bool Lra Lia.
From Verif Require Import Base Num RNum Numpy LoadCase LoadSpec LoadProofs Beam BeamSpec BeamFacts BeamCases
  Sanity Material AS4100 AS4100Cases TransformSpec BeamJoin BeamUnits BeamMirror TransformCases.
Import ListNotations.
Open Scope R_scope.

(** C99. *)
Theorem C99_loads :
  forall Sec qs (a b : beam_t R Sec) la lb c comp cs p, any_argsort qs ->
  has_lengths a la -> has_lengths b lb -> a <> [] -> b <> [] -> loaded (a ++ b) c ->
  designates comp cs -> cs <> [] -> 0 <= p <= span la + span lb ->
  exists rows, beam_get_loads qs (a ++ b) c (PosNum p) None comp = Ok (Some rows) /\
    (p < span la -> beam_get_loads qs a c (PosNum p) None comp = Ok (Some rows)) /\
    (span la < p -> exists rb, beam_get_loads qs b c (PosNum (p - span la)) None comp = Ok (Some rb) /\
                               rows = shifted (span la) rb) /\
    (p = span la -> exists ra rb, beam_get_loads qs a c (PosNum (span la)) None comp = Ok (Some ra) /\
                               beam_get_loads qs b c (PosNum 0) None comp = Ok (Some rb) /\
                               rows = ra ++ shifted (span la) rb).
Proof. exact @join_loads. Qed.
Print Assumptions C99_loads.

Theorem C99_sections :
  forall Sec (a b : beam_t R Sec) la lb p,
  has_lengths a la -> has_lengths b lb -> a <> [] -> b <> [] -> 0 <= p <= span la + span lb ->
  exists ps secs, beam_get_section (a ++ b) (PosNum p) None None = Ok (ps, secs) /\
    (p < span la -> beam_get_section a (PosNum p) None None = Ok (ps, secs)) /\
    (span la < p -> beam_get_section b (PosNum (p - span la)) None None = Ok (map (fun x => x - span la) ps, secs)) /\
    (p = span la -> exists pa sa pb sb, beam_get_section a (PosNum (span la)) None None = Ok (pa, sa) /\
        beam_get_section b (PosNum 0) None None = Ok (pb, sb) /\
        ps = pa ++ map (fun x => x + span la) pb /\ secs = sa ++ sb).
Proof. exact @join_sections. Qed.
Print Assumptions C99_sections.

Example C99_case : ex_beam = [ex_elem 2 10; ex_elem 0 11] ++ [ex_elem 3 12] /\ loaded ex_beam 7
  /\ has_lengths [ex_elem 2 10; ex_elem 0 11] [2; 0] /\ has_lengths [ex_elem 3 12] [3]
  /\ 0 <= 2 <= span [2; 0] + span [3] /\ designates (CEnum N) [N].
Proof.
  split; [reflexivity|]. split; [apply ex_loaded|].
  split; [repeat constructor; cbn; lra|]. split; [repeat constructor; cbn; lra|].
  split; [unfold span; cbn; lra|constructor].
Qed.

(** C100: every query, every outcome. *)
Theorem C100_list_positions :
  forall Sec k (b : beam_t R Sec) ls position mp lc, 0 < k -> has_lengths b ls ->
  beam_list_positions (in_units k b) (pos_units k position) mp lc =
  rmap (map (loc_units k)) (beam_list_positions b position mp lc).
Proof. exact @units_list_positions. Qed.
Print Assumptions C100_list_positions.

Theorem C100_loads :
  forall Sec k qs (b : beam_t R Sec) ls c position mp comp, 0 < k -> has_lengths b ls ->
  beam_get_loads qs (in_units k b) c (pos_units k position) mp comp =
  rmap (option_map (rows_units k)) (beam_get_loads qs b c position mp comp).
Proof. exact @units_get_loads. Qed.
Print Assumptions C100_loads.

Theorem C100_sections :
  forall Sec k (b : beam_t R Sec) ls position mp lc, 0 < k -> has_lengths b ls ->
  beam_get_section (in_units k b) (pos_units k position) mp lc =
  rmap (fun ps => (map (Rmult k) (fst ps), snd ps)) (beam_get_section b position mp lc).
Proof. exact @units_get_section. Qed.
Print Assumptions C100_sections.

Theorem C100_capacity :
  forall k a b ls position, 0 < k -> cc_beam a = Some b -> has_lengths b ls ->
  tension_capacity (cc_units k a) (pos_units k position) = tension_capacity a position.
Proof. exact @units_capacity. Qed.
Print Assumptions C100_capacity.

Theorem C100_utilisation :
  forall k qs a b ls lc position, 0 < k -> cc_beam a = Some b -> has_lengths b ls ->
  tension_utilisation qs (cc_units k a) lc (pos_units k position) = tension_utilisation qs a lc position.
Proof. exact @units_utilisation. Qed.
Print Assumptions C100_utilisation.

Example C100_case : 0 < 1000 /\ has_lengths ex_beam ex_lengths
  /\ cc_beam rod_check = Some rod_beam /\ has_lengths rod_beam rod_lengths.
Proof. split; [lra|]. split; [apply ex_has_lengths|]. split; [reflexivity|apply rod_has_lengths]. Qed.

(** C101 fails for an element of no length whose table does not reach from 0 to 1 ... *)
Theorem C101_refuted :
  ~ (forall (b : beam_t R nat) ls c position mp comp cs,
     has_lengths b ls -> b <> [] -> loaded b c -> designates comp cs -> cs <> [] ->
     beam_get_loads stable_argsort (mirror_beam b) c (mirror_pos (span ls) position) mp comp =
     rmap (option_map (mirror_rows (span ls))) (beam_get_loads stable_argsort b c position mp comp)).
Proof. exact mirror_counterexample. Qed.
Print Assumptions C101_refuted.

(** ... and holds otherwise, for every query and every outcome. *)
Theorem C101_loads_partial :
  forall Sec qs (b : beam_t R Sec) ls c position mp comp cs, any_argsort qs ->
  has_lengths b ls -> b <> [] -> loaded b c -> joints_whole b c -> designates comp cs -> cs <> [] ->
  beam_get_loads qs (mirror_beam b) c (mirror_pos (span ls) position) mp comp =
  rmap (option_map (mirror_rows (span ls))) (beam_get_loads qs b c position mp comp).
Proof. exact @mirror_get_loads. Qed.
Print Assumptions C101_loads_partial.

(** The tables of the mirrored beam are valid tables. *)
Theorem C101_tables :
  forall rows, accepted (Some rows) -> accepted (Some (mirror_table rows)).
Proof. exact mirror_accepted. Qed.
Print Assumptions C101_tables.

Theorem C101_sections :
  forall Sec (b : beam_t R Sec) ls position mp ps secs, has_lengths b ls -> b <> [] ->
  beam_get_section b position mp None = Ok (ps, secs) ->
  beam_get_section (mirror_beam b) (mirror_pos (span ls) position) mp None
  = Ok (rev (map (Rminus (span ls)) ps), rev secs).
Proof. exact (fun Sec b ls position mp ps secs H N => @mirror_get_section Sec b ls position mp None ps secs H N I). Qed.
Print Assumptions C101_sections.

Example C101_case : has_lengths ex_beam ex_lengths /\ ex_beam <> [] /\ loaded ex_beam 7 /\ joints_whole ex_beam 7
  /\ (exists e, In e ex_beam /\ elength e = Some 0)
  /\ exists ps secs, beam_get_section ex_beam (PosNum 1) None None = Ok (ps, secs).
Proof.
  split; [apply ex_has_lengths|]. split; [discriminate|]. split; [apply ex_loaded|]. split; [|split].
  - intros e rows He _ D. assert (E : eloads e = [(7%Z, Some tab4)]).
    { cbn in He. destruct He as [<-|[<-|[<-|[]]]]; reflexivity. }
    rewrite E in D. cbn in D. injection D as <-. unfold tab4, whole.
    do 3 eexists. split; [reflexivity|]. split; [eexists (_ :: _ :: _ :: nil); reflexivity|]. split; reflexivity.
  - exists (ex_elem 0 11). split; [right; now left|reflexivity].
  - destruct (C99_sections nat [ex_elem 2 10] [ex_elem 0 11; ex_elem 3 12] [2] [0; 3] 1) as (ps & secs & E & _);
      try discriminate.
    + repeat constructor; cbn; lra.
    + repeat constructor; cbn; lra.
    + unfold span; cbn; lra.
    + exists ps, secs. exact E.
Qed.
