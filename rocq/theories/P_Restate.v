(** C135: a check does not depend on the units of section lengths, stresses and loads.  The
    vocabulary is RestateSpec.v; exact arithmetic.  Equations between results include
    errors: both sides fail alike. *)

From Coq Require Import ZArith Reals List Bool String Lra.
From Verif Require Import Base Num RNum Numpy LoadCase LoadSpec LoadProofs Beam BeamSpec BeamFacts Sanity Material AS4100
  AS4100Spec AS4100Cases RestateSpec Restate.
Import ListNotations.
Open Scope R_scope.

Theorem C135_constructor :
  forall k s w phi au kt b sec,
  make_as4100 phi au kt (option_map (restate_beam k s w) b) (option_map (restate_section k s) sec) =
  rmap (restate_check k s w) (make_as4100 phi au kt b sec).
Proof. exact restate_make. Qed.
Print Assumptions C135_constructor.

Theorem C135_loads :
  forall k s w qs qs' b ls c position mp comp cs, any_argsort qs -> any_argsort qs' ->
  has_lengths b ls -> loaded b c -> designates comp cs -> cs <> [] ->
  beam_get_loads qs' (restate_beam k s w b) c position mp comp =
  rmap (option_map (map (restate_row w cs))) (beam_get_loads qs b c position mp comp).
Proof. exact restate_get_loads. Qed.
Print Assumptions C135_loads.

Theorem C135_sections :
  forall k s w b position mp lc,
  beam_get_section (restate_beam k s w b) position mp lc =
  rmap (fun ps => (fst ps, map (option_map (restate_section k s)) (snd ps))) (beam_get_section b position mp lc).
Proof. exact restate_get_section. Qed.
Print Assumptions C135_sections.

(** Capacities are stresses times squares of lengths. *)
Theorem C135_capacities :
  forall k s w a position, 0 < k -> 0 < s ->
  Nty (restate_check k s w a) position = rmap (Rmult (s * k * k)) (Nty a position) /\
  Ntu (restate_check k s w a) position = rmap (Rmult (s * k * k)) (Ntu a position) /\
  Nt (restate_check k s w a) position = rmap (Rmult (s * k * k)) (Nt a position) /\
  phiNt (restate_check k s w a) position = rmap (Rmult (s * k * k)) (phiNt a position) /\
  phiNty (restate_check k s w a) position = rmap (Rmult (s * k * k)) (phiNty a position) /\
  phiNtu (restate_check k s w a) position = rmap (Rmult (s * k * k)) (phiNtu a position) /\
  tension_capacity (restate_check k s w a) position = rmap (Rmult (s * k * k)) (tension_capacity a position).
Proof.
  exact (fun k s w a position Hk Hs => conj (restate_Nty k s w Hk Hs a position) (conj (restate_Ntu k s w Hk Hs a position)
    (conj (restate_Nt k s w Hk Hs a position) (restate_phi k s w Hk Hs a position)))).
Qed.
Print Assumptions C135_capacities.

Theorem C135_demand :
  forall k s w qs qs' a b ls c position mp, any_argsort qs -> any_argsort qs' -> 0 < w N ->
  cc_beam a = Some b -> has_lengths b ls -> loaded b c ->
  get_tension qs' (restate_check k s w a) c position mp =
  rmap (map (restate_row w [N])) (get_tension qs a c position mp).
Proof. exact restate_tension. Qed.
Print Assumptions C135_demand.

(** With axial loads in the unit of stress times area the utilisation is the same number;
    the units of the other components do not matter. *)
Theorem C135_utilisation :
  forall k s w, 0 < k -> 0 < s -> w N = s * k * k ->
  forall qs qs' a b ls lc cs position, any_argsort qs -> any_argsort qs' ->
  cc_beam a = Some b -> has_lengths b ls -> wanted b lc cs -> Forall (loaded b) cs ->
  tension_utilisation qs' (restate_check k s w a) lc position = tension_utilisation qs a lc position.
Proof. exact restate_utilisation. Qed.
Print Assumptions C135_utilisation.

(** A rod in metres, pascals and newtons, restated in millimetres, megapascals, newtons
    and newton millimetres. *)
Example C135_case : 0 < 1000 /\ 0 < / 1000000 /\ to_mm N = / 1000000 * 1000 * 1000
  /\ cc_beam rod_check = Some rod_beam /\ has_lengths rod_beam rod_lengths
  /\ wanted rod_beam LCNone [7%Z] /\ Forall (loaded rod_beam) [7%Z]
  /\ tension_utilisation stable_argsort rod_check LCNone (PosNum 1) = Ok (3 / rod_cap 1)
  /\ restate_strengths 1000 (/ 1000000) [[1 / 200]; [320000000]; [440000000]]
     = [[1000 * (1 / 200)]; [/ 1000000 * 320000000]; [/ 1000000 * 440000000]].
Proof.
  split; [lra|]. split; [lra|]. split; [unfold to_mm; lra|]. split; [reflexivity|]. split; [apply rod_has_lengths|].
  split; [now apply w_all|]. split; [exact rod_loaded|]. split; [exact (rod_utilisation stable_argsort stable_argsort_ok)|].
  reflexivity.
Qed.
