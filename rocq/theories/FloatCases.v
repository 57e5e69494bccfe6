(** Beams of doubles for the examples of P_Floats.v. *)

From Coq Require Import ZArith List Bool Lia Floats.SpecFloat.
From Verif Require Import Base Num PyNum Numpy LoadCase LoadSpec LoadProofs Beam BeamSpec BeamCases FloatSpec FloatQueries.
Import ListNotations.

(** Lengths 2.0, 0.0 and 0.75. *)
Definition step_lengths : list pynum := [fl 2 1; fl 0 1; fl 3 4].
Definition step_beam : beam_t pynum nat := map fl_elem step_lengths.
Definition step_ends : list (pynum * option pynum) :=
  [(fl 0 1, Some (fl 2 1)); (fl 2 1, Some (fl 2 1)); (fl 2 1, Some (fl 11 4))].

Lemma fl_length_double n d f : fl n d = PFlt f -> valid_binary f64 e64 f = true -> nleb (fl 0 1) (fl n d) = true ->
  nisinf (fl n d) = false -> nisnan (fl n d) = false -> fl n d <> PFlt (S754_zero true) -> length_double (fl n d).
Proof. intros E V A B C D. split; auto. split; auto. exists f. auto. Qed.

Ltac a_length := eapply fl_length_double; [vm_compute; reflexivity|vm_compute; reflexivity|vm_compute; reflexivity|
  vm_compute; reflexivity|vm_compute; reflexivity|vm_compute; intros K; discriminate K].
Ltac a_double := eexists; split; [vm_compute; reflexivity|vm_compute; reflexivity].
Ltac a_finite := split; [a_double|split; vm_compute; reflexivity].

Lemma step_float : FloatSpec.float_beam step_beam step_lengths step_ends (fl 11 4).
Proof.
  split; [repeat constructor|]. split; [repeat constructor; a_length|]. split; [discriminate|].
  split; [vm_compute; reflexivity|]. split; vm_compute; reflexivity.
Qed.

Lemma step_whole : whole_steps step_lengths.
Proof.
  exists (-2)%Z, [8%Z; 0%Z; 3%Z]. split; [lia|]. split; [repeat constructor; split; vm_compute; reflexivity|].
  split; [repeat constructor; lia|]. vm_compute. discriminate.
Qed.

Lemma ftab_units : Forall (fun r => unit_double (lpos r)) ftab.
Proof. repeat constructor; try a_double; vm_compute; reflexivity. Qed.

Lemma fl_loads ls : float_loads (map fl_elem ls) 7.
Proof.
  intros e He. apply in_map_iff in He. destruct He as (l & <- & _). exists ftab.
  split; [reflexivity|]. split; [apply ftab_good|apply ftab_units].
Qed.

(** Lengths 0.1 and 0.2: the second is shorter than the difference of its ends. *)
Definition short_ends : list (pynum * option pynum) :=
  [(fl 0 1, Some (fl 1 10)); (fl 1 10, Some fl_length)].

Lemma short_float : FloatSpec.float_beam fl_beam [fl 1 10; fl 2 10] short_ends fl_length.
Proof.
  split; [repeat constructor|]. split; [repeat constructor; a_length|]. split; [discriminate|].
  split; [vm_compute; reflexivity|]. split; vm_compute; reflexivity.
Qed.
