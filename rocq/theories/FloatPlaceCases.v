(** The beams of P_FloatPlaces.v: lengths 0.1 and 0.2 with a table of doubles, and the 20 mm bar. *)

From Coq Require Import ZArith Reals List Bool String Sorted Lia Lra Floats.SpecFloat.
From Verif Require Import Base Num PyNum Numpy LoadCase LoadSpec LoadProofs Beam BeamSpec BeamCases Material AS4100 AS4100Spec AS4100Cases
  FloatSpec FloatValSpec FloatPlaceSpec FloatRound FloatOps FloatFacts FloatError FloatUtilSpec FloatLoads FloatCases FloatDesignCases.
Import ListNotations.
Open Scope R_scope.

Lemma big_1000 : IZR (2 ^ 60) <= powerRZ 2 1000.
Proof. rewrite <- (bp_Z 60) by lia. apply (bp_le 60 1000). lia. Qed.
Lemma big_500 : IZR (2 ^ 60) <= powerRZ 2 500.
Proof. rewrite <- (bp_Z 60) by lia. apply (bp_le 60 500). lia. Qed.
Lemma small_500 : powerRZ 2 (-500) <= 1 / 1024.
Proof.
  apply Rle_trans with (bp (-10)); [apply (bp_le (-500) (-10)); lia|].
  assert (E : bp (-10) * bp 10 = 1) by (rewrite <- bp_add; apply bp_0). rewrite (bp_Z 10) in E by lia. change (IZR (2 ^ 10)) with 1024 in E. lra.
Qed.

Lemma val_zero : val (fl 0 1) = 0. Proof. rewrite fl_zero. reflexivity. Qed.

Lemma short_ordinary : ordinary_beam fl_beam [fl 1 10; fl 2 10].
Proof.
  split; [apply short_float|]. split; [apply short_float|]. split; [discriminate|]. split; [vm_compute; discriminate|].
  apply Rle_trans with (2 := big_1000). cbn [exact_lengths map span fold_right].
  literal (fl 1 10). literal (fl 2 10). cbn [Z.pow Z.pow_pos Pos.iter Z.mul Pos.mul]. lra.
Qed.

Lemma bar_ordinary : ordinary_beam (bar_beam (fl 3 1) pull) [fl 3 1].
Proof.
  split; [repeat constructor|]. split; [repeat constructor; a_length|]. split; [discriminate|]. split; [vm_compute; discriminate|].
  apply Rle_trans with (2 := big_1000). cbn [exact_lengths map span fold_right].
  literal (fl 3 1). cbn [Z.pow Z.pow_pos Pos.iter Z.mul Pos.mul]. lra.
Qed.

Ltac values := pose proof val_zero; literal (fl 1 1); literal (fl 1 3); literal (fl 1 10); literal (fl 7 10); literal (fl 2 1); literal (fl 3 1);
  literal (fl 4 1); literal (fl 5 1); literal (fl 6 1).

Lemma ftab_ordinary : ordinary_table 6 ftab.
Proof.
  values. split; [discriminate|]. split.
  - repeat (apply Forall_cons; [split; [split; [a_finite|split; vm_compute; reflexivity]|]|]); [| | |constructor];
      intros c; destruct c; (split; [a_finite|]); cbn [load_of lVX lVY lN lMX lMY lT]; apply Rabs_le; lra.
  - split; [apply ftab_sorted|]. split; [|apply Rle_trans with (2 := big_500); cbn [Z.pow Z.pow_pos Pos.iter Z.mul Pos.mul]; lra].
    pose proof small_500 as S5. intros r r' [<-|[<-|[<-|[]]]] [<-|[<-|[<-|[]]]]; cbn [lpos]; lra.
Qed.

Lemma short_loads : ordinary_loads 6 fl_beam 7.
Proof. intros e [<-|[<-|[]]]; exists ftab; (split; [reflexivity|exact ftab_ordinary]). Qed.

Lemma calm_ordinary : ordinary_table 100000 calm.
Proof.
  pose proof val_zero. literal (fl 1 1). split; [discriminate|]. split.
  - repeat (apply Forall_cons; [split; [split; [a_finite|split; vm_compute; reflexivity]|]|]); [| |constructor];
      intros c; destruct c; (split; [a_finite|]); cbn [load_of row_N lVX lVY lN lMX lMY lT]; apply Rabs_le; lra.
  - split; [repeat constructor|]. split; [|apply Rle_trans with (2 := big_500); cbn [Z.pow Z.pow_pos Pos.iter Z.mul Pos.mul]; lra].
    pose proof small_500 as S5. intros r r' [<-|[<-|[]]] [<-|[<-|[]]]; cbn [row_N lpos]; lra.
Qed.

Lemma spike_ordinary : ordinary_table 100000 (spike pull).
Proof.
  pose proof val_zero. literal (fl 1 1). literal (fl 49 100). literal (fl 1 2). literal (fl 51 100). literal pull. split; [discriminate|]. split.
  - repeat (apply Forall_cons; [split; [split; [a_finite|split; vm_compute; reflexivity]|]|]); [| | | | |constructor];
      intros c; destruct c; (split; [a_finite|]); cbn [load_of row_N lVX lVY lN lMX lMY lT]; apply Rabs_le; lra.
  - split; [repeat constructor|]. split; [|apply Rle_trans with (2 := big_500); cbn [Z.pow Z.pow_pos Pos.iter Z.mul Pos.mul]; lra].
    pose proof small_500 as S5.
    intros r r' [<-|[<-|[<-|[<-|[<-|[]]]]]] [<-|[<-|[<-|[<-|[<-|[]]]]]]; cbn [row_N lpos]; lra.
Qed.

Lemma bar_loads l : In l [1%Z; 2%Z] -> ordinary_loads 100000 (bar_beam (fl 3 1) pull) l.
Proof.
  intros [<-|[<-|[]]] e [<-|[]]; [exists calm; split; [reflexivity|exact calm_ordinary]|exists (spike pull); split; [reflexivity|exact spike_ordinary]].
Qed.

Lemma bar_extends p : In p bar_points -> extends (bar_beam (fl 3 1) pull) 0 p.
Proof. intros [<-|[<-|[]]]; exists [(fl 0 1, Some (fl 3 1))], (fl 0 1), (fl 3 1); (split; [vm_compute; reflexivity|]); (split; [reflexivity|]); split; vm_compute; reflexivity. Qed.

Lemma bar_finite : Forall finite_double bar_points.
Proof. repeat constructor; try a_double; vm_compute; reflexivity. Qed.
