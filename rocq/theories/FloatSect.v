(** The plate and CHS formulas on doubles: rounding error and order. *)

From Coq Require Import ZArith Reals List Bool Lra Lia Floats.SpecFloat.
From Verif Require Import Base Num PyNum FloatSpec FloatValSpec FloatUtilSpec FloatFormulaSpec FloatRound FloatOps FloatFacts FloatError
  FloatUtil FloatCheck FloatCapacity FloatCalc FloatFormulas FloatOrderSpec FloatOrder FloatMono NumFormulas NumSect.
Import ListNotations.
Open Scope R_scope.
Local Opaque SFadd SFsub SFmul SFdiv.

Lemma chs_slenderness_acc d t f ref : moderate d -> moderate t -> moderate f -> moderate ref ->
  exists r, ns6_2_lambda_e_CHS d t f ref = Ok r /\ accurate 51 r (val d / val t * (val f / val ref)).
Proof.
  intros Md Mt Mf Mr. unfold ns6_2_lambda_e_CHS.
  destruct (cdiv _ _ _ _ _ _ _ _ (moderate_close d Md) (moderate_close t Mt)) as [-> C1]; try side. cbn [bind].
  destruct (cdiv _ _ _ _ _ _ _ _ (moderate_close f Mf) (moderate_close ref Mr)) as [-> C2]; try side. cbn [bind].
  eexists. split; [reflexivity|]. pose proof (cmul _ _ _ _ _ _ _ _ C1 C2 ltac:(lra) ltac:(lra) ltac:(lia) ltac:(lia) ltac:(lia)) as C3.
  apply (close_units 4 240 2); [|lia|cbn; lra]. apply close_weak with (3 := C3); [lra|lia].
Qed.

Lemma plate_width_close k e b l y B L Y : close k e l L -> close 0 60 b B -> close 0 60 y Y -> 0 <= k <= 100 -> (0 <= e <= 300)%Z ->
  exists r, ns6_2_b_e_flatplate b l y = Ok r /\ close (k + 23 / 10) (120 + e) r (Rmin (B * (Y / L)) B).
Proof.
  intros Cl Cb Cy K He. unfold ns6_2_b_e_flatplate.
  destruct (cdiv _ _ _ _ _ _ _ _ Cy Cl) as [-> C1]; try side. cbn [bind]. eexists. split; [reflexivity|].
  pose proof (cmul _ _ _ _ _ _ _ _ Cb C1 ltac:(lra) ltac:(lra) ltac:(lia) ltac:(lia) ltac:(lia)) as C2.
  apply cmin; [apply close_weak with (3 := C2); [lra|lia]|apply close_weak with (3 := Cb); [lra|lia]|lra].
Qed.

Lemma plate_width_acc b l y : moderate b -> moderate l -> moderate y ->
  exists r, ns6_2_b_e_flatplate b l y = Ok r /\ accurate 51 r (Rmin (val b * (val y / val l)) (val b)).
Proof.
  intros Mb Ml My.
  destruct (plate_width_close 0 60 b l y _ _ _ (moderate_close l Ml) (moderate_close b Mb) (moderate_close y My)) as (r & E & C); try side.
  exists r. split; [exact E|]. apply (close_units 4 180 2); [|lia|cbn; lra]. apply close_weak with (3 := C); [lra|lia].
Qed.

Lemma form_factor_acc n e : moderate n -> moderate e ->
  exists r, ns6_2_k_f_Form_Factor n e = Ok r /\ accurate 52 r (val e / val n).
Proof.
  intros Mn Me. unfold ns6_2_k_f_Form_Factor.
  destruct (cdiv _ _ _ _ _ _ _ _ (moderate_close e Me) (moderate_close n Mn)) as [-> C1]; try side.
  eexists. split; [reflexivity|]. apply (close_units 2 120 1); [|lia|cbn; lra]. apply close_weak with (3 := C1); [lra|lia].
Qed.

Section Pow.
Variable pw : pynum -> pynum -> res pynum.
Hypothesis good : good_pow pw.

Lemma plate_slenderness_close b t f ref : moderate b -> moderate t -> moderate f -> moderate ref ->
  exists r, ns6_2_lambda_e_flatplate pw b t f ref = Ok r /\ close 8 180 r (val b / val t * sqrt (val f / val ref)).
Proof.
  intros Mb Mt Mf Mr. unfold ns6_2_lambda_e_flatplate.
  destruct (cdiv _ _ _ _ _ _ _ _ (moderate_close b Mb) (moderate_close t Mt)) as [-> C1]; try side. cbn [bind].
  destruct (cdiv _ _ _ _ _ _ _ _ (moderate_close f Mf) (moderate_close ref Mr)) as [-> C2]; try side. cbn [bind].
  destruct (croot pw good _ _ 60 _ _ C2) as (r & -> & C3); try side. cbn [bind].
  eexists. split; [reflexivity|]. pose proof (cmul _ _ _ _ _ _ _ _ C1 C3 ltac:(lra) ltac:(lra) ltac:(lia) ltac:(lia) ltac:(lia)) as C4.
  apply close_weak with (3 := C4); [lra|lia].
Qed.

Lemma plate_slenderness_acc b t f ref : moderate b -> moderate t -> moderate f -> moderate ref ->
  exists r, ns6_2_lambda_e_flatplate pw b t f ref = Ok r /\ accurate 50 r (val b / val t * sqrt (val f / val ref)).
Proof.
  intros Mb Mt Mf Mr. destruct (plate_slenderness_close b t f ref Mb Mt Mf Mr) as (r & E & C). exists r. split; [exact E|].
  apply (close_units 8 180 3); [exact C|lia|cbn; lra].
Qed.

Lemma chs_diameter_acc d l y : moderate d -> moderate l -> moderate y ->
  exists r, ns6_2_d_e_CHS pw d l y = Ok r /\
    accurate 49 r (Rmin (Rmin (val d * sqrt (val y / val l)) (val d * (3 * val y / val l) ^ 2)) (val d)).
Proof.
  intros Md Ml My. unfold ns6_2_d_e_CHS. pose proof (moderate_close y My) as Cy. pose proof (moderate_close d Md) as Cd.
  destruct (cdiv _ _ _ _ _ _ _ _ Cy (moderate_close l Ml)) as [-> C1]; try side. cbn [bind].
  destruct (croot pw good _ _ 60 _ _ C1) as (r & -> & C2); try side. cbn [bind].
  change (nint 3) with (PInt 3). rewrite imul by apply My.
  pose proof (cmul _ _ _ _ _ _ _ _ (cint 3 ltac:(lia)) Cy ltac:(lra) ltac:(lra) ltac:(lia) ltac:(lia) ltac:(lia)) as C3.
  destruct (cdiv _ _ _ _ _ _ _ _ C3 (moderate_close l Ml)) as [-> C4]; try side. cbn [bind].
  destruct (csquare pw good _ _ _ _ C4) as (q & -> & C5); try side. cbn [bind]. eexists. split; [reflexivity|].
  replace ((3 * val y / val l) ^ 2) with (3 * val y / val l * (3 * val y / val l)) by ring.
  pose proof (cmul _ _ _ _ _ _ _ _ Cd C2 ltac:(lra) ltac:(lra) ltac:(lia) ltac:(lia) ltac:(lia)) as C6.
  pose proof (cmul _ _ _ _ _ _ _ _ Cd C5 ltac:(lra) ltac:(lra) ltac:(lia) ltac:(lia) ltac:(lia)) as C7.
  apply (close_units 16 400 4); [|lia|cbn; lra].
  apply cmin; [apply cmin|apply close_weak with (3 := Cd); [lra|lia]|lra]; [| |lra].
  - apply close_weak with (3 := C6); [lra|lia].
  - apply close_weak with (3 := C7); [lra|lia].
Qed.

Lemma plate_area_acc b t f y ref : moderate b -> moderate t -> moderate f -> moderate y -> moderate ref ->
  exists r, ns6_2_A_e_flatplate pw b t f y ref = Ok r /\
    accurate 49 r (Rmin (val b * (val y / (val b / val t * sqrt (val f / val ref)))) (val b) * val t).
Proof.
  intros Mb Mt Mf My Mr. unfold ns6_2_A_e_flatplate.
  destruct (plate_slenderness_close b t f ref Mb Mt Mf Mr) as (l & -> & Cl). cbn [bind].
  destruct (plate_width_close _ _ b l y _ _ _ Cl (moderate_close b Mb) (moderate_close y My)) as (w & -> & Cw); try side. cbn [bind].
  eexists. split; [reflexivity|].
  pose proof (cmul _ _ _ _ _ _ _ _ Cw (moderate_close t Mt) ltac:(lra) ltac:(lra) ltac:(lia) ltac:(lia) ltac:(lia)) as C.
  apply (close_units 16 400 4); [|lia|cbn; lra]. apply close_weak with (3 := C); [lra|lia].
Qed.
End Pow.

