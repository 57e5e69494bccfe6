(** Beams used as examples in P_Equal.v. *)

From Coq Require Import ZArith Reals List Bool String Lra Lia.
From Verif Require Import Base Num RNum Numpy LoadCase LoadSpec LoadProofs Beam BeamSpec BeamCases Material MaterialFacts
  AS4100 AS4100Spec AS4100Facts AS4100Cases MatSpec Frame MatEq.
Import ListNotations.
Open Scope R_scope.

(** The bar of rod_beam, its material described again: another dictionary, properties in
    another order, one more property. *)
Definition steel (o : bool) : material R :=
  let p := [("strengths", TTable [[5 / 1000; 1]; [320; 300]; [440; 430]]); ("E", TNum 200e9)]%string in
  mk_material (Some Steel) (TStr "rod") (TStr "AS4100") (if o then p else rev p).
Definition bar (o : bool) (l r : R) : elem R (section R) :=
  mk_elem (Some l) (Some (SCircle r (Some (steel o)))) [(7%Z, Some tab4)].
Definition bars (o : bool) : beam_t R (section R) := [bar o 2 (1 / 10); bar o 0 (1 / 5); bar true 3 (1 / 20)].

Lemma steel_ok o : mat_ok Rok (steel o).
Proof.
  repeat split; try discriminate; destruct o; cbn; repeat constructor; cbn; intuition congruence.
Qed.
Lemma steel_equal : mat_eqb (steel true) (steel false) = true.
Proof.
  apply mat_eqb_R; try apply steel_ok. repeat split. intros k. cbn [steel mprops rev app sget].
  destruct (String.eqb_spec k "E"); destruct (String.eqb_spec k "strengths"); auto. subst. discriminate.
Qed.
Lemma bars_alike :
  Forall2 (fun e e' => same_frame e e' /\ alike (esection e) (esection e')) (bars true) (bars false).
Proof.
  assert (A : forall l r, same_frame (bar true l r) (bar false l r)
            /\ alike (esection (bar true l r)) (esection (bar false l r))).
  { intros l r. split; [split; reflexivity|]. apply alike_equal; try apply steel_ok. apply steel_equal. }
  constructor; [apply A|]. constructor; [apply A|]. constructor; [|constructor].
  split; [split; reflexivity|constructor].
Qed.
Lemma bars_case :
  Forall2 (fun e e' => same_frame e e' /\ alike (esection e) (esection e')) (bars true) (bars false)
  /\ bars true <> bars false
  /\ exists a, make_as4100 (9 / 10) (85 / 100) 1 (Some (bars true)) None = Ok a.
Proof.
  split; [apply bars_alike|]. split; [discriminate|]. eexists. reflexivity.
Qed.

(** rod_beam with other sections, and rod_beam with other loads. *)
Definition bare (e : elem R (section R)) : elem R nat := mk_elem (elength e) (Some 3%nat) (eloads e).
Lemma bare_frame : Forall2 same_frame rod_beam (map bare rod_beam).
Proof. repeat constructor. Qed.
Definition idle (e : elem R (section R)) : elem R (section R) := mk_elem (elength e) (esection e) [(9%Z, None)].
Lemma idle_case :
  Forall2 (fun e e' => elength e' = elength e /\ esection e' = esection e) rod_beam (map idle rod_beam)
  /\ (exists a, make_as4100 (9 / 10) (85 / 100) 1 (Some rod_beam) None = Ok a
        /\ exists c, tension_capacity a (PosNum 1) = Ok c /\ 0 < c)
  /\ exists a', make_as4100 (9 / 10) (85 / 100) 1 (Some (map idle rod_beam)) None = Ok a'.
Proof.
  split; [repeat constructor|]. split; [|eexists; reflexivity].
  exists rod_check. split; [apply rod_made|]. exists (rod_cap 1).
  destruct (rod_sound 1 ltac:(lra)) as (_ & P & C). auto.
Qed.
