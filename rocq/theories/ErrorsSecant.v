(** The exceptions of the utilisation solver on doubles: only ValueError. *)

From Coq Require Import ZArith Reals List Bool Lia Lra Floats.SpecFloat.
From Verif Require Import Base Num PyNum Numpy LoadCase Beam Material Solvers AS4100 Exceptions ErrorSpec Errors
  FloatSpec FloatRound FloatOps FloatFacts FloatBeam.
Import ListNotations.
Open Scope R_scope.

Notation value_error := (fun e => e = ValueError).

Lemma sub_one_double q : double (nsub (PFlt q) (nflt 1 1)).
Proof.
  eexists. split; [reflexivity|]. cbn [tofl]. change (tofl (nflt 1 1)) with (S754_finite false 4503599627370496 (-52)).
  destruct q as [s|s| |s m e]; try reflexivity. unfold SFsub. cbv zeta. eapply rounds_valid. apply normalize_spec.
Qed.

Lemma util_func_cases t cap x : util_func t cap x = Err ValueError \/ exists y, util_func t cap x = Ok y /\ double y.
Proof.
  unfold util_func. destruct (neqb cap _); [now left|]. right. eexists. split; [reflexivity|]. cbn [ndiv PNum]. apply sub_one_double.
Qed.

Lemma sub_positive p s : fin64 p -> fin64 s -> sfR s < sfR p -> fle (S754_finite false 1 (-1074)) (SFsub f64 e64 p s) = true.
Proof.
  intros Hp Hs L. eapply rounds_mono; [apply rounds_self; apply tiny_fin|apply sub_rounds; auto|].
  destruct (sfR_quantum p Hp) as (q & x & E & _ & X), (sfR_quantum s Hs) as (q' & x' & E' & _ & X').
  assert (K : forall q x, (-1074 <= x)%Z -> IZR q * bp x = IZR (q * 2 ^ (x + 1074)) * bp (-1074)).
  { intros a y Y. rewrite mult_IZR, <- bp_Z, Rmult_assoc, <- bp_add by lia. do 2 f_equal. lia. }
  rewrite E, E', (K q x X), (K q' x' X') in *. cbn [sfR signed]. pose proof (bp_pos (-1074)) as B.
  assert (IZR (q' * 2 ^ (x' + 1074)) < IZR (q * 2 ^ (x + 1074))) as H by nra. apply lt_IZR in H.
  assert (q' * 2 ^ (x' + 1074) + 1 <= q * 2 ^ (x + 1074))%Z as H' by lia. apply IZR_le in H'. rewrite plus_IZR in H'. nra.
Qed.

Lemma fin_of x : double x -> nisinf x = false -> nisnan x = false -> exists f, x = PFlt f /\ fin64 f.
Proof. intros (f & -> & V) I N. exists f. split; auto. destruct f; try discriminate; try reflexivity. exact V. Qed.

(** A difference that compares equal to zero: the numbers are equal. *)
Lemma zero_diff c d : double c -> double d -> nisinf c = false -> nisinf d = false -> neqb (nsub c d) (nint 0) = true -> neqb c d = true.
Proof.
  intros Dc Dd Ic Id E. destruct (nisnan c) eqn:Nc.
  { destruct Dc as (f & -> & _), Dd as (g & -> & _). destruct f, g; discriminate. }
  destruct (nisnan d) eqn:Nd.
  { destruct Dc as (f & -> & _), Dd as (g & -> & _). destruct f, g; discriminate. }
  destruct (fin_of c Dc Ic Nc) as (f & -> & F), (fin_of d Dd Id Nd) as (g & -> & G).
  cbn [neqb PNum] in *. unfold py_eqb in *. apply andb_true_iff in E. destruct E as (E1 & E2).
  change (nsub (PFlt f) (PFlt g)) with (PFlt (SFsub f64 e64 f g)) in *.
  destruct (Rtotal_order (sfR f) (sfR g)) as [L|[L|L]].
  - pose proof (lt_zero_tiny _ (sub_negative f g F G L)) as Q. cbn [nltb PNum] in Q. unfold py_ltb in Q.
    apply andb_true_iff in Q. destruct Q as (_ & Q). apply negb_true_iff in Q. congruence.
  - apply andb_true_iff. split; apply (fle_R _ _); auto; lra.
  - pose proof (sub_positive f g F G L) as Q. exfalso.
    assert (H : py_leb (PFlt (S754_finite false 1 (-1074))) (nint 0) = true) by (eapply ext_trans; [exact Q|exact E1]).
    vm_compute in H. discriminate H.
Qed.

Lemma close_ok a b : exists c, isclose (T := pynum) a b default_tol = Ok c.
Proof.
  unfold isclose. replace (nltb default_tol (nflt 0 1)) with false by (vm_compute; reflexivity).
  destruct (neqb a b); [eauto|]. destruct (_ || _); eauto.
Qed.
Lemma close_equal (a b : pynum) : neqb a b = true -> isclose a b default_tol = Ok true.
Proof. intros H. unfold isclose. replace (nltb default_tol (nflt 0 1)) with false by (vm_compute; reflexivity). now rewrite H. Qed.
Lemma go_ok a b d : exists g, keep_going (T := pynum) a b default_tol d = Ok g.
Proof. unfold keep_going. destruct (nltb _ _); [|eauto]. destruct (close_ok a b) as (c & ->). cbn. eauto. Qed.

Section Secant.
Variable func : pynum -> res pynum.
Hypothesis values : forall x, func x = Err ValueError \/ exists y, func x = Ok y /\ double y.

Lemma sec_only lo hi m nargs fuel : forall x1 x2 x3 i, (i + Z.of_nat fuel = m)%Z -> (i < m)%Z ->
  x3 <> None \/ keep_going x1 x2 default_tol (nsub x2 x1) = Ok true ->
  refuses_only value_error (sec_loop func fuel lo hi default_tol (Some m) false nargs x1 x2 x3 i).
Proof.
  induction fuel as [|fuel IH]; intros x1 x2 x3 i Hm Hi H3; [lia|]. cbn [sec_loop].
  destruct (go_ok x1 x2 (nsub x2 x1)) as (g & Eg). rewrite Eg. cbn [bind]. destruct g; cbn [negb].
  2: { destruct H3 as [H3|H3]; [|congruence]. destruct x3; [apply only_ok|congruence]. }
  destruct (values x2) as [->|(f2 & -> & D2)]; cbn [bind]; [now apply only_err|].
  destruct (values x1) as [->|(f1 & -> & D1)]; cbn [bind]; [now apply only_err|].
  destruct (_ || _ || _ || _) eqn:Inf; [now apply only_err|]. apply orb_false_iff in Inf. destruct Inf as (Inf & I1).
  apply orb_false_iff in Inf. destruct Inf as (_ & I2).
  destruct (close_ok f2 f1) as (c & Ec). rewrite Ec. cbn [bind]. destruct c; [now apply only_err|].
  unfold pydiv. destruct (neqb (nsub f2 f1) (nint 0)) eqn:Z.
  { apply zero_diff in Z; auto. rewrite (close_equal _ _ Z) in Ec. discriminate. }
  cbn [bind]. destruct (_ || _); [now apply only_err|]. destruct (m <=? i + 1)%Z eqn:S; [now apply only_err|].
  apply Z.leb_gt in S. apply IH; [lia|lia|]. left. discriminate.
Qed.
End Secant.

Lemma utilisation_only t cap : refuses_only value_error (util_one (T := pynum) t cap).
Proof.
  unfold util_one. destruct (nleb t _); [apply only_ok|]. apply only_bind.
  - unfold secant. do 2 (match goal with |- refuses_only _ (if ?c then _ else _) => destruct c; [now apply only_err|] end).
    destruct (close_ok (nint 100000) (nint (-100000))) as (c & ->). cbn [bind]. destruct c; [now apply only_err|].
    unfold default_max_its. apply sec_only; [apply util_func_cases|rewrite Z2Nat.id by lia; lia|lia|]. right. vm_compute. reflexivity.
  - intros r _. cbv zeta. destruct (neqb (fst (fst r)) (nflt 0 1)) eqn:E; [apply only_ok|]. unfold pydiv.
    replace (neqb (fst (fst r)) (nint 0)) with (neqb (fst (fst r)) (nflt 0 1)); [rewrite E; apply only_ok|].
    cbn [neqb PNum]. unfold py_eqb. destruct (pint0 (fst (fst r))) as (P1 & P2).
    change (nint 0) with (PInt 0). change (nflt 0 1) with (fl 0 1). now rewrite P1, P2.
Qed.
