(** The constructor of load cases on doubles. *)

From Coq Require Import ZArith Reals List Bool Sorted Lra Lia Floats.SpecFloat.
From Verif Require Import Base Num PyNum Numpy LoadCase OrdFacts LoadFacts LoadSpec LoadProofs
  FloatRound FloatOps FloatSpec FloatFacts FloatBeam FloatTableSpec.
Import ListNotations.
Open Scope R_scope.

Lemma unit_fin x : double x -> nleb (fl 0 1) x = true -> nleb x (fl 1 1) = true ->
  exists f, x = PFlt f /\ fin64 f /\ 0 <= sfR f <= 1.
Proof.
  intros (f & -> & V) L U. assert (F : fin64 f).
  { destruct (valid_cases f V) as [H|[([] & ->)| ->]]; auto; [vm_compute in L|vm_compute in U|vm_compute in L]; discriminate. }
  exists f. split; auto. split; auto. rewrite fl_zero in L. rewrite one_fin in U. split.
  - now apply (fle_R (S754_zero false) f) in L.
  - apply (fle_R f (S754_finite false 4503599627370496 (-52))) in U; auto; [|reflexivity]. now rewrite one_val in U.
Qed.

(** The sign of a rounded difference is the sign of the difference. *)
Lemma diff_sign f g : fin64 f -> fin64 g -> nleb (nint 0) (nsub (PFlt g) (PFlt f)) = nleb (PFlt f) (PFlt g).
Proof.
  intros F G. change (nsub (PFlt g) (PFlt f)) with (PFlt (SFsub f64 e64 g f)).
  destruct (Rle_lt_dec (sfR f) (sfR g)) as [L|L].
  - transitivity true; [|symmetry; now apply fle_R].
    assert (H : fle (S754_zero false) (SFsub f64 e64 g f) = true).
    { eapply rounds_mono; [apply (rounds_self (S754_zero false)); reflexivity|apply sub_rounds; auto|]. cbn [sfR]. lra. }
    unfold fle in H. cbn [nleb PNum]. eapply ext_trans; [|exact H]. reflexivity.
  - transitivity false.
    + pose proof (lt_zero_tiny _ (sub_negative g f G F L)) as Q. cbn [nltb nleb PNum] in *. unfold py_ltb in Q.
      apply andb_true_iff in Q. destruct Q as [_ Q]. now apply negb_true_iff in Q.
    + symmetry. destruct (nleb (PFlt f) (PFlt g)) eqn:E; auto. apply (fle_R f g F G) in E. lra.
Qed.

Lemma double_float x : double x -> nisfloat x = true.
Proof. intros (f & -> & _). reflexivity. Qed.

Lemma np_table_doubles rows : Forall double_row rows -> np_table rows = rows.
Proof.
  intros H. unfold np_table. destruct (existsb _ rows); auto.
  rewrite <- (map_id rows) at 2. apply map_ext_in. intros r Hr. rewrite Forall_forall in H. specialize (H r Hr).
  unfold double_row, seven in H. destruct r as [p a b c d e f]. cbn in *. unfold lrow_map. cbn.
  repeat match goal with H : Forall double (_ :: _) |- _ => apply Forall_cons_iff in H; destruct H end.
  f_equal; match goal with |- PFlt (tofl ?x) = _ => change (nfloat x = x) end;
    apply (ord_float (ok := Pok)); now apply double_float.
Qed.

Lemma diffs_double rows : Forall double_row rows ->
  Forall (fun r => nleb (fl 0 1) (lpos r) = true /\ nleb (lpos r) (fl 1 1) = true) rows ->
  forallb (fun d => nleb (nint 0) d) (np_diff (map lpos rows)) = true <->
  StronglySorted (fun a b => nleb (lpos a) (lpos b) = true) rows.
Proof.
  intros D U. assert (K : Sorted (fun a b => nleb (lpos a) (lpos b) = true) rows <->
    StronglySorted (fun a b => nleb (lpos a) (lpos b) = true) rows).
  { split; [|apply StronglySorted_Sorted]. apply Sorted_StronglySorted. intros x y z. apply ext_trans. }
  rewrite <- K. clear K. induction rows as [|a rows IH]; [split; auto; constructor|].
  apply Forall_cons_iff in D. destruct D as [Da D]. apply Forall_cons_iff in U. destruct U as [Ua U].
  specialize (IH D U). destruct rows as [|b rows].
  { split; [repeat constructor|]. intros _. reflexivity. }
  change (map lpos (a :: b :: rows)) with (lpos a :: lpos b :: map lpos rows).
  change (map lpos (b :: rows)) with (lpos b :: map lpos rows) in IH. cbn [np_diff forallb] in *.
  rewrite andb_true_iff. apply Forall_cons_iff in D. destruct D as [Db _]. apply Forall_cons_iff in U. destruct U as [Ub _].
  assert (P : forall r, double_row r -> double (lpos r)) by (intros r Hr; now inversion Hr).
  destruct (unit_fin (lpos a) (P a Da) (proj1 Ua) (proj2 Ua)) as (f & Ef & Ff & _).
  destruct (unit_fin (lpos b) (P b Db) (proj1 Ub) (proj2 Ub)) as (g & Eg & Fg & _).
  assert (S : nleb (nint 0) (nsub (lpos b) (lpos a)) = nleb (lpos a) (lpos b)) by (rewrite Ef, Eg; now apply diff_sign).
  rewrite S. split.
  - intros [A B]. constructor; [now apply IH|]. now constructor.
  - intros H. inversion H as [|? ? H1 H2]; subst. inversion H2; subst. split; auto. now apply IH.
Qed.

Lemma check_double rows : Forall double_row rows ->
  (check_positions rows = Ok (Some rows) /\ well_formed_double rows) \/
  (check_positions rows = Err AssertionError /\ ~ well_formed_double rows).
Proof.
  intros D. unfold check_positions. cbv zeta.
  destruct (forallb (fun p => nleb p (nflt 1 1)) (map lpos rows) && forallb (fun p => nleb (nflt 0 1) p) (map lpos rows)) eqn:E.
  - assert (U : Forall (fun r => nleb (fl 0 1) (lpos r) = true /\ nleb (lpos r) (fl 1 1) = true) rows).
    { apply andb_true_iff in E. destruct E as [E1 E2]. rewrite forallb_forall in E1, E2. apply Forall_forall. intros r Hr.
      split; [apply E2|apply E1]; now apply in_map. }
    pose proof (diffs_double rows D U) as K. destruct (forallb _ (np_diff _)); cbn [negb].
    + left. split; auto. split; auto. now apply K.
    + right. split; auto. intros [_ H]. apply K in H. discriminate.
  - right. split; [destruct (forallb _ (np_diff _)); reflexivity|]. intros [H _].
    apply andb_false_iff in E. rewrite Forall_forall in H.
    destruct E as [E|E]; [assert (X : forallb (fun p => nleb p (nflt 1 1)) (map lpos rows) = true)
      |assert (X : forallb (fun p => nleb (nflt 0 1) p) (map lpos rows) = true)]; try congruence;
      apply forallb_forall; intros p Hp; apply in_map_iff in Hp; destruct Hp as (r & <- & Hr); now apply H.
Qed.

Lemma C141_accept inp rows : table_of inp rows -> Forall double_row rows ->
  (load_case inp = Ok (Some rows) /\ well_formed_double rows) \/
  (load_case inp = Err AssertionError /\ ~ well_formed_double rows).
Proof.
  intros H D. assert (E : load_case inp = check_positions rows).
  { destruct H as [r|r rs|].
    - transitivity (check_positions (np_table [r])); [|now rewrite (np_table_doubles [r] D)]. now destruct r.
    - transitivity (check_positions (np_table (r :: rs))); [|now rewrite (np_table_doubles (r :: rs) D)]. cbn [load_case map].
      assert (F : forallb (fun l => Nat.eqb (List.length l) (List.length (seven r))) (map seven rs) = true).
      { clear. apply forallb_forall. intros l Hl. apply in_map_iff in Hl. destruct Hl as (q & <- & _). now destruct q, r. }
      match goal with |- (if ?c then _ else _) = _ => replace c with true by (symmetry; exact F) end. change (seven r :: map seven rs) with (map seven (r :: rs)).
      assert (G : forall l : list (lrow pynum), rows_of_lists (map seven l) = Some l).
      { induction l as [|q l IH]; auto. cbn [map rows_of_lists]. rewrite IH. now destruct q. }
      now rewrite G.
    - reflexivity. }
  rewrite E. now apply check_double.
Qed.
