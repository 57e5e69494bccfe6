(** Proofs about symmetry.py and the effective-width functions. *)

From Coq Require Import Reals Lra Psatz List Bool String PeanoNat Lia.
From Verif Require Import Base Num RNum PyReal Symmetry SectProps S6 S6Torsion.
Import ListNotations.
Open Scope R_scope.

(** * Symmetry *)

Lemma axis_is_iff s a : axis_is s a = true <-> a = AxStr s.
Proof.
  destruct a as [t|x]; cbn.
  - rewrite String.eqb_eq. split; [intros ->; auto|intros H; injection H; auto].
  - split; discriminate.
Qed.

Lemma axis_in_iff s l : axis_in s l = true <-> In (AxStr s) l.
Proof.
  unfold axis_in. rewrite existsb_exists. split.
  - intros (a & Ha & E). apply axis_is_iff in E. now subst.
  - intros H. eexists. split; [exact H|]. now apply axis_is_iff.
Qed.

Lemma axis_is_neq s t : s <> t -> axis_is s (AxStr t) = false.
Proof. intros. cbn. apply String.eqb_neq. auto. Qed.

(** The class as a specification: by cases on the list. *)
Definition point_name (a : axis) : Prop :=
  a = AxStr "point" \/ a = AxStr "Point" \/ a = AxStr "POINT".

Lemma symmetry_spec axes :
  exists c, symmetry (Some axes) = Ok c
  /\ (c = SymDouble <-> axes = [AxStr "x"; AxStr "y"] \/ axes = [AxStr "y"; AxStr "x"])
  /\ (c = SymPoint <-> exists a, axes = [a] /\ point_name a)
  /\ (c = SymSingle <-> exists a, axes = [a] /\ ~ point_name a)
  /\ (c = SymNone <-> List.length axes <> 1%nat
        /\ axes <> [AxStr "x"; AxStr "y"] /\ axes <> [AxStr "y"; AxStr "x"]).
Proof.
  destruct axes as [|a [|b [|d r]]].
  - exists SymNone. split; [reflexivity|].
    split; [split; [discriminate|intros [H|H]; discriminate]|].
    split; [split; [discriminate|intros (a & H & _); discriminate]|].
    split; [split; [discriminate|intros (a & H & _); discriminate]|].
    split; auto. intros _. repeat split; discriminate.
  - unfold symmetry. cbn -[axis_is]. rewrite !orb_false_r.
    destruct (axis_is "point" a || axis_is "Point" a || axis_is "POINT" a) eqn:E.
    + exists SymPoint. split; [reflexivity|].
      rewrite !orb_true_iff, !axis_is_iff in E.
      split; [split; [discriminate|intros [H|H]; discriminate]|].
      split; [split; auto; intros _; exists a; split; auto; unfold point_name; tauto|].
      split; [split; [discriminate|]|].
      * intros (a' & H & N). injection H as <-. exfalso. apply N. unfold point_name. tauto.
      * split; [discriminate|]. cbn. tauto.
    + exists SymSingle. split; [reflexivity|].
      assert (N : ~ point_name a).
      { intros N. assert (axis_is "point" a || axis_is "Point" a || axis_is "POINT" a = true).
        { rewrite !orb_true_iff, !axis_is_iff. unfold point_name in N. tauto. } congruence. }
      split; [split; [discriminate|intros [H|H]; discriminate]|].
      split; [split; [discriminate|]|].
      * intros (a' & H & M). injection H as <-. tauto.
      * split; [split; auto; intros _; eauto|]. split; [discriminate|cbn; tauto].
  - assert (D : axis_in "x" [a; b] && axis_in "y" [a; b] = true <->
       [a; b] = [AxStr "x"; AxStr "y"] \/ [a; b] = [AxStr "y"; AxStr "x"]).
    { rewrite andb_true_iff, !axis_in_iff. cbn [In]. split.
      - intros [[H1|[H1|[]]] [H2|[H2|[]]]]; subst; auto; try discriminate.
      - intros [H|H]; injection H as -> ->; auto. }
    unfold symmetry. cbn [List.length Nat.eqb andb].
    destruct (axis_in "x" [a; b] && axis_in "y" [a; b]) eqn:E.
    + exists SymDouble. split; [reflexivity|]. split; [tauto|].
      split; [split; [discriminate|intros (a' & H & _); discriminate]|].
      split; [split; [discriminate|intros (a' & H & _); discriminate]|].
      split; [discriminate|]. tauto.
    + exists SymNone. split; [reflexivity|].
      assert (N : ~ ([a; b] = [AxStr "x"; AxStr "y"] \/ [a; b] = [AxStr "y"; AxStr "x"])).
      { intros N. apply D in N. congruence. }
      split; [split; [discriminate|tauto]|].
      split; [split; [discriminate|intros (a' & H & _); discriminate]|].
      split; [split; [discriminate|intros (a' & H & _); discriminate]|].
      split; auto. intros _. cbn. split; [lia|tauto].
  - exists SymNone. split; [reflexivity|].
    split; [split; [discriminate|intros [H|H]; discriminate]|].
    split; [split; [discriminate|intros (a' & H & _); discriminate]|].
    split; [split; [discriminate|intros (a' & H & _); discriminate]|].
    split; auto. intros _. repeat split; discriminate.
Qed.

Lemma symcount_spec axes : symcount (Some axes) = Ok (List.length axes).
Proof. reflexivity. Qed.

Lemma sym_without_axes (s : symmetry_t) :
  (s = None <-> symcount s = Err TypeError)
  /\ (s = None <-> symmetry s = Err TypeError)
  /\ (s <> None <-> exists n c, symcount s = Ok n /\ symmetry s = Ok c).
Proof.
  destruct s as [axes|].
  - assert (Hs : exists c, symmetry (Some axes) = Ok c).
    { cbn [symmetry]. repeat match goal with |- context [if ?b then _ else _] => destruct b end;
        eexists; reflexivity. }
    destruct Hs as [c Hc]. rewrite Hc. cbn [symcount]. split; [|split]; split; intros H;
      try discriminate.
    exists (List.length axes), c. split; reflexivity.
  - cbn [symcount symmetry]. split; [|split]; split; intros H; try reflexivity.
    + exfalso. apply H. reflexivity.
    + destruct H as [n [c [H _]]]. discriminate H.
Qed.

(** * Effective widths *)

Lemma b_e_facts b le ley : 0 < b -> 0 < le -> 0 < ley ->
  exists be, s6_2_b_e_flatplate b le ley = Ok be
  /\ 0 < be <= b /\ (be = b <-> le <= ley) /\ (ley <= le -> be = b * ley / le).
Proof.
  intros Hb Hl Hy. unfold s6_2_b_e_flatplate. rstep; [|lra]. rewrite pymin_R.
  eexists. split; [reflexivity|].
  assert (P : 0 < b * (ley / le)) by pos.
  assert (E : b * (ley / le) = b * ley / le) by (field; lra).
  assert (C : ley / le < 1 <-> ley < le).
  { split; intros; [|now apply div_lt_1]. destruct (Rlt_le_dec ley le); auto.
    assert (1 <= ley / le); [|lra].
    apply Rmult_le_reg_r with le; auto. replace (ley / le * le) with ley by (field; lra). lra. }
  unfold Rmin. destruct (Rle_dec _ _) as [L|L].
  - assert (L1 : ley / le <= 1) by nra.
    split; [lra|]. split; [|auto].
    split; intros H.
    + assert (~ ley / le < 1) by nra. lra.
    + assert (~ ley / le < 1) by lra. nra.
  - split; [lra|]. assert (1 < ley / le) by nra. split.
    + split; auto. intros _. assert (~ ley < le) by (rewrite <- C; lra). lra.
    + intros H0. exfalso. destruct H0 as [H0|H0].
      * apply C in H0. lra.
      * subst. replace (le / le) with 1 in * by (field; lra). lra.
Qed.

Lemma d_e_facts d le ley : 0 < d -> 0 < le -> 0 < ley ->
  exists de, s6_2_d_e_CHS d le ley = Ok de
  /\ 0 < de <= d /\ (de = d <-> le <= ley)
  /\ de = Rmin d (Rmin (d * sqrt (ley / le)) (d * (3 * ley / le) ^ 2)).
Proof.
  intros Hd Hl Hy. unfold s6_2_d_e_CHS.
  assert (P : 0 < ley / le) by pos.
  rstep; [|lra]. rstep; [|lra]. rstep; [|lra]. rewrite !pymin_R.
  eexists. split; [reflexivity|].
  assert (S : 0 < sqrt (ley / le)) by pos.
  assert (P3 : 3 * ley / le = 3 * (ley / le)) by (field; lra).
  rewrite P3. set (q := ley / le) in *.
  assert (Q : q < 1 <-> ley < le).
  { unfold q. split; intros; [|now apply div_lt_1]. destruct (Rlt_le_dec ley le); auto.
    assert (1 <= ley / le); [|lra].
    apply Rmult_le_reg_r with le; auto. replace (ley / le * le) with ley by (field; lra). lra. }
  clearbody q.
  assert (P1 : 0 < d * sqrt q) by pos. assert (P2 : 0 < d * (3 * q * (3 * q))) by pos.
  pose proof (sqrt_sqrt q ltac:(lra)) as SS. set (s := sqrt q) in *. clearbody s.
  assert (M : Rmin (Rmin (d * s) (d * (3 * q * (3 * q)))) d
              = Rmin d (Rmin (d * s) (d * (3 * q) ^ 2))).
  { replace ((3 * q) ^ 2) with (3 * q * (3 * q)) by ring.
    unfold Rmin. repeat destruct (Rle_dec _ _); lra. }
  split.
  { split; [repeat apply Rmin_glb_lt; auto|]. apply Rmin_r. }
  split; [|exact M].
  split.
  - intros H. assert (D1 : d <= d * s).
    { rewrite <- H at 1. eapply Rle_trans; [apply Rmin_l|apply Rmin_l]. }
    assert (1 <= s) by nra. assert (1 <= q) by nra.
    assert (~ ley < le) by (rewrite <- Q; lra). lra.
  - intros H. assert (~ ley < le) by lra. assert (1 <= q) by (assert (~ q < 1) by tauto; lra).
    assert (1 <= s). { destruct (Rlt_le_dec s 1); auto. nra. }
    assert (d * 1 <= d * s) by (apply Rmult_le_compat_l; lra).
    assert (d * 1 <= d * (3 * q * (3 * q))) by (apply Rmult_le_compat_l; nra).
    unfold Rmin. repeat destruct (Rle_dec _ _); lra.
Qed.

Lemma A_e_plate_facts b t f_y ley f_ref :
  0 < b -> 0 < t -> 0 < f_y -> 0 < ley -> 0 < f_ref ->
  exists A, s6_2_A_e_flatplate b t f_y ley f_ref = Ok A
  /\ 0 < A <= b * t
  /\ (A = b * t <-> b / t * sqrt (f_y / f_ref) <= ley)
  /\ (ley <= b / t * sqrt (f_y / f_ref) -> A = ley * t ^ 2 / sqrt (f_y / f_ref)).
Proof.
  intros Hb Ht Hf Hl Hr. unfold s6_2_A_e_flatplate, s6_2_lambda_e_flatplate.
  assert (Q : 0 < f_y / f_ref) by pos. assert (S : 0 < sqrt (f_y / f_ref)) by pos.
  do 3 (rstep; [|lra]).
  set (s := sqrt (f_y / f_ref)) in *. clearbody s.
  assert (L : 0 < b / t * s) by pos.
  destruct (b_e_facts b (b / t * s) ley Hb L Hl) as (be & E & B & I & V).
  rewrite E. cbn [bind]. eexists. split; [reflexivity|].
  split; [split; [pos; lra|apply Rmult_le_compat_r; lra]|].
  split.
  - rewrite <- I. split; intros H; [|now rewrite H].
    apply Rmult_eq_reg_r with t; lra.
  - intros H. rewrite (V H). field. lra.
Qed.

Lemma A_e_CHS_fails d t f_y ley f_ref : forall A, s6_2_A_e_CHS d t f_y ley f_ref <> Ok A.
Proof.
  intros A H. unfold s6_2_A_e_CHS in H. inv_bind H. inv_bind H. discriminate.
Qed.

Lemma A_e_CHS_typeerror d t f_y ley f_ref :
  0 < d -> 0 < t -> 0 < f_y -> 0 < ley -> 0 < f_ref ->
  s6_2_A_e_CHS d t f_y ley f_ref = Err TypeError.
Proof.
  intros Hd Ht Hf Hl Hr. unfold s6_2_A_e_CHS, s6_2_lambda_e_CHS.
  do 2 (rstep; [|lra]).
  assert (L : 0 < d / t * (f_y / f_ref)) by pos.
  destruct (d_e_facts d (d / t * (f_y / f_ref)) ley Hd L Hl) as (de & E & _).
  rewrite E. reflexivity.
Qed.

(** The form factor of a plate is in (0, 1]. *)
Lemma k_f_plate b t f_y ley f_ref A :
  0 < b -> 0 < t -> 0 < f_y -> 0 < ley -> 0 < f_ref ->
  s6_2_A_e_flatplate b t f_y ley f_ref = Ok A ->
  exists k, s6_2_k_f_Form_Factor (b * t) A = Ok k /\ 0 < k <= 1.
Proof.
  intros Hb Ht Hf Hl Hr H.
  destruct (A_e_plate_facts b t f_y ley f_ref Hb Ht Hf Hl Hr) as (A' & E & B & _).
  rewrite H in E. injection E as <-. unfold s6_2_k_f_Form_Factor.
  assert (0 < b * t) by pos. rewrite rdiv_ok by lra. eexists. split; [reflexivity|].
  split; [pos; lra|apply div_le_1; lra].
Qed.

Lemma CHS_diameter d t f_y ley f_ref :
  0 < d -> 0 < t -> 0 < f_y -> 0 < ley -> 0 < f_ref ->
  exists le de, s6_2_lambda_e_CHS d t f_y f_ref = Ok le /\ s6_2_d_e_CHS d le ley = Ok de
  /\ 0 < de <= d /\ (de = d <-> d / t * (f_y / f_ref) <= ley).
Proof.
  intros. assert (P : 0 < d / t * (f_y / f_ref)).
  { apply Rmult_lt_0_compat; apply Rdiv_lt_0_compat; auto. }
  destruct (d_e_facts d (d / t * (f_y / f_ref)) ley) as (de & E & B & C & _); auto.
  exists (d / t * (f_y / f_ref)), de. split; [|auto].
  unfold s6_2_lambda_e_CHS. rewrite !rdiv_ok by lra. reflexivity.
Qed.
