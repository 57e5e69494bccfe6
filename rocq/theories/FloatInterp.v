(** Interpolation between stored rows on doubles. *)

From Coq Require Import ZArith Reals Lra Lia Bool List Sorted Floats.SpecFloat.
From Verif Require Import Base Num PyNum OrdFacts Numpy LoadCase LoadSpec LoadFacts LoadProofs
  FloatSpec FloatRound FloatOps FloatFacts.
Import ListNotations.

(** * The value between two stored rows, for any numbers with an order *)
Section Between.
Context {T : Type} {NT : Num T} {ok : T -> Prop} {NO : NumOrd T ok}.

Lemma lt_le x y : ok x -> ok y -> nltb x y = true -> nleb x y = true.
Proof.
  intros Hx Hy H. rewrite ord_lt in H by auto. destruct (ord_total x y Hx Hy) as [E|E]; auto.
  rewrite E in H. discriminate.
Qed.
Lemma le_lt x y z : ok x -> ok y -> ok z -> nleb x y = true -> nltb y z = true -> nltb x z = true.
Proof.
  intros Hx Hy Hz A B. rewrite ord_lt in * by auto. destruct (nleb z x) eqn:E; auto.
  rewrite (ord_trans z x y) in B by auto. discriminate.
Qed.
Lemma lt_lt x y z : ok x -> ok y -> ok z -> nltb x y = true -> nleb y z = true -> nltb x z = true.
Proof.
  intros Hx Hy Hz A B. rewrite ord_lt in * by auto. destruct (nleb z x) eqn:E; auto.
  rewrite (ord_trans y z x) in A by auto. discriminate.
Qed.
Lemma lt_ne x y : ok x -> ok y -> nltb x y = true -> neqb x y = false /\ neqb y x = false.
Proof.
  intros Hx Hy H. rewrite ord_lt in H by auto. apply negb_true_iff in H.
  rewrite !ord_eq by auto. rewrite H. now rewrite andb_false_r.
Qed.
Lemma lt_no_le x y : ok x -> ok y -> nltb x y = true -> nleb y x = false.
Proof. intros Hx Hy H. rewrite ord_lt in H by auto. now apply negb_true_iff. Qed.
Lemma lt_no_lt x y : ok x -> ok y -> nltb x y = true -> nltb y x = false.
Proof. intros Hx Hy H. rewrite ord_lt by auto. rewrite (lt_le x y) by auto. reflexivity. Qed.

Definition between_value (c : comp) (r1 r2 : lrow T) (p : T) : T :=
  nadd (nmul (ndiv (nsub (lcomp c r2) (lcomp c r1)) (nsub (lpos r2) (lpos r1))) (nsub p (lpos r1))) (lcomp c r1).

Lemma interp_from_between c l r1 r2 l' p : forall r,
  Forall (row_ok (ok := ok)) (r :: l ++ r1 :: r2 :: l') -> sorted lpos (r :: l ++ r1 :: r2 :: l') ->
  ok p -> nltb (lpos r1) p = true -> nltb p (lpos r2) = true ->
  interp_from p (lpos r) (lcomp c r) (map (fun r => (lpos r, lcomp c r)) (l ++ r1 :: r2 :: l')) None
  = between_value c r1 r2 p.
Proof.
  induction l as [|q l IH]; intros r F S Hp A B.
  - apply Forall_inv_tail in F. pose proof (Forall_inv F) as (O1 & _).
    pose proof (Forall_inv (Forall_inv_tail F)) as (O2 & _).
    cbn [app map interp_from]. rewrite (lt_le _ _ O1 Hp A).
    rewrite (lt_no_le _ _ Hp O2 B). rewrite (proj1 (lt_ne _ _ O1 Hp A)). reflexivity.
  - cbn [app map interp_from]. apply Forall_inv_tail in F. apply StronglySorted_inv in S. destruct S as (S & _).
    assert (L : nleb (lpos q) p = true).
    { pose proof (Forall_inv F) as (Oq & _). cbn [app] in S. apply StronglySorted_inv in S.
      destruct S as (_ & S). rewrite Forall_forall in S, F. assert (I : In r1 (l ++ r1 :: r2 :: l')) by (apply in_or_app; cbn; auto).
      destruct (F r1 ltac:(cbn; right; exact I)) as (O1 & _). specialize (S r1 I).
      apply ord_trans with (lpos r1); auto. now apply lt_le. }
    rewrite L. apply IH; auto.
Qed.

Lemma between_load qs rows l r1 r2 l' p c :
  any_argsort qs -> Forall (row_ok (ok := ok)) rows -> sorted lpos rows ->
  rows = l ++ r1 :: r2 :: l' -> ok p -> nltb (lpos r1) p = true -> nltb p (lpos r2) = true ->
  get_load qs (Some rows) (PosNum p) None (CEnum c) = Ok (Some [(p, [Some (between_value c r1 r2 p)])]).
Proof.
  intros Hq F S E Hp A B. rewrite (get_load_num (ok := ok) qs rows p (CEnum c) [c]); auto; try discriminate;
    [|split; auto|subst; destruct l; discriminate].
  assert (O1 : ok (lpos r1) /\ ok (lpos r2)).
  { rewrite Forall_forall in F. subst rows. split; apply F; apply in_or_app; cbn; auto. }
  destruct O1 as (O1 & O2). unfold block.
  assert (NS : py_in p (map lpos rows) = false).
  { apply (not_stored (ok := ok)); auto. intros r Hr. pose proof F as F0. rewrite Forall_forall in F0.
    destruct (F0 r Hr) as (Or & _). subst rows. apply in_app_or in Hr. destruct Hr as [Hr|Hr].
    - assert (nleb (lpos r) (lpos r1) = true).
      { clear - S Hr. induction l as [|q l IH]; [contradiction|]. cbn [app] in S. apply StronglySorted_inv in S.
        destruct S as (S & Fq). destruct Hr as [<-|Hr]; auto. rewrite Forall_forall in Fq. apply Fq.
        apply in_or_app. cbn. auto. }
      refine (proj1 (lt_ne _ _ Or Hp _)). apply le_lt with (lpos r1); auto.
    - destruct Hr as [<-|Hr]; [exact (proj1 (lt_ne _ _ O1 Hp A))|].
      assert (S2 : sorted lpos (r2 :: l')).
      { clear - S. induction l; cbn [app] in S; apply StronglySorted_inv in S; destruct S as [S _]; auto. }
      apply StronglySorted_inv in S2. destruct S2 as [_ F2]. rewrite Forall_forall in F2.
      destruct Hr as [<-|Hr]; [exact (proj2 (lt_ne _ _ Hp O2 B))|]. refine (proj2 (lt_ne _ _ Hp Or _)).
      apply lt_lt with (lpos r2); auto. now apply F2. }
  rewrite NS. cbn [map]. do 4 f_equal. subst rows. unfold interp_val. destruct l as [|r l].
  - cbn [app]. rewrite (lt_no_lt _ _ O1 Hp A). cbn [map interp_from].
    rewrite (lt_no_le _ _ Hp O2 B), (proj1 (lt_ne _ _ O1 Hp A)). reflexivity.
  - cbn [app]. assert (Or : ok (lpos r)) by (apply (Forall_inv F)).
    assert (L : nleb (lpos r) (lpos r1) = true).
    { cbn [app] in S. apply StronglySorted_inv in S. destruct S as (_ & S). rewrite Forall_forall in S. apply S.
      apply in_or_app. cbn. auto. }
    rewrite (lt_no_lt (lpos r) p) by (auto; now apply le_lt with (lpos r1)).
    rewrite (interp_from_between c l r1 r2 l' p r); auto.
Qed.
End Between.

(** * Doubles *)
Open Scope R_scope.

(** Not on the wrong side of zero: >= 0 for [false], <= 0 for [true]. *)
Definition half (b : bool) (f : spec_float) : Prop :=
  (fin64 f /\ 0 <= signed b (sfR f)) \/ f = S754_infinity b.
(** At most, resp. at least. *)
Definition dle (b : bool) (f g : spec_float) : bool := if b then fle g f else fle f g.

Lemma zero_fin : fin64 (S754_zero false).
Proof. exact I. Qed.

Lemma rounds_half b v f : rounds v f -> 0 <= signed b v -> half b f.
Proof.
  intros H P. destruct (rounds_fin v f H) as [F|(s & ->)].
  - left. split; auto. destruct b; cbn [signed] in *.
    + pose proof (rounds_mono v 0 f (S754_zero false) H (rounds_self _ zero_fin) ltac:(lra)) as M.
      apply (fle_R f (S754_zero false) F zero_fin) in M. cbn [sfR] in M. lra.
    + pose proof (rounds_mono 0 v (S754_zero false) f (rounds_self _ zero_fin) H ltac:(lra)) as M.
      apply (fle_R (S754_zero false) f zero_fin F) in M. cbn [sfR] in M. lra.
  - right. destruct b, s; auto; exfalso; cbn [signed] in P.
    + pose proof (rounds_mono v 0 _ (S754_zero false) H (rounds_self _ zero_fin) ltac:(lra)) as M. discriminate M.
    + pose proof (rounds_mono 0 v (S754_zero false) _ (rounds_self _ zero_fin) H ltac:(lra)) as M. discriminate M.
Qed.

Lemma rounds_dle b v v' f f' : rounds v f -> rounds v' f' -> signed b v <= signed b v' -> dle b f f' = true.
Proof.
  intros H H' L. destruct b; cbn [signed dle] in *; [apply (rounds_mono v' v)|apply (rounds_mono v v')]; auto; lra.
Qed.

Lemma dle_inf b f : f <> S754_nan -> (forall s, f = S754_infinity s -> s = b) -> dle b f (S754_infinity b) = true.
Proof.
  intros N H. destruct f as [s|s| |s c x]; try congruence; [now destruct b, s|rewrite (H s eq_refl); now destruct b|now destruct b, s].
Qed.
Lemma half_inf b f : half b f -> dle b f (S754_infinity b) = true.
Proof.
  intros [(F & _)| ->]; [|now destruct b]. destruct f as [s| | |s c x]; cbn in F; try contradiction; now destruct b.
Qed.

(** The difference of different doubles is not zero. *)
Lemma sub_pos x y : fin64 x -> fin64 y -> sfR x < sfR y -> sfR y - sfR x <= 1 ->
  fin64 (SFsub f64 e64 y x) /\ 0 < sfR (SFsub f64 e64 y x) <= 1.
Proof.
  intros Hx Hy L U. pose proof (sub_rounds y x Hy Hx) as R.
  set (m := S754_finite false 1 (-1074)). assert (Fm : fin64 m) by reflexivity.
  assert (Em : sfR m = bp (-1074)) by (unfold m; cbn [sfR signed]; ring).
  assert (Q : sfR m <= sfR y - sfR x).
  { rewrite Em. assert (K : forall f, fin64 f -> exists q, sfR f = IZR q * bp (-1074)).
    { intros f F. destruct (sfR_quantum f F) as (q & e & E & _ & He).
      exists (q * 2 ^ (e + 1074))%Z. rewrite E, mult_IZR, <- bp_Z by lia. rewrite Rmult_assoc, <- bp_add.
      do 2 f_equal. lia. }
    destruct (K x Hx) as (qx & Ex), (K y Hy) as (qy & Ey). rewrite Ex, Ey in *.
    pose proof (bp_pos (-1074)) as B. assert (qx < qy)%Z.
    { apply lt_IZR. apply Rmult_lt_reg_r with (bp (-1074)); auto. }
    assert (H1 : 1 <= IZR qy - IZR qx) by (rewrite <- minus_IZR; apply IZR_le; lia).
    replace (IZR qy * bp (-1074) - IZR qx * bp (-1074)) with ((IZR qy - IZR qx) * bp (-1074)) by ring.
    replace (bp (-1074)) with (1 * bp (-1074)) at 1 by ring. apply Rmult_le_compat_r; lra. }
  destruct (rounds_between _ _ m (S754_finite false 4503599627370496 (-52)) R Fm eq_refl) as (F & B).
  { rewrite one_val. lra. }
  rewrite one_val, Em in B. pose proof (bp_pos (-1074)). split; auto. lra.
Qed.

Lemma div_half b f g : half b f -> fin64 g -> 0 < sfR g -> half b (SFdiv f64 e64 f g).
Proof.
  intros [(F & P)| ->] G L.
  - apply (rounds_half b (sfR f / sfR g)); [apply div_rounds; auto; lra|].
    assert (0 <= / sfR g) by (left; now apply Rinv_0_lt_compat).
    destruct b; cbn [signed] in *; unfold Rdiv; nra.
  - right. destruct g as [s| | |[] c x]; cbn in G, L; try contradiction; try lra.
    + exfalso. pose proof (finite_small c x G). lra.
    + cbn. now destruct b.
Qed.

Lemma mul_half b f g g' : half b f -> fin64 g -> fin64 g' -> 0 < sfR g -> sfR g <= sfR g' ->
  half b (SFmul f64 e64 f g) /\ dle b (SFmul f64 e64 f g) (SFmul f64 e64 f g') = true.
Proof.
  intros [(F & P)| ->] G G' L M.
  - split.
    + apply (rounds_half b (sfR f * sfR g)); [now apply mul_rounds|]. destruct b; cbn [signed] in *; nra.
    + apply (rounds_dle b (sfR f * sfR g) (sfR f * sfR g')); [now apply mul_rounds|now apply mul_rounds|].
      destruct b; cbn [signed] in *; nra.
  - assert (K : forall h, fin64 h -> 0 < sfR h -> SFmul f64 e64 (S754_infinity b) h = S754_infinity b).
    { intros h Hh Lh. destruct h as [s| | |[] c x]; cbn in Hh, Lh; try contradiction; try lra.
      - exfalso. pose proof (finite_small c x Hh). lra.
      - cbn. now destruct b. }
    rewrite !K by (auto; lra). split; [now right|now destruct b].
Qed.

Lemma dle_val b f g : fin64 f -> fin64 g -> dle b f g = true <-> signed b (sfR f) <= signed b (sfR g).
Proof.
  intros F G. destruct b; cbn [dle signed]; rewrite fle_R by auto; lra.
Qed.

Lemma add_half b f f' y : half b f -> half b f' -> dle b f f' = true -> fin64 y ->
  dle b y (SFadd f64 e64 f y) = true /\ dle b (SFadd f64 e64 f y) (SFadd f64 e64 f' y) = true.
Proof.
  intros H H' L Y.
  assert (K : SFadd f64 e64 (S754_infinity b) y = S754_infinity b).
  { destruct y as [s| | |s c x]; cbn in Y; try contradiction; reflexivity. }
  assert (A : forall g, half b g -> dle b y (SFadd f64 e64 g y) = true).
  { intros g [(G & P)| ->].
    - apply (rounds_dle b (sfR y) (sfR g + sfR y)); [now apply rounds_self|now apply add_rounds|].
      destruct b; cbn [signed] in *; lra.
    - rewrite K. destruct y as [s| | |s c x]; cbn in Y; try contradiction; now destruct b. }
  assert (B : forall g, half b g -> dle b (SFadd f64 e64 g y) (S754_infinity b) = true).
  { intros g Hg. pose proof (A g Hg) as A1. destruct Hg as [(G & _)| ->]; [|rewrite K; now destruct b].
    pose proof (add_rounds g y G Y) as R. apply dle_inf; [now apply rounds_nan in R|].
    intros s E. rewrite E in A1. destruct y as [s'| | |s' c x]; cbn in Y; try contradiction; destruct b, s; auto; discriminate A1. }
  split; [now apply A|]. destruct H' as [(F' & P')| ->]; [|rewrite K; now apply B].
  destruct H as [(F & P)| ->].
  - apply (rounds_dle b (sfR f + sfR y) (sfR f' + sfR y)); [now apply add_rounds|now apply add_rounds|].
    apply dle_val in L; auto. destruct b; cbn [signed] in *; lra.
  - exfalso. destruct f' as [s'| | |s' c x]; cbn in F'; try contradiction; destruct b; discriminate L.
Qed.

(** The interpolated value moves from the left value towards the right one. *)
Lemma between_dle b x1 x2 y1 y2 p p' :
  fin64 x1 -> fin64 x2 -> fin64 y1 -> fin64 y2 -> fin64 p -> fin64 p' ->
  sfR x1 < sfR p -> sfR p <= sfR p' -> sfR p' < sfR x2 -> sfR x2 - sfR x1 <= 1 ->
  signed b (sfR y1) <= signed b (sfR y2) ->
  let v q := SFadd f64 e64 (SFmul f64 e64 (SFdiv f64 e64 (SFsub f64 e64 y2 y1) (SFsub f64 e64 x2 x1))
               (SFsub f64 e64 q x1)) y1 in
  dle b y1 (v p) = true /\ dle b (v p) (v p') = true.
Proof.
  intros X1 X2 Y1 Y2 P P' L1 L2 L3 U L v.
  destruct (sub_pos x1 x2 X1 X2) as (Fx & Bx); try lra.
  destruct (sub_pos x1 p X1 P) as (Fp & Bp); try lra.
  destruct (sub_pos x1 p' X1 P') as (Fp' & Bp'); try lra.
  assert (D : half b (SFsub f64 e64 y2 y1)).
  { apply (rounds_half b (sfR y2 - sfR y1)); [now apply sub_rounds|]. destruct b; cbn [signed] in *; lra. }
  assert (S : half b (SFdiv f64 e64 (SFsub f64 e64 y2 y1) (SFsub f64 e64 x2 x1))) by (apply div_half; auto; lra).
  assert (LL : sfR (SFsub f64 e64 p x1) <= sfR (SFsub f64 e64 p' x1)).
  { apply fle_R; auto. apply (rounds_mono (sfR p - sfR x1) (sfR p' - sfR x1)); try now apply sub_rounds. lra. }
  destruct (mul_half b _ _ _ S Fp Fp' ltac:(lra) LL) as (M1 & M2).
  destruct (mul_half b _ _ _ S Fp' Fp' ltac:(lra) ltac:(lra)) as (M1' & _).
  apply add_half; auto.
Qed.

Lemma unit_fin x : unit_double x -> exists f, x = PFlt f /\ fin64 f /\ 0 <= sfR f <= 1.
Proof.
  intros (F & A & B). apply finite_double_fin in F. destruct F as (f & -> & F). exists f. split; auto. split; auto.
  rewrite fl_zero in A. rewrite one_fin in B.
  apply (fle_R (S754_zero false) f zero_fin F) in A. cbn [sfR] in A.
  apply (fle_R f (S754_finite false 4503599627370496 (-52)) F eq_refl) in B. rewrite one_val in B. lra.
Qed.

Lemma flt_R f g : fin64 f -> fin64 g -> py_ltb (PFlt f) (PFlt g) = true -> sfR f < sfR g.
Proof.
  intros F G H. apply Rnot_le_lt. intros L. apply (fle_R g f G F) in L. unfold fle in L.
  unfold py_ltb in H. rewrite L in H. rewrite andb_false_r in H. discriminate H.
Qed.

Lemma finite_rows rows : Forall (fun r => unit_double (lpos r) /\ forall c, finite_double (load_of c r)) rows ->
  Forall (row_ok (ok := Pok)) rows.
Proof.
  apply Forall_impl. intros r (A & B). split.
  - destruct (unit_fin _ A) as (f & -> & F & _). destruct f; cbn in *; auto.
  - intros c. specialize (B c). destruct B as ((f & E & _) & _).
    replace (lcomp c r) with (load_of c r) by (now destruct c). now rewrite E.
Qed.

Lemma between_monotone qs rows l r1 r2 l' p p' c :
  any_argsort qs ->
  Forall (fun r => unit_double (lpos r) /\ forall c, finite_double (load_of c r)) rows ->
  StronglySorted (fun a b => nleb (lpos a) (lpos b) = true) rows ->
  rows = l ++ r1 :: r2 :: l' -> finite_double p -> finite_double p' ->
  nltb (lpos r1) p = true -> nleb p p' = true -> nltb p' (lpos r2) = true ->
  exists v v',
  get_load qs (Some rows) (PosNum p) None (CEnum c) = Ok (Some [(p, [Some v])])
  /\ get_load qs (Some rows) (PosNum p') None (CEnum c) = Ok (Some [(p', [Some v'])])
  /\ (nleb (load_of c r1) (load_of c r2) = true -> nleb (load_of c r1) v = true /\ nleb v v' = true)
  /\ (nleb (load_of c r2) (load_of c r1) = true -> nleb v (load_of c r1) = true /\ nleb v' v = true).
Proof.
  intros Hq F S E P P' A M B.
  assert (F12 : (unit_double (lpos r1) /\ finite_double (load_of c r1))
              /\ (unit_double (lpos r2) /\ finite_double (load_of c r2))).
  { rewrite Forall_forall in F. subst rows.
    destruct (F r1 ltac:(apply in_or_app; cbn; auto)), (F r2 ltac:(apply in_or_app; cbn; auto)). auto. }
  destruct F12 as ((U1 & D1) & (U2 & D2)).
  pose proof (finite_rows rows F) as Fr.
  assert (Ok1 : forall x, finite_double x -> Pok x).
  { intros x Hx. apply finite_double_fin in Hx. destruct Hx as (f & -> & Hf). destruct f; cbn in *; auto. }
  assert (O1 : Pok (lpos r1)) by apply Ok1, U1. assert (O2 : Pok (lpos r2)) by apply Ok1, U2.
  assert (B1 : nltb p (lpos r2) = true) by (apply (le_lt (ok := Pok)) with p'; auto).
  assert (A1 : nltb (lpos r1) p' = true) by (apply (lt_lt (ok := Pok)) with p; auto).
  exists (between_value c r1 r2 p), (between_value c r1 r2 p').
  split; [apply (between_load (ok := Pok) qs rows l r1 r2 l'); auto|].
  split; [apply (between_load (ok := Pok) qs rows l r1 r2 l'); auto|].
  unfold between_value. replace (lcomp c r1) with (load_of c r1) by (now destruct c).
  replace (lcomp c r2) with (load_of c r2) by (now destruct c).
  apply finite_double_fin in P, P', D1, D2. destruct P as (fp & -> & P), P' as (fp' & -> & P').
  destruct D1 as (y1 & -> & Y1), D2 as (y2 & -> & Y2).
  destruct (unit_fin _ U1) as (x1 & E1 & X1 & R1), (unit_fin _ U2) as (x2 & E2 & X2 & R2).
  rewrite E1, E2 in *. cbn [nltb nleb PNum] in *.
  apply flt_R in A; auto. apply flt_R in B; auto. apply (fle_R fp fp' P P') in M.
  cbn [nadd nmul ndiv nsub PNum arith2 tofl].
  split; intros L.
  - apply (fle_R y1 y2 Y1 Y2) in L.
    exact (between_dle false x1 x2 y1 y2 fp fp' X1 X2 Y1 Y2 P P' A M B ltac:(lra) L).
  - apply (fle_R y2 y1 Y2 Y1) in L.
    exact (between_dle true x1 x2 y1 y2 fp fp' X1 X2 Y1 Y2 P P' A M B ltac:(lra) ltac:(cbn [signed]; lra)).
Qed.

(** * When the value stays between the stored ones *)

Lemma dyadic_R f n k : fin64 f -> dyadic (PFlt f) n k -> sfR f = IZR n * bp k.
Proof.
  intros F (A & B). destruct f as [s| | |s c x]; cbn in F; try contradiction; cbn [to_ext] in A, B;
    apply ext_leb_R in A, B; cbn [sfR]; try rewrite signed_Z in *; rewrite ?Rmult_0_l in *; lra.
Qed.

Lemma between_inside b x1 x2 y1 y2 p h :
  fin64 x1 -> fin64 x2 -> fin64 y1 -> fin64 y2 -> fin64 p ->
  sfR x1 < sfR p -> sfR p < sfR x2 -> sfR x2 - sfR x1 <= 1 ->
  signed b (sfR y1) <= signed b (sfR y2) -> same_steps (PFlt y1) (PFlt y2) ->
  (0 <= h <= 60)%Z -> dyadic (PFlt (SFsub f64 e64 x2 x1)) 1 (- h) ->
  let v := SFadd f64 e64 (SFmul f64 e64 (SFdiv f64 e64 (SFsub f64 e64 y2 y1) (SFsub f64 e64 x2 x1))
               (SFsub f64 e64 p x1)) y1 in
  fin64 v /\ signed b (sfR y1) <= signed b (sfR v) <= signed b (sfR y2).
Proof.
  intros X1 X2 Y1 Y2 P L1 L2 U L (k & n1 & n2 & Hk & D1 & D2 & Hn) Hh Dx v.
  destruct (sub_pos x1 x2 X1 X2) as (Fx & Bx); try lra.
  destruct (sub_pos x1 p X1 P) as (Fp & Bp); try lra.
  apply dyadic_R in D1, D2, Dx; auto. rewrite Rmult_1_l in Dx.
  assert (S53 : forall z e, (Z.abs z <= 2 ^ 53)%Z -> (e <= 970)%Z -> Rabs (IZR z * bp e) < bp 1024).
  { intros z e Hz He. rewrite Rabs_mult, (Rabs_right (bp e)) by (left; apply bp_pos).
    apply Rle_lt_trans with (bp 53 * bp 970).
    - apply Rmult_le_compat; try apply Rabs_pos; try (left; apply bp_pos).
      + rewrite <- abs_IZR, bp_Z by lia. now apply IZR_le.
      + now apply bp_le.
    - rewrite <- bp_add. apply bp_lt. lia. }
  assert (Dy : sfR y2 - sfR y1 = IZR (n2 - n1) * bp k) by (rewrite D1, D2, minus_IZR; ring).
  pose proof (sub_rounds y2 y1 Y2 Y1) as R. rewrite Dy in R.
  apply rounds_exact in R; try lia; [|apply S53; lia].
  destruct R as (Fd & Ed). set (dy := SFsub f64 e64 y2 y1) in *. set (dx := SFsub f64 e64 x2 x1) in *.
  pose proof (bp_pos (- h)) as Ph.
  pose proof (div_rounds dy dx Fd Fx ltac:(lra)) as R. rewrite Ed, Dx in R.
  assert (Eq : IZR (n2 - n1) * bp k / bp (- h) = IZR (n2 - n1) * bp (k + h)).
  { rewrite bp_add. replace k with (k + h + - h)%Z at 1 by lia. rewrite !bp_add. field. lra. }
  rewrite Eq in R. apply rounds_exact in R; try lia; [|apply S53; lia].
  destruct R as (Fs & Es). set (s := SFdiv f64 e64 dy dx) in *.
  set (t := SFsub f64 e64 p x1) in *.
  assert (Lt : sfR t <= sfR dx).
  { apply fle_R; auto. apply (rounds_mono (sfR p - sfR x1) (sfR x2 - sfR x1)); try now apply sub_rounds. lra. }
  assert (Sd : sfR s * sfR dx = sfR dy).
  { rewrite Es, Dx, Ed. rewrite Rmult_assoc, <- bp_add. do 2 f_equal. lia. }
  assert (Nd : 0 <= signed b (sfR dy)) by (rewrite Ed, <- Dy; destruct b; cbn [signed] in *; lra).
  assert (Ns : 0 <= signed b (sfR s)).
  { apply Rmult_le_reg_r with (sfR dx); [lra|]. rewrite Rmult_0_l.
    replace (signed b (sfR s) * sfR dx) with (signed b (sfR dy)); auto. rewrite <- Sd. destruct b; cbn [signed]; ring. }
  assert (Bm : 0 <= signed b (sfR s * sfR t) <= signed b (sfR dy)).
  { rewrite <- Sd. destruct b; cbn [signed] in *; nra. }
  pose proof (mul_rounds s t Fs Fp) as R. set (m := SFmul f64 e64 s t) in *.
  assert (Fm : fin64 m /\ 0 <= signed b (sfR m) <= signed b (sfR dy)).
  { destruct b; cbn [signed] in *.
    - destruct (rounds_between _ _ dy (S754_zero false) R Fd zero_fin) as (F & B); [cbn [sfR]; lra|].
      cbn [sfR] in B. split; auto. lra.
    - destruct (rounds_between _ _ (S754_zero false) dy R zero_fin Fd) as (F & B); [cbn [sfR]; lra|].
      cbn [sfR] in B. split; auto. }
  destruct Fm as (Fm & Bm'). clear R. pose proof (add_rounds m y1 Fm Y1) as R. fold v in R.
  rewrite Ed, <- Dy in Bm'.
  destruct b; cbn [signed] in *.
  - destruct (rounds_between _ _ y2 y1 R Y2 Y1) as (F & B); [lra|]. split; auto. lra.
  - destruct (rounds_between _ _ y1 y2 R Y1 Y2) as (F & B); [lra|]. split; auto.
Qed.

Lemma between_stays qs rows l r1 r2 l' p c h :
  any_argsort qs ->
  Forall (fun r => unit_double (lpos r) /\ forall c, finite_double (load_of c r)) rows ->
  StronglySorted (fun a b => nleb (lpos a) (lpos b) = true) rows ->
  rows = l ++ r1 :: r2 :: l' -> finite_double p ->
  nltb (lpos r1) p = true -> nltb p (lpos r2) = true ->
  (0 <= h <= 60)%Z -> dyadic (nsub (lpos r2) (lpos r1)) 1 (- h) ->
  same_steps (load_of c r1) (load_of c r2) ->
  exists v, get_load qs (Some rows) (PosNum p) None (CEnum c) = Ok (Some [(p, [Some v])])
  /\ between (load_of c r1) (load_of c r2) v.
Proof.
  intros Hq F S E P A B Hh Dx St.
  assert (F12 : (unit_double (lpos r1) /\ finite_double (load_of c r1))
              /\ (unit_double (lpos r2) /\ finite_double (load_of c r2))).
  { rewrite Forall_forall in F. subst rows.
    destruct (F r1 ltac:(apply in_or_app; cbn; auto)), (F r2 ltac:(apply in_or_app; cbn; auto)). auto. }
  destruct F12 as ((U1 & D1) & (U2 & D2)).
  pose proof (finite_rows rows F) as Fr.
  assert (Op : Pok p).
  { apply finite_double_fin in P. destruct P as (f & -> & Hf). destruct f; cbn in *; auto. }
  exists (between_value c r1 r2 p).
  split; [apply (between_load (ok := Pok) qs rows l r1 r2 l'); auto|].
  unfold between_value. replace (lcomp c r1) with (load_of c r1) by (now destruct c).
  replace (lcomp c r2) with (load_of c r2) by (now destruct c).
  apply finite_double_fin in P, D1, D2. destruct P as (fp & -> & P).
  destruct D1 as (y1 & E1 & Y1), D2 as (y2 & E2 & Y2). rewrite E1, E2 in *.
  destruct (unit_fin _ U1) as (x1 & G1 & X1 & R1), (unit_fin _ U2) as (x2 & G2 & X2 & R2).
  rewrite G1, G2 in *. cbn [nltb nleb PNum] in *.
  apply flt_R in A; auto. apply flt_R in B; auto.
  cbn [nadd nmul ndiv nsub PNum arith2 tofl] in *. unfold between. cbn [nleb PNum].
  destruct (Rle_lt_dec (sfR y1) (sfR y2)) as [L|L].
  - destruct (between_inside false x1 x2 y1 y2 fp h X1 X2 Y1 Y2 P A B ltac:(lra) L St Hh Dx) as (Fv & Bv).
    cbn [signed] in Bv. left. split; apply fle_R; auto; lra.
  - destruct (between_inside true x1 x2 y1 y2 fp h X1 X2 Y1 Y2 P A B ltac:(lra) ltac:(cbn [signed]; lra) St Hh Dx) as (Fv & Bv).
    cbn [signed] in Bv. right. split; apply fle_R; auto; lra.
Qed.

(** * Cases *)

(** Tables with only axial forces. *)
Definition axial_row (x n : pynum) : lrow pynum := mk_lrow x (fl 0 1) (fl 0 1) n (fl 0 1) (fl 0 1) (fl 0 1).
Definition seventh_table : list (lrow pynum) := [axial_row (fl 1 7) (fl 0 1); axial_row (fl 6 7) (fl 29 1)].
Definition seventh_point : pynum := fl 857142857142857 1000000000000000.
Definition steep_table : list (lrow pynum) :=
  [axial_row (fl 0 1) (fl 0 1); axial_row (PFlt (S754_finite false 16 (-1074))) (fl 10000000000 1)].
Definition steep_point : pynum := PFlt (S754_finite false 8 (-1074)).
Definition half_table : list (lrow pynum) :=
  [axial_row (fl 0 1) (fl 7 1); axial_row (fl 1 2) (fl 100 1); axial_row (fl 1 1) (fl (-3) 1)].

Lemma double_lit f : valid_binary f64 e64 f = true -> py_isinf (PFlt f) = false -> py_isnan (PFlt f) = false -> finite_double (PFlt f).
Proof. intros V I N. split; [exists f; auto|]. split; auto. Qed.
Ltac lit := apply double_lit; vm_compute; reflexivity.
Lemma axial_ok x n : unit_double x -> finite_double n ->
  unit_double (lpos (axial_row x n)) /\ forall c, finite_double (load_of c (axial_row x n)).
Proof. intros X Y. split; auto. intros []; cbn [load_of lVX lVY lN lMX lMY lT axial_row]; auto; lit. Qed.
Ltac table_lit :=
  repeat (apply Forall_cons; [apply axial_ok; [split; [lit|split; vm_compute; reflexivity]|lit]|]); apply Forall_nil.

Lemma seventh_ok : Forall (fun r => unit_double (lpos r) /\ forall c, finite_double (load_of c r)) seventh_table.
Proof. table_lit. Qed.
Lemma steep_ok : Forall (fun r => unit_double (lpos r) /\ forall c, finite_double (load_of c r)) steep_table.
Proof. table_lit. Qed.
Lemma half_ok : Forall (fun r => unit_double (lpos r) /\ forall c, finite_double (load_of c r)) half_table.
Proof. table_lit. Qed.
Lemma seventh_sorted : StronglySorted (fun a b => nleb (lpos a) (lpos b) = true) seventh_table.
Proof. repeat constructor; vm_compute; reflexivity. Qed.
Lemma half_sorted : StronglySorted (fun a b => nleb (lpos a) (lpos b) = true) half_table.
Proof. repeat constructor; vm_compute; reflexivity. Qed.

Lemma leaves qs : any_argsort qs -> exists v,
  get_load qs (Some seventh_table) (PosNum seventh_point) None (CEnum N) = Ok (Some [(seventh_point, [Some v])])
  /\ nltb (fl 29 1) v = true.
Proof.
  intros Hq. eexists. split.
  - apply (between_load (ok := Pok) qs seventh_table [] (axial_row (fl 1 7) (fl 0 1)) (axial_row (fl 6 7) (fl 29 1)) []);
      [exact Hq|apply finite_rows, seventh_ok|apply seventh_sorted|reflexivity|vm_compute; exact I
      |vm_compute; reflexivity|vm_compute; reflexivity].
  - vm_compute. reflexivity.
Qed.
Lemma steep_infinite qs : any_argsort qs ->
  get_load qs (Some steep_table) (PosNum steep_point) None (CEnum N)
  = Ok (Some [(steep_point, [Some (PFlt (S754_infinity false))])]).
Proof.
  intros Hq. replace (PFlt (S754_infinity false)) with
    (between_value N (axial_row (fl 0 1) (fl 0 1)) (axial_row (PFlt (S754_finite false 16 (-1074))) (fl 10000000000 1)) steep_point)
    by (vm_compute; reflexivity).
  apply (between_load (ok := Pok) qs steep_table [] _ _ []);
    [exact Hq|apply finite_rows, steep_ok|repeat constructor; vm_compute; reflexivity|reflexivity|vm_compute; exact I
    |vm_compute; reflexivity|vm_compute; reflexivity].
Qed.

Lemma leaves_all qs : any_argsort qs ->
  Forall (fun r => unit_double (lpos r) /\ forall c, finite_double (load_of c r)) seventh_table
  /\ Forall (fun r => nleb (load_of N r) (fl 29 1) = true) seventh_table
  /\ exists v,
     get_load qs (Some seventh_table) (PosNum seventh_point) None (CEnum N) = Ok (Some [(seventh_point, [Some v])])
     /\ nltb (fl 29 1) v = true.
Proof.
  intros Hq. split; [apply seventh_ok|]. split; [repeat constructor; vm_compute; reflexivity|now apply leaves].
Qed.
Lemma steep_all qs : any_argsort qs ->
  Forall (fun r => unit_double (lpos r) /\ forall c, finite_double (load_of c r)) steep_table
  /\ get_load qs (Some steep_table) (PosNum steep_point) None (CEnum N)
     = Ok (Some [(steep_point, [Some (PFlt (S754_infinity false))])]).
Proof. intros Hq. split; [apply steep_ok|now apply steep_infinite]. Qed.

Lemma half_case :
  Forall (fun r => unit_double (lpos r) /\ forall c, finite_double (load_of c r)) half_table
  /\ StronglySorted (fun a b => nleb (lpos a) (lpos b) = true) half_table
  /\ half_table = [axial_row (fl 0 1) (fl 7 1)] ++ axial_row (fl 1 2) (fl 100 1) :: axial_row (fl 1 1) (fl (-3) 1) :: []
  /\ finite_double (fl 6 10) /\ finite_double (fl 7 10)
  /\ nltb (fl 1 2) (fl 6 10) = true /\ nleb (fl 6 10) (fl 7 10) = true /\ nltb (fl 7 10) (fl 1 1) = true
  /\ dyadic (nsub (fl 1 1) (fl 1 2)) 1 (-1) /\ same_steps (fl 100 1) (fl (-3) 1).
Proof.
  split; [apply half_ok|]. split; [apply half_sorted|]. split; [reflexivity|].
  split; [lit|]. split; [lit|].
  split; [vm_compute; reflexivity|]. split; [vm_compute; reflexivity|]. split; [vm_compute; reflexivity|].
  split; [split; vm_compute; reflexivity|].
  exists 0%Z, 100%Z, (-3)%Z. split; [lia|]. split; [split; vm_compute; reflexivity|].
  split; [split; vm_compute; reflexivity|]. vm_compute. discriminate.
Qed.
