(** Rounding error of the formulas of S7, S5 and S6 that involve no cancellation. *)

From Coq Require Import ZArith Reals List Bool Lia Lra Floats.SpecFloat.
From Verif Require Import Base Num PyNum FloatSpec FloatValSpec FloatRound FloatOps FloatFacts FloatError FloatUtil
  FloatUtilSpec FloatCheck FloatCapacity FloatRoot FloatFormulaSpec FloatCalc S5 NumFormulas.
Import ListNotations.
Open Scope R_scope.
Local Opaque SFadd SFsub SFmul SFdiv SFsqrt.

Ltac side := first [lra|lia].

(** ** S7 *)
Section Tension.
Variables (fy fu kt phi au : pynum).
Hypotheses (Mfy : moderate fy) (Mfu : moderate fu) (Mkt : moderate kt) (Mphi : moderate phi) (Mau : moderate au).

Lemma ty_close k e A X : close k e A X -> 0 <= k <= 100 -> (0 <= e <= 500)%Z ->
  close (k + 11 / 10) (e + 60) (ns7_2_N_t_yield A fy) (X * val fy).
Proof.
  intros C K E. apply close_weak with (k + 0 + 11 / 10) (e + 60)%Z; [lra|lia|].
  apply cmul; try side; [exact C|now apply moderate_close].
Qed.

Lemma tu_close k e A X : close k e A X -> 0 <= k <= 100 -> (0 <= e <= 500)%Z ->
  close (k + 33 / 10) (e + 180) (ns7_2_N_t_ultimate A fu kt au) (X * val fu * val kt * val au).
Proof.
  intros C K E. unfold ns7_2_N_t_ultimate.
  apply close_weak with (k + 0 + 11 / 10 + 0 + 11 / 10 + 0 + 11 / 10) (e + 60 + 60 + 60)%Z; [lra|lia|].
  apply cmul; try side; [|now apply moderate_close]. apply cmul; try side; [|now apply moderate_close].
  apply cmul; try side; [exact C|now apply moderate_close].
Qed.

Lemma N_t_close k e Ag An XG XN : close k e Ag XG -> close k e An XN -> 0 <= k <= 100 -> (0 <= e <= 500)%Z ->
  Forall2 (close (k + 44 / 10) (e + 240)) (ns7_1_N_t Ag An fy fu kt phi au)
    [XG * val fy; XN * val fu * val kt * val au; Rmin (XG * val fy) (XN * val fu * val kt * val au);
     XG * val fy * val phi; XN * val fu * val kt * val au * val phi;
     Rmin (XG * val fy) (XN * val fu * val kt * val au) * val phi].
Proof.
  intros CG CN K E. unfold ns7_1_N_t. pose proof (ty_close k e Ag XG CG K E) as Y. pose proof (tu_close k e An XN CN K E) as U.
  assert (Y' : close (k + 33 / 10) (e + 180) (ns7_2_N_t_yield Ag fy) (XG * val fy)) by (apply close_weak with (3 := Y); [lra|lia]).
  pose proof (cmin _ _ _ _ _ _ Y' U ltac:(lra)) as M.
  assert (W : forall x X, close (k + 33 / 10) (e + 180) x X -> close (k + 44 / 10) (e + 240) x X).
  { intros x X C. apply close_weak with (3 := C); [lra|lia]. }
  assert (P : forall x X, close (k + 33 / 10) (e + 180) x X -> close (k + 44 / 10) (e + 240) (nmul x phi) (X * val phi)).
  { intros x X C. apply close_weak with (k + 33 / 10 + 0 + 11 / 10) (e + 180 + 60)%Z; [lra|lia|].
    apply cmul; try side; [exact C|now apply moderate_close]. }
  constructor; [exact (W _ _ Y')|]. constructor; [exact (W _ _ U)|]. constructor; [exact (W _ _ M)|].
  constructor; [exact (P _ _ Y')|]. constructor; [exact (P _ _ U)|]. constructor; [exact (P _ _ M)|constructor].
Qed.

Lemma A_reqd_close N : moderate N -> exists l, ns7_1_A_reqd N fy fu kt phi au = Ok l /\
  Forall2 (close (44 / 10) 300) l
    [val N / val fy; val N / val au / val kt / val fu; Rmax (val N / val fy) (val N / val au / val kt / val fu);
     val N / val fy / val phi; val N / val au / val kt / val fu / val phi;
     Rmax (val N / val fy) (val N / val au / val kt / val fu) / val phi].
Proof.
  intros MN. unfold ns7_1_A_reqd, ns7_2_Ag, ns7_2_An.
  destruct (cdiv _ _ _ _ _ _ _ _ (moderate_close N MN) (moderate_close fy Mfy)) as [-> Cg]; try side. cbn [bind].
  destruct (cdiv _ _ _ _ _ _ _ _ (moderate_close N MN) (moderate_close au Mau)) as [-> C1]; try side. cbn [bind].
  destruct (cdiv _ _ _ _ _ _ _ _ C1 (moderate_close kt Mkt)) as [-> C2]; try side. cbn [bind].
  destruct (cdiv _ _ _ _ _ _ _ _ C2 (moderate_close fu Mfu)) as [-> C3]; try side. cbn [bind].
  assert (CG : close (33 / 10) 240 (ndiv N fy) (val N / val fy)) by (apply close_weak with (3 := Cg); [lra|lia]).
  assert (CN : close (33 / 10) 240 (ndiv (ndiv (ndiv N au) kt) fu) (val N / val au / val kt / val fu)) by (apply close_weak with (3 := C3); [lra|lia]).
  pose proof (cmax _ _ _ _ _ _ CG CN ltac:(lra)) as CM.
  destruct (cdiv _ _ _ _ _ _ _ _ CG (moderate_close phi Mphi)) as [-> P1]; try side. cbn [bind].
  destruct (cdiv _ _ _ _ _ _ _ _ CN (moderate_close phi Mphi)) as [-> P2]; try side. cbn [bind].
  destruct (cdiv _ _ _ _ _ _ _ _ CM (moderate_close phi Mphi)) as [-> P3]; try side. cbn [bind].
  eexists. split; [reflexivity|].
  constructor; [apply close_weak with (3 := CG); [lra|lia]|].
  constructor; [apply close_weak with (3 := CN); [lra|lia]|].
  constructor; [apply close_weak with (3 := CM); [lra|lia]|].
  constructor; [apply close_weak with (3 := P1); [lra|lia]|].
  constructor; [apply close_weak with (3 := P2); [lra|lia]|].
  constructor; [apply close_weak with (3 := P3); [lra|lia]|constructor].
Qed.
End Tension.

Lemma Forall2_imp {A B} (P Q : A -> B -> Prop) l m : (forall a b, P a b -> Q a b) -> Forall2 P l m -> Forall2 Q l m.
Proof. intros H F. induction F; constructor; auto. Qed.

Lemma moderate_pos x : moderate x -> 0 < val x.
Proof. intros M. apply (close_pos _ _ _ _ (moderate_close x M)). Qed.

(** The required area, fed back, carries the load up to rounding. *)
Lemma design_round_trip N fy fu kt phi au : moderate N -> moderate fy -> moderate fu -> moderate kt -> moderate phi -> moderate au ->
  exists ag an a pag pan pa, ns7_1_A_reqd N fy fu kt phi au = Ok [ag; an; a; pag; pan; pa] /\
  exists ty tu n pty ptu pn, ns7_1_N_t pa pa fy fu kt phi au = [ty; tu; n; pty; ptu; pn] /\ accurate 49 pn (val N).
Proof.
  intros MN My Mu Mk Mp Ma. destruct (A_reqd_close fy fu kt phi au My Mu Mk Mp Ma N MN) as (l & E & F).
  inversion F as [|ag ? ? ? _ F1]; subst. inversion F1 as [|an ? ? ? _ F2]; subst. inversion F2 as [|a ? ? ? _ F3]; subst.
  inversion F3 as [|pag ? ? ? _ F4]; subst. inversion F4 as [|pan ? ? ? _ F5]; subst. inversion F5 as [|pa ? ? ? C F6]; subst.
  inversion F6; subst. exists ag, an, a, pag, pan, pa. split; [exact E|].
  pose proof (N_t_close fy fu kt phi au My Mu Mk Mp Ma _ _ pa pa _ _ C C ltac:(lra) ltac:(lia)) as G.
  do 6 eexists. split; [reflexivity|].
  set (A := Rmax (val N / val fy) (val N / val au / val kt / val fu) / val phi) in *.
  inversion G as [|? ? ? ? _ G1]; subst. inversion G1 as [|? ? ? ? _ G2]; subst. inversion G2 as [|? ? ? ? _ G3]; subst.
  inversion G3 as [|? ? ? ? _ G4]; subst. inversion G4 as [|? ? ? ? _ G5]; subst. inversion G5 as [|? ? ? ? G6 _]; subst.
  assert (EA : Rmin (A * val fy) (A * val fu * val kt * val au) * val phi = val N).
  { pose proof (moderate_pos _ MN). pose proof (moderate_pos _ My). pose proof (moderate_pos _ Mu). pose proof (moderate_pos _ Mk).
    pose proof (moderate_pos _ Mp). pose proof (moderate_pos _ Ma). unfold A.
    set (g := val N / val fy). set (h := val N / val au / val kt / val fu).
    set (u := val fu * val kt * val au). assert (0 < u) by (unfold u; repeat apply Rmult_lt_0_compat; lra).
    assert (Eg : g * val fy = val N) by (unfold g; field; lra). assert (Eh : h * u = val N) by (unfold h, u; field; lra).
    replace (Rmax g h / val phi * val fu * val kt * val au) with (Rmax g h * u * / val phi) by (unfold u; field; lra).
    replace (Rmax g h / val phi * val fy) with (Rmax g h * val fy * / val phi) by (field; lra).
    assert (I : 0 < / val phi) by (apply Rinv_0_lt_compat; lra).
    unfold Rmax. destruct (Rle_dec g h) as [L|L].
    - rewrite Eh. assert (g * val fy <= h * val fy) by (apply Rmult_le_compat_r; lra).
      rewrite Rmin_right; [field; lra|]. apply Rmult_le_compat_r; lra.
    - rewrite Eg. assert (h * u <= g * u) by (apply Rmult_le_compat_r; lra).
      rewrite Rmin_left; [field; lra|]. apply Rmult_le_compat_r; lra. }
  rewrite EA in G6. apply (close_units _ _ 4 _ _ G6); [lia|]. cbn. lra.
Qed.

(** ** Shear *)
Lemma vw_generic_close A f s : moderate A -> moderate f -> moderate s ->
  close (22 / 10) 180 (ns5_11_4_V_w_Generic A f s) (val s * val f * val A).
Proof.
  intros. apply close_weak with (0 + 0 + 11 / 10 + 0 + 11 / 10) (60 + 60 + 60)%Z; [lra|lia|].
  apply cmul; try side; [apply cmul; try side|]; now apply moderate_close.
Qed.

Lemma vw_chs_close A f s c : moderate A -> moderate f -> moderate s -> moderate c ->
  close (33 / 10) 240 (ns5_11_4_V_w_CHS A f s c) (val c * (val s * val f) * val A).
Proof.
  intros. apply close_weak with (0 + (0 + 0 + 11 / 10) + 11 / 10 + 0 + 11 / 10) (60 + (60 + 60) + 60)%Z; [lra|lia|].
  apply cmul; try side; [apply cmul; try side|]; try now apply moderate_close.
  apply cmul; try side; now apply moderate_close.
Qed.

Lemma vw_interface_close t f Q I s : moderate t -> moderate f -> moderate Q -> moderate I -> moderate s ->
  exists r, ns5_11_4_V_w_Interface t f Q I s = Ok r /\ close (44 / 10) 300 r (val f * val s * val t * val I / val Q).
Proof.
  intros Mt Mf MQ MI Ms.
  pose proof (cmul _ _ _ _ _ _ _ _ (moderate_close f Mf) (moderate_close s Ms) ltac:(lra) ltac:(lra) ltac:(lia) ltac:(lia) ltac:(lia)) as C1.
  pose proof (cmul _ _ _ _ _ _ _ _ C1 (moderate_close t Mt) ltac:(lra) ltac:(lra) ltac:(lia) ltac:(lia) ltac:(lia)) as C2.
  pose proof (cmul _ _ _ _ _ _ _ _ C2 (moderate_close I MI) ltac:(lra) ltac:(lra) ltac:(lia) ltac:(lia) ltac:(lia)) as C3.
  destruct (cdiv _ _ _ _ _ _ _ _ C3 (moderate_close Q MQ)) as [E C4]; try side.
  eexists. split; [exact E|]. apply close_weak with (3 := C4); [lra|lia].
Qed.

Definition Rsum (l : list R) : R := fold_right Rplus 0 l.

Lemma rounds_0 f : rounds 0 f -> fin64 f /\ sfR f = 0.
Proof. intros [s _ ->|w V _ _|w V _ _]; [split; [exact I|reflexivity]|lra|lra]. Qed.

(** A number that may also be zero. *)
Definition close0 (k : R) (e : Z) (x : pynum) (X : R) : Prop := close k e x X \/ (X = 0 /\ finite_double x /\ val x = 0).

Lemma close0_weak k k' e e' x X : k <= k' -> (e <= e')%Z -> close0 k e x X -> close0 k' e' x X.
Proof. intros K E [C|C]; [left; now apply close_weak with k e|now right]. Qed.

Lemma close0_fin k e x X : close0 k e x X -> finite_double x.
Proof. intros [C|C]; apply C. Qed.

Lemma cadd_zero k e x y X : close k e x X -> finite_double y -> val y = 0 -> 0 <= k <= 1990 -> (0 <= e <= 1000)%Z ->
  close (k + 11 / 10) (e + 1) (nadd x y) X /\ close (k + 11 / 10) (e + 1) (nadd y x) X.
Proof.
  intros C F Z K E. destruct (close_fin _ _ _ _ C) as (f & -> & Fx & Vx). apply finite_double_fin in F. destruct F as (h & -> & Fy).
  rewrite val_sfR in Z. destruct C as (_ & Ex & B).
  assert (B' : bp (- (e + 1)) <= X <= bp (e + 1)).
  { split; [apply Rle_trans with (2 := proj1 B)|apply Rle_trans with (1 := proj2 B)]; apply bp_le; lia. }
  split; apply close_weak with (k + 101 / 100) (e + 1)%Z; try lra; try lia.
  - apply (c_op _ _ _ _ _ (add_rounds f h Fx Fy)); try lra; try lia. rewrite Z, Rplus_0_r, <- Vx. exact Ex.
  - apply (c_op _ _ _ _ _ (add_rounds h f Fy Fx)); try lra; try lia. rewrite Z, Rplus_0_l, <- Vx. exact Ex.
Qed.

Lemma cadd0 k e x y X Y : close0 k e x X -> close0 k e y Y -> 0 <= k <= 1990 -> (0 <= e <= 1000)%Z ->
  close0 (k + 11 / 10) (e + 1) (nadd x y) (X + Y).
Proof.
  intros [Cx|(-> & Fx & Zx)] [Cy|(-> & Fy & Zy)] K E.
  - left. now apply cadd.
  - left. rewrite Rplus_0_r. exact (proj1 (cadd_zero k e x y X Cx Fy Zy K E)).
  - left. rewrite Rplus_0_l. exact (proj2 (cadd_zero k e y x Y Cy Fx Zx K E)).
  - right. rewrite Rplus_0_r. split; [reflexivity|]. apply finite_double_fin in Fx, Fy.
    destruct Fx as (f & -> & Fx), Fy as (h & -> & Fy). rewrite val_sfR in *.
    pose proof (add_rounds f h Fx Fy) as R. rewrite Zx, Zy, Rplus_0_r in R. destruct (rounds_0 _ R) as [F V].
    change (nadd (PFlt f) (PFlt h)) with (PFlt (SFadd f64 e64 f h)). rewrite val_sfR. split; [now apply fin_double|exact V].
Qed.

Lemma cadd01 k e x y X Y : close k e x X -> close0 k e y Y -> 0 <= k <= 1990 -> (0 <= e <= 1000)%Z ->
  close (k + 11 / 10) (e + 1) (nadd x y) (X + Y).
Proof.
  intros Cx [Cy|(-> & Fy & Zy)] K E; [now apply cadd|]. rewrite Rplus_0_r. exact (proj1 (cadd_zero k e x y X Cx Fy Zy K E)).
Qed.

Lemma mul_zero x y : finite_double x -> finite_double y -> val x * val y = 0 -> finite_double (nmul x y) /\ val (nmul x y) = 0.
Proof.
  intros Fx Fy Z. apply finite_double_fin in Fx, Fy. destruct Fx as (f & -> & Fx), Fy as (h & -> & Fy). rewrite !val_sfR in *.
  pose proof (mul_rounds f h Fx Fy) as R. rewrite Z in R. destruct (rounds_0 _ R) as [F V].
  change (nmul (PFlt f) (PFlt h)) with (PFlt (SFmul f64 e64 f h)). rewrite val_sfR. split; [now apply fin_double|exact V].
Qed.

Lemma cmul0 k j e g x y X Y : close0 k e x X -> close0 j g y Y -> 0 <= k <= 1990 -> 0 <= j <= 1990 ->
  (0 <= e)%Z -> (0 <= g)%Z -> (e + g <= 1000)%Z -> close0 (k + j + 11 / 10) (e + g) (nmul x y) (X * Y).
Proof.
  intros [Cx|(-> & Fx & Zx)] [Cy|(-> & Fy & Zy)] K J He Hg Hs.
  - left. now apply cmul.
  - right. rewrite Rmult_0_r. split; [reflexivity|]. apply mul_zero; [apply Cx|exact Fy|rewrite Zy; ring].
  - right. rewrite Rmult_0_l. split; [reflexivity|]. apply mul_zero; [exact Fx|apply Cy|rewrite Zx; ring].
  - right. rewrite Rmult_0_l. split; [reflexivity|]. apply mul_zero; [exact Fx|exact Fy|rewrite Zx; ring].
Qed.

Lemma cdiv0 k j e g x y X Y : close0 k e x X -> close j g y Y -> 0 <= k <= 1990 -> 0 <= j <= 1990 ->
  (0 <= e)%Z -> (0 <= g)%Z -> (e + g <= 1000)%Z ->
  pydiv x y = Ok (ndiv x y) /\ close0 (k + j + 11 / 10) (e + g) (ndiv x y) (X / Y).
Proof.
  intros [Cx|(-> & Fx & Zx)] Cy K J He Hg Hs.
  - destruct (cdiv _ _ _ _ _ _ _ _ Cx Cy K J He Hg Hs). split; [assumption|now left].
  - pose proof (close_nonzero _ _ _ _ Cy J) as Ny. split.
    + unfold pydiv. rewrite fin_nonzero; [reflexivity|apply Cy|lra].
    + right. split; [unfold Rdiv; ring|]. apply finite_double_fin in Fx. destruct Fx as (f & -> & Fx).
      destruct (close_fin _ _ _ _ Cy) as (h & -> & Fy & Vy). rewrite val_sfR in *.
      pose proof (div_rounds f h Fx Fy ltac:(lra)) as R. rewrite Zx in R. replace (0 / sfR h) with 0 in R by (unfold Rdiv; ring).
      destruct (rounds_0 _ R) as [F V]. change (ndiv (PFlt f) (PFlt h)) with (PFlt (SFdiv f64 e64 f h)).
      rewrite val_sfR. split; [now apply fin_double|exact V].
Qed.

(** The sum of the weld capacities. *)
Lemma weld_sum l : forall n x X, Forall moderate l -> close (11 / 10 * INR n) (60 + Z.of_nat n) x X -> (n + length l <= 400)%nat ->
  close (11 / 10 * INR (n + length l)) (60 + Z.of_nat (n + length l)) (fold_left nadd l x) (X + Rsum (map val l)).
Proof.
  induction l as [|y l IH]; intros n x X F C L; cbn [fold_left map Rsum fold_right length] in *.
  - rewrite Nat.add_0_r, Rplus_0_r. exact C.
  - inversion F as [|? ? My Fl]; subst. replace (n + S (length l))%nat with (S n + length l)%nat in * by lia.
    fold (Rsum (map val l)). rewrite <- Rplus_assoc. apply IH; [exact Fl| |lia].
    assert (B : 0 <= INR n <= 400).
    { split; [apply pos_INR|]. replace 400 with (INR 400) by (rewrite INR_IZR_INZ; reflexivity). apply le_INR. lia. }
    apply close_weak with (11 / 10 * INR n + 11 / 10) (60 + Z.of_nat n + 1)%Z; [rewrite S_INR; lra|lia|].
    apply cadd; try side; [exact C|]. apply close_weak with 0 60%Z; [lra|lia|now apply moderate_close].
Qed.

Lemma weld_close l Q I : l <> [] -> (length l <= 400)%nat -> Forall moderate l -> moderate Q -> moderate I ->
  exists r, ns5_11_4_V_w_Weld l Q I = Ok r /\
    finite_double r /\ Rabs (val r - Rsum (map val l) * val I / val Q) <=
      INR (length l + 2) * powerRZ 2 (-52) * (Rsum (map val l) * val I / val Q).
Proof.
  intros N L F MQ MI. destruct l as [|x l]; [congruence|]. inversion F as [|? ? Mx Fl]; subst.
  unfold ns5_11_4_V_w_Weld. cbn [fold_left].
  assert (C1 : close (11 / 10 * INR 1) (60 + Z.of_nat 1) (nadd (nint 0) x) (val x)).
  { change (nint 0) with (PInt 0). rewrite iadd by apply Mx. apply close_weak with (0 + 11 / 10) (60 + 1)%Z; [cbn; lra|lia|].
    apply cadd_zero; try side; [now apply moderate_close|apply fin_double; vm_compute; constructor|vm_compute; reflexivity]. }
  pose proof (weld_sum l 1 _ _ Fl C1 ltac:(cbn in *; lia)) as C2. cbn [map Rsum fold_right length] in *. fold (Rsum (map val l)).
  change (1 + length l)%nat with (S (length l)) in C2. set (m := S (length l)) in *.
  assert (B : 1 <= INR m <= 400).
  { split; [replace 1 with (INR 1) by reflexivity|replace 400 with (INR 400) by (rewrite INR_IZR_INZ; reflexivity)]; apply le_INR; unfold m in *; lia. }
  pose proof (cmul _ _ _ _ _ _ _ _ C2 (moderate_close I MI) ltac:(lra) ltac:(lra) ltac:(lia) ltac:(lia) ltac:(lia)) as C3.
  destruct (cdiv _ _ _ _ _ _ _ _ C3 (moderate_close Q MQ)) as [E C4]; try side; try lia.
  eexists. split; [exact E|]. pose proof (close_pos _ _ _ _ C4) as P. destruct C4 as (F4 & E4 & _). split; [exact F4|].
  apply Rle_trans with (1 := E4). apply Rmult_le_compat_r; [lra|]. change (powerRZ 2 (-52)) with (bp (-52)).
  replace (bp (-52)) with (2 * u53) by (unfold u53; change (-52)%Z with (-53 + 1)%Z; rewrite bp_double; ring).
  rewrite plus_INR. change (INR 2) with (1 + 1). pose proof u53_small.
  replace ((INR m + (1 + 1)) * (2 * u53)) with ((2 * INR m + 4) * u53) by ring. apply Rmult_le_compat_r; lra.
Qed.

Section Pow.
Variable pw : pynum -> pynum -> res pynum.
Hypothesis good : good_pow pw.

Lemma alpha_v_close d t f lim ref : moderate d -> moderate t -> moderate f -> moderate lim -> moderate ref ->
  exists r, ns5_11_5_alpha_v pw d t f lim ref = Ok r /\
    accurate 47 r (Rmin 1 ((val lim / sqrt (val f / val ref) / (val d / val t)) ^ 2)).
Proof.
  intros Md Mt Mf Ml Mr. unfold ns5_11_5_alpha_v.
  destruct (cdiv _ _ _ _ _ _ _ _ (moderate_close f Mf) (moderate_close ref Mr)) as [-> C1]; try side. cbn [bind].
  destruct (croot pw good _ _ 60 _ _ C1) as (r & -> & C2); try side. cbn [bind].
  destruct (cdiv _ _ _ _ _ _ _ _ (moderate_close lim Ml) C2) as [-> C3]; try side. cbn [bind].
  destruct (cdiv _ _ _ _ _ _ _ _ (moderate_close d Md) (moderate_close t Mt)) as [-> C4]; try side. cbn [bind].
  set (l := ndiv lim r) in *. set (s := ndiv d t) in *. set (L := val lim / sqrt (val f / val ref)) in *. set (S := val d / val t) in *.
  apply close_weak with (k' := 6) (e' := 120%Z) in C3; [|lra|lia]. apply close_weak with (k' := 6) (e' := 120%Z) in C4; [|lra|lia].
  destruct (cdiv _ _ _ _ _ _ _ _ C3 C4) as [E5 C5]; try side.
  destruct (csquare pw good _ _ _ _ C5) as (q & E6 & C6); try side.
  pose proof u53_small as U. pose proof u53_val as U'.
  destruct (close_ratio _ _ _ _ C3) as (a & Ea & Ha), (close_ratio _ _ _ _ C4) as (b & Eb & Hb).
  pose proof (close_pos _ _ _ _ C3) as PL. pose proof (close_pos _ _ _ _ C4) as PS. pose proof (close_pos _ _ _ _ C6) as PQ.
  assert (E2 : (L / S) ^ 2 = L / S * (L / S)) by ring. rewrite E2.
  apply abs_le in Ha, Hb. change (@nltb pynum PNum) with py_ltb.
  assert (B47 : bp (- (47)) = 64 * u53).
  { unfold u53. change (- (47))%Z with (-53 + 1 + 1 + 1 + 1 + 1 + 1)%Z. rewrite !bp_double. ring. }
  destruct (Rlt_le_dec (val l) (val s)) as [M|M].
  - rewrite (ltb_t l s (finite_finp _ (proj1 C3)) (finite_finp _ (proj1 C4)) M). rewrite E5. cbn [bind]. exists q. split; [exact E6|].
    (* L / S is at most 1 plus rounding *)
    assert (LS : L / S <= 1 + 13 * u53).
    { apply Rmult_le_reg_r with S; [lra|]. unfold Rdiv. rewrite Rmult_assoc, Rinv_l, Rmult_1_r by lra.
      rewrite Ea, Eb in M. assert (L * (1 - 6 * u53) <= a * L) by (rewrite (Rmult_comm a); apply Rmult_le_compat_l; lra).
      assert (b * S <= (1 + 6 * u53) * S) by (apply Rmult_le_compat_r; lra).
      assert ((1 + 6 * u53) * S <= (1 + 13 * u53) * (1 - 6 * u53) * S).
      { apply Rmult_le_compat_r; [lra|]. assert (78 * (u53 * u53) <= u53) by (replace (78 * (u53 * u53)) with (78 * u53 * u53) by ring; assert (78 * u53 * u53 <= 1 * u53) by (apply Rmult_le_compat_r; lra); lra). lra. }
      apply Rmult_le_reg_r with (1 - 6 * u53); lra. }
    assert (P0 : 0 < L / S) by (apply Rmult_lt_0_compat; [lra|now apply Rinv_0_lt_compat]).
    assert (SQ : L / S * (L / S) <= 1 + 27 * u53).
    { apply Rle_trans with ((1 + 13 * u53) * (1 + 13 * u53)); [apply Rmult_le_compat; lra|].
      assert (169 * u53 * u53 <= 1 * u53) by (apply Rmult_le_compat_r; lra). lra. }
    destruct C6 as (F6 & E6' & _). split; [exact F6|]. change (powerRZ 2 (- (47))) with (bp (- (47))). rewrite B47.
    set (Q := L / S * (L / S)) in *. destruct (Rle_dec Q 1) as [H|H].
    + rewrite Rmin_right by lra. rewrite (Rabs_right Q) by lra. apply Rle_trans with (1 := E6'). apply Rmult_le_compat_r; [lra|].
      apply Rmult_le_compat_r; lra.
    + rewrite Rmin_left by lra. rewrite Rabs_R1. apply abs_le in E6'. apply abs_le.
      assert ((2 * (6 + 6 + 11 / 10) + 42 / 10) * u53 * Q <= (2 * (6 + 6 + 11 / 10) + 42 / 10) * u53 * (1 + 27 * u53)) by (apply Rmult_le_compat_l; [apply Rmult_le_pos; lra|lra]).
      assert (2000 * u53 * u53 <= 1 * u53) by (apply Rmult_le_compat_r; lra).
      lra.
  - rewrite (ltb_f l s (finite_finp _ (proj1 C3)) (finite_finp _ (proj1 C4)) M). eexists. split; [reflexivity|].
    assert (E1 : nflt 1 1 = PFlt (sf_of_Z 1)) by (vm_compute; reflexivity). rewrite E1.
    destruct (cint 1) as (F1 & _ & _); [lia|]. split; [exact F1|].
    assert (V1 : val (PFlt (sf_of_Z 1)) = 1) by (destruct (FloatLocs.small_int 1) as [_ V]; [lia|]; now rewrite val_sfR, V). rewrite V1.
    change (powerRZ 2 (- (47))) with (bp (- (47))). rewrite B47.
    assert (LS : 1 - 13 * u53 <= L / S).
    { apply Rmult_le_reg_r with S; [lra|]. unfold Rdiv. rewrite Rmult_assoc, Rinv_l, Rmult_1_r by lra.
      rewrite Ea, Eb in M. assert (a * L <= (1 + 6 * u53) * L) by (apply Rmult_le_compat_r; lra).
      assert ((1 - 6 * u53) * S <= b * S) by (apply Rmult_le_compat_r; lra).
      assert ((1 - 13 * u53) * (1 + 6 * u53) * S <= (1 - 6 * u53) * S).
      { apply Rmult_le_compat_r; [lra|]. assert (0 <= 78 * (u53 * u53)) by (apply Rmult_le_pos; [lra|apply Rmult_le_pos; lra]). lra. }
      apply Rmult_le_reg_r with (1 + 6 * u53); lra. }
    assert (SQ : 1 - 26 * u53 <= L / S * (L / S)).
    { apply Rle_trans with ((1 - 13 * u53) * (1 - 13 * u53)); [|apply Rmult_le_compat; lra].
      assert (0 <= 169 * (u53 * u53)) by (apply Rmult_le_pos; [lra|apply Rmult_le_pos; lra]). lra. }
    set (Q := L / S * (L / S)) in *. assert (K : 1 - 26 * u53 <= Rmin 1 Q <= 1) by (split; [apply Rmin_glb; lra|apply Rmin_l]).
    rewrite (Rabs_right (Rmin 1 Q)) by lra. apply abs_le.
    assert (64 * u53 * (1 - 26 * u53) <= 64 * u53 * Rmin 1 Q) by (apply Rmult_le_compat_l; lra).
    assert (2000 * u53 * u53 <= 1 * u53) by (apply Rmult_le_compat_r; lra). lra.
Qed.

Lemma alpha_vma_close vm va : moderate vm -> moderate va ->
  exists r, ns5_11_3_alpha_vma vm va = Ok r /\ accurate 50 r (Rmin (2 / (9 / 10 + val vm / val va)) 1).
Proof.
  intros Mm Ma. unfold ns5_11_3_alpha_vma.
  destruct (cdiv _ _ _ _ _ _ _ _ (moderate_close vm Mm) (moderate_close va Ma)) as [-> C1]; try side. cbn [bind].
  assert (C2 : close (22 / 10) 121 (nadd (nflt 9 10) (ndiv vm va)) (9 / 10 + val vm / val va)).
  { apply close_weak with (11 / 10 + 11 / 10) (120 + 1)%Z; [lra|lia|]. apply cadd; try side.
    - apply close_weak with (11 / 10) 40%Z; [lra|lia|]. apply (clit 9 10); lia.
    - apply close_weak with (3 := C1); [lra|lia]. }
  change (nint 2) with (PInt 2). rewrite idiv.
  destruct (cdiv _ _ _ _ _ _ _ _ (cint 2 ltac:(lia)) C2) as [-> C3]; try side. cbn [bind]. eexists. split; [reflexivity|].
  apply (close_units 8 141 3); [|lia|cbn; lra]. apply cmin; [apply close_weak with (3 := C3); [lra|lia]| |lra].
  replace (nflt 1 1) with (PFlt (sf_of_Z 1)) by (vm_compute; reflexivity). apply close_weak with 0 20%Z; [lra|lia|]. apply cint. lia.
Qed.

(** ** Bending *)
Lemma k_t_close d l tf tw nw c : moderate d -> moderate l -> moderate tf -> moderate tw -> moderate nw ->
  exists r, ns5_6_3_k_t pw d l tf tw nw c = Ok r /\ accurate 48 r (1 + match c with
    | FF | FL | LL | FU => 0
    | FP | PL | PU => val d / val l * (val tf / (2 * val tw)) ^ 3 / val nw
    | PP => 2 * (val d / val l * (val tf / (2 * val tw)) ^ 3 / val nw) end).
Proof.
  intros Md Ml Mf Mw Mn. unfold ns5_6_3_k_t.
  destruct (cdiv _ _ _ _ _ _ _ _ (moderate_close d Md) (moderate_close l Ml)) as [E1 C1]; try side.
  change (nint 2) with (PInt 2). rewrite !imul by (try apply Mw).
  pose proof (cmul _ _ _ _ _ _ _ _ (cint 2 ltac:(lia)) (moderate_close tw Mw) ltac:(lra) ltac:(lra) ltac:(lia) ltac:(lia) ltac:(lia)) as C2.
  destruct (cdiv _ _ _ _ _ _ _ _ (moderate_close tf Mf) C2) as [E3 C3]; try side.
  destruct (ccube pw good _ _ _ _ C3) as (q & E4 & C4); try side.
  pose proof (cmul _ _ _ _ _ _ _ _ C1 C4 ltac:(lra) ltac:(lra) ltac:(lia) ltac:(lia) ltac:(lia)) as C5.
  destruct (cdiv _ _ _ _ _ _ _ _ C5 (moderate_close nw Mn)) as [E6 C6]; try side.
  pose proof (cmul _ _ _ _ _ _ _ _ (cint 2 ltac:(lia)) C1 ltac:(lra) ltac:(lra) ltac:(lia) ltac:(lia) ltac:(lia)) as D1.
  pose proof (cmul _ _ _ _ _ _ _ _ D1 C4 ltac:(lra) ltac:(lra) ltac:(lia) ltac:(lia) ltac:(lia)) as D5.
  destruct (cdiv _ _ _ _ _ _ _ _ D5 (moderate_close nw Mn)) as [D6 D7]; try side.
  rewrite E1, E3. cbn [bind]. rewrite E4. cbn [bind]. rewrite E6. cbn [bind].
  assert (One : accurate 48 (nflt 1 1) (1 + 0)).
  { rewrite Rplus_0_r. apply (close_units 0 20 5); [|lia|cbn; lra]. replace (nflt 1 1) with (PFlt (sf_of_Z 1)) by (vm_compute; reflexivity).
    apply cint. lia. }
  pose proof (close_pos _ _ _ _ C2) as P2. pose proof (moderate_pos _ Mn) as Pn. pose proof (moderate_pos _ Ml) as Pl.
  assert (Gen : forall x X k, close k 620 x X -> 0 <= k <= 25 -> accurate 48 (nadd (nint 1) x) (1 + X)).
  { intros x X k C K. change (nint 1) with (PInt 1). rewrite iadd by apply C. apply (close_units (25 + 11 / 10) 621 5); [|lia|cbn; lra].
    apply cadd with (e := 620%Z); try side; [apply close_weak with 0 20%Z; [lra|lia|apply cint; lia]|]. apply close_weak with (3 := C); [lra|lia]. }
  rewrite (imul 2 (ndiv d l)) by apply C1.
  assert (R1 : val d / val l * (val tf / (2 * val tw)) ^ 3 / val nw =
     val d / val l * (val tf / (2 * val tw) * (val tf / (2 * val tw)) * (val tf / (2 * val tw))) / val nw) by (field; lra).
  assert (R2 : 2 * (val d / val l * (val tf / (2 * val tw)) ^ 3 / val nw) =
     2 * (val d / val l) * (val tf / (2 * val tw) * (val tf / (2 * val tw)) * (val tf / (2 * val tw))) / val nw) by (field; lra).
  rewrite D6. cbn [bind].
  apply close_weak with (k' := 25) (e' := 620%Z) in C6; [|lra|lia]. apply close_weak with (k' := 25) (e' := 620%Z) in D7; [|lra|lia].
  pose proof (Gen _ _ _ C6 ltac:(lra)) as G1. pose proof (Gen _ _ _ D7 ltac:(lra)) as G2. rewrite <- R1 in G1. rewrite <- R2 in G2.
  destruct c; (eexists; split; [reflexivity|]); first [exact One|exact G1|exact G2].
Qed.

Lemma abs_val x : finite_double x -> finite_double (nabs x) /\ val (nabs x) = Rabs (val x).
Proof.
  intros F. apply finite_double_fin in F. destruct F as (f & -> & F). change (nabs (PFlt f)) with (PFlt (SFabs f)).
  rewrite !val_sfR. split.
  - apply fin_double. destruct f; cbn in *; auto.
  - destruct f as [s| | |s c e]; cbn [SFabs sfR]; try now rewrite Rabs_R0. destruct (finite_small _ _ F) as [P _].
    destruct s; cbn [signed]; rewrite ?Rabs_Ropp, Rabs_right; lra.
Qed.

Lemma tame_square x : tame x -> close0 (11 / 10) 120 (nmul x x) (val x * val x).
Proof.
  intros (F & [Z|B]).
  - right. rewrite Z. split; [ring|]. apply mul_zero; auto. rewrite Z. ring.
  - left. change (powerRZ 2 (-60)) with (bp (-60)) in B. change (powerRZ 2 60) with (bp 60) in B.
    apply finite_double_fin in F. destruct F as (f & -> & F). rewrite val_sfR in *.
    replace (sfR f * sfR f) with (Rabs (sfR f) * Rabs (sfR f)) by (rewrite <- Rabs_mult; apply Rabs_right, Rle_ge, Rle_0_sqr).
    apply close_weak with (0 + 101 / 100) 120%Z; [lra|lia|].
    apply (c_op _ _ _ _ _ (mul_rounds f f F F)); try lra; try lia.
    + rewrite <- Rabs_mult, (Rabs_right (sfR f * sfR f)) by apply Rle_ge, Rle_0_sqr. rewrite Rminus_eq_0, Rabs_R0. lra.
    + apply (bounds_mul 60 60); exact B.
Qed.

Lemma close0_pos k e x X : close0 k e x X -> 0 < X -> close k e x X.
Proof. intros [C|(-> & _)] P; [exact C|lra]. Qed.

Lemma alpha_m_close M M2 M3 M4 mx : tame M -> val M <> 0 -> tame M2 -> tame M3 -> tame M4 -> moderate mx ->
  val M2 <> 0 \/ val M3 <> 0 \/ val M4 <> 0 ->
  exists r, ns5_6_1_alpha_m pw M M2 M3 M4 mx = Ok r /\
    accurate 49 r (Rmin (17 / 10 * Rabs (val M) / sqrt (val M2 ^ 2 + val M3 ^ 2 + val M4 ^ 2)) (val mx)).
Proof.
  intros TM NM T2 T3 T4 Mx NZ. unfold ns5_6_1_alpha_m.
  pose proof (tame_square _ T2) as C2. pose proof (tame_square _ T3) as C3. pose proof (tame_square _ T4) as C4.
  pose proof (cadd0 _ _ _ _ _ _ C2 C3 ltac:(lra) ltac:(lia)) as C5.
  apply close0_weak with (k' := 11 / 10 + 11 / 10) (e' := (120 + 1)%Z) in C4; [|lra|lia].
  pose proof (cadd0 _ _ _ _ _ _ C5 C4 ltac:(lra) ltac:(lia)) as C6.
  assert (P : 0 < val M2 * val M2 + val M3 * val M3 + val M4 * val M4).
  { pose proof (Rle_0_sqr (val M2)). pose proof (Rle_0_sqr (val M3)). pose proof (Rle_0_sqr (val M4)). unfold Rsqr in *.
    destruct NZ as [N|[N|N]]; apply Rsqr_pos_lt in N; unfold Rsqr in N; lra. }
  pose proof (close0_pos _ _ _ _ C6 P) as C7.
  destruct (croot pw good _ _ 61 _ _ C7) as (r & -> & C8); try side. cbn [bind].
  replace (val M2 ^ 2 + val M3 ^ 2 + val M4 ^ 2) with (val M2 * val M2 + val M3 * val M3 + val M4 * val M4) by ring.
  assert (CA : close 0 60 (nabs M) (Rabs (val M))).
  { destruct TM as (F & [Z|B]); [contradiction|]. destruct (abs_val M F) as [FA VA]. split; [exact FA|]. rewrite VA. split; [|exact B].
    rewrite Rminus_eq_0, Rabs_R0. lra. }
  pose proof (cmul _ _ _ _ _ _ _ _ (clit 17 10 ltac:(lia) ltac:(lia)) CA ltac:(lra) ltac:(lra) ltac:(lia) ltac:(lia) ltac:(lia)) as C9.
  destruct (cdiv _ _ _ _ _ _ _ _ C9 C8) as [-> C10]; try side. cbn [bind]. eexists. split; [reflexivity|].
  apply (close_units 16 161 4); [|lia|cbn; lra]. apply cmin; [apply close_weak with (3 := C10); [lra|lia]| |lra].
  apply close_weak with 0 60%Z; [lra|lia|now apply moderate_close].
Qed.

(** ** Buckling *)
Lemma pipi_close : close (21 / 10) 4 (nmul npi npi) (PI * PI).
Proof.
  apply close_weak with (1 / 2 + 1 / 2 + 11 / 10) (2 + 2)%Z; [lra|lia|]. apply cmul; try side; exact pi_close.
Qed.

Definition tame_pos (x : pynum) : Prop := tame x /\ 0 <= val x.

Lemma tame_close0 x : tame x -> 0 <= val x -> close0 0 60 x (val x).
Proof.
  intros (F & [Z|B]) P; [right; auto|left]. rewrite (Rabs_right (val x)) in B by lra.
  split; [exact F|]. split; [rewrite Rminus_eq_0, Rabs_R0; lra|exact B].
Qed.

Lemma euler_close E I l : moderate E -> moderate I -> moderate l ->
  pydiv (nmul (nmul (nmul npi npi) E) I) (nmul l l) = Ok (ndiv (nmul (nmul (nmul npi npi) E) I) (nmul l l)) /\
  close 7 244 (ndiv (nmul (nmul (nmul npi npi) E) I) (nmul l l)) (PI * PI * val E * val I / (val l * val l)).
Proof.
  intros ME MI Ml.
  pose proof (cmul _ _ _ _ _ _ _ _ pipi_close (moderate_close E ME) ltac:(lra) ltac:(lra) ltac:(lia) ltac:(lia) ltac:(lia)) as C1.
  pose proof (cmul _ _ _ _ _ _ _ _ C1 (moderate_close I MI) ltac:(lra) ltac:(lra) ltac:(lia) ltac:(lia) ltac:(lia)) as C2.
  pose proof (cmul _ _ _ _ _ _ _ _ (moderate_close l Ml) (moderate_close l Ml) ltac:(lra) ltac:(lra) ltac:(lia) ltac:(lia) ltac:(lia)) as C3.
  destruct (cdiv _ _ _ _ _ _ _ _ C2 C3) as [E4 C4]; try side. split; [exact E4|]. apply close_weak with (3 := C4); [lra|lia].
Qed.

Lemma warp_close E I l : moderate E -> tame I -> 0 <= val I -> moderate l ->
  pydiv (nmul (nmul (nmul npi npi) E) I) (nmul l l) = Ok (ndiv (nmul (nmul (nmul npi npi) E) I) (nmul l l)) /\
  close0 7 244 (ndiv (nmul (nmul (nmul npi npi) E) I) (nmul l l)) (PI * PI * val E * val I / (val l * val l)).
Proof.
  intros ME TI PI0 Ml.
  pose proof (cmul _ _ _ _ _ _ _ _ pipi_close (moderate_close E ME) ltac:(lra) ltac:(lra) ltac:(lia) ltac:(lia) ltac:(lia)) as C1.
  pose proof (cmul0 _ _ _ _ _ _ _ _ (or_introl C1) (tame_close0 I TI PI0) ltac:(lra) ltac:(lra) ltac:(lia) ltac:(lia) ltac:(lia)) as C2.
  pose proof (cmul _ _ _ _ _ _ _ _ (moderate_close l Ml) (moderate_close l Ml) ltac:(lra) ltac:(lra) ltac:(lia) ltac:(lia) ltac:(lia)) as C3.
  destruct (cdiv0 _ _ _ _ _ _ _ _ C2 C3) as [E4 C4]; try side. split; [exact E4|]. apply close0_weak with (3 := C4); [lra|lia].
Qed.

Lemma M_o_close l Iy J Iw bx E G : moderate l -> moderate Iy -> moderate J -> tame Iw -> 0 <= val Iw -> tame bx -> 0 <= val bx ->
  moderate E -> moderate G ->
  exists r, ns5_6_1_M_o pw l Iy J Iw bx E G = Ok r /\
    let a := PI ^ 2 * val E * val Iy / val l ^ 2 in
    accurate 48 r (sqrt a * (sqrt (val G * val J + PI ^ 2 * val E * val Iw / val l ^ 2 + (val bx / 2) ^ 2 * a) + val bx / 2 * sqrt a)).
Proof.
  intros Ml MI MJ TW PW TB PB ME MG. unfold ns5_6_1_M_o.
  destruct (euler_close E Iy l ME MI Ml) as [-> CA]. cbn [bind].
  destruct (warp_close E Iw l ME TW PW Ml) as [-> CC]. cbn [bind].
  change (nint 2) with (PInt 2).
  destruct (cdiv0 _ _ _ _ _ _ _ _ (tame_close0 bx TB PB) (cint 2 ltac:(lia))) as [_ CD]; try side.
  rewrite divi_ok by lia. cbn [bind]. set (d := ndiv bx (PFlt (sf_of_Z 2))) in *.
  destruct (croot pw good _ _ 122 _ _ CA) as (ra & -> & CR); try side. cbn [bind].
  pose proof (cmul _ _ _ _ _ _ _ _ (moderate_close G MG) (moderate_close J MJ) ltac:(lra) ltac:(lra) ltac:(lia) ltac:(lia) ltac:(lia)) as CB.
  pose proof (cmul0 _ _ _ _ _ _ _ _ CD CD ltac:(lra) ltac:(lra) ltac:(lia) ltac:(lia) ltac:(lia)) as CDD.
  pose proof (cmul0 _ _ _ _ _ _ _ _ CDD (or_introl CA) ltac:(lra) ltac:(lra) ltac:(lia) ltac:(lia) ltac:(lia)) as CDA.
  assert (S1 : close 9 245 (nadd (nmul G J) (ndiv (nmul (nmul (nmul npi npi) E) Iw) (nmul l l)))
     (val G * val J + PI * PI * val E * val Iw / (val l * val l))).
  { apply close_weak with (7 + 11 / 10) (244 + 1)%Z; [lra|lia|]. apply cadd01; try side; [|exact CC]. apply close_weak with (3 := CB); [lra|lia]. }
  assert (S2 : close 14 405 (nadd (nadd (nmul G J) (ndiv (nmul (nmul (nmul npi npi) E) Iw) (nmul l l))) (nmul (nmul d d) (ndiv (nmul (nmul (nmul npi npi) E) Iy) (nmul l l))))
     (val G * val J + PI * PI * val E * val Iw / (val l * val l) + val bx / 2 * (val bx / 2) * (PI * PI * val E * val Iy / (val l * val l)))).
  { apply close_weak with (125 / 10 + 11 / 10) (404 + 1)%Z; [lra|lia|]. apply cadd01; try side.
    - apply close_weak with (3 := S1); [lra|lia].
    - apply close0_weak with (3 := CDA); [lra|lia]. }
  destruct (croot pw good _ _ 203 _ _ S2) as (rb & -> & CRB); try side. cbn [bind].
  pose proof (cmul0 _ _ _ _ _ _ _ _ CD (or_introl CR) ltac:(lra) ltac:(lra) ltac:(lia) ltac:(lia) ltac:(lia)) as CDR.
  assert (S3 : close 13 204 (nadd rb (nmul d ra))
    (sqrt (val G * val J + PI * PI * val E * val Iw / (val l * val l) + val bx / 2 * (val bx / 2) * (PI * PI * val E * val Iy / (val l * val l)))
     + val bx / 2 * sqrt (PI * PI * val E * val Iy / (val l * val l)))).
  { apply close_weak with (115 / 10 + 11 / 10) (203 + 1)%Z; [lra|lia|]. apply cadd01; try side.
    - apply close_weak with (3 := CRB); [lra|lia].
    - apply close0_weak with (3 := CDR); [lra|lia]. }
  pose proof (cmul _ _ _ _ _ _ _ _ CR S3 ltac:(lra) ltac:(lra) ltac:(lia) ltac:(lia) ltac:(lia)) as CF.
  eexists. split; [reflexivity|]. cbv zeta.
  replace (PI ^ 2 * val E * val Iy / val l ^ 2) with (PI * PI * val E * val Iy / (val l * val l)) by (pose proof (moderate_pos _ Ml); field; lra).
  replace (PI ^ 2 * val E * val Iw / val l ^ 2) with (PI * PI * val E * val Iw / (val l * val l)) by (pose proof (moderate_pos _ Ml); field; lra).
  replace ((val bx / 2) ^ 2) with (val bx / 2 * (val bx / 2)) by ring.
  apply (close_units _ _ 5 _ _ CF); [lia|cbn; lra].
Qed.

Lemma f_euler_close E l r : moderate E -> moderate l -> moderate r ->
  exists f, nf_euler E l r = Ok f /\ close 8 304 f (PI ^ 2 * val E / (val l / val r) ^ 2).
Proof.
  intros ME Ml Mr. unfold nf_euler.
  destruct (cdiv _ _ _ _ _ _ _ _ (moderate_close l Ml) (moderate_close r Mr)) as [-> C1]; try side. cbn [bind].
  pose proof (cmul _ _ _ _ _ _ _ _ C1 C1 ltac:(lra) ltac:(lra) ltac:(lia) ltac:(lia) ltac:(lia)) as C2.
  pose proof (cmul _ _ _ _ _ _ _ _ pipi_close (moderate_close E ME) ltac:(lra) ltac:(lra) ltac:(lia) ltac:(lia) ltac:(lia)) as C3.
  destruct (cdiv _ _ _ _ _ _ _ _ C3 C2) as [-> C4]; try side. eexists. split; [reflexivity|].
  replace (PI ^ 2 * val E / (val l / val r) ^ 2) with (PI * PI * val E / (val l / val r * (val l / val r))) by (f_equal; ring).
  apply close_weak with (3 := C4); [lra|lia].
Qed.

Lemma r_ol_close rx ry xo yo : moderate rx -> moderate ry -> tame xo -> tame yo ->
  exists r, nr_ol pw rx ry xo yo = Ok r /\ close 7 62 r (sqrt (val rx ^ 2 + val ry ^ 2 + val xo ^ 2 + val yo ^ 2)).
Proof.
  intros Mx My Tx Ty. unfold nr_ol.
  pose proof (cmul _ _ _ _ _ _ _ _ (moderate_close rx Mx) (moderate_close rx Mx) ltac:(lra) ltac:(lra) ltac:(lia) ltac:(lia) ltac:(lia)) as C1.
  pose proof (cmul _ _ _ _ _ _ _ _ (moderate_close ry My) (moderate_close ry My) ltac:(lra) ltac:(lra) ltac:(lia) ltac:(lia) ltac:(lia)) as C2.
  pose proof (cadd _ _ _ _ _ _ C1 C2 ltac:(lra) ltac:(lia)) as C3.
  apply close_weak with (k' := 22 / 10) (e' := 121%Z) in C3; [|lra|lia].
  pose proof (cadd01 _ _ _ _ _ _ C3 (close0_weak (11 / 10) (22 / 10) 120 121 _ _ ltac:(lra) ltac:(lia) (tame_square xo Tx)) ltac:(lra) ltac:(lia)) as C4.
  apply close_weak with (k' := 33 / 10) (e' := 122%Z) in C4; [|lra|lia].
  pose proof (cadd01 _ _ _ _ _ _ C4 (close0_weak (11 / 10) (33 / 10) 120 122 _ _ ltac:(lra) ltac:(lia) (tame_square yo Ty)) ltac:(lra) ltac:(lia)) as C5.
  destruct (croot pw good _ _ 62 _ _ C5) as (r & -> & C6); try side. eexists. split; [reflexivity|].
  replace (val rx ^ 2 + val ry ^ 2 + val xo ^ 2 + val yo ^ 2) with (val rx * val rx + val ry * val ry + val xo * val xo + val yo * val yo) by ring.
  apply close_weak with (3 := C6); [lra|lia].
Qed.

(** The length may be a computed product. *)
Lemma f_euler_cl E l L r : moderate E -> close (11 / 10) 120 l L -> moderate r ->
  exists f, nf_euler E l r = Ok f /\ close 11 430 f (PI ^ 2 * val E / (L / val r) ^ 2).
Proof.
  intros ME Cl Mr. unfold nf_euler.
  destruct (cdiv _ _ _ _ _ _ _ _ Cl (moderate_close r Mr)) as [-> C1]; try side. cbn [bind].
  pose proof (cmul _ _ _ _ _ _ _ _ C1 C1 ltac:(lra) ltac:(lra) ltac:(lia) ltac:(lia) ltac:(lia)) as C2.
  pose proof (cmul _ _ _ _ _ _ _ _ pipi_close (moderate_close E ME) ltac:(lra) ltac:(lra) ltac:(lia) ltac:(lia) ltac:(lia)) as C3.
  destruct (cdiv _ _ _ _ _ _ _ _ C3 C2) as [-> C4]; try side. eexists. split; [reflexivity|].
  replace (PI ^ 2 * val E / (L / val r) ^ 2) with (PI * PI * val E / (L / val r * (L / val r))) by (f_equal; ring).
  apply close_weak with (3 := C4); [lra|lia].
Qed.

Lemma f_euler_torsion_cl A l L rx ry xo yo J Iw E G : moderate A -> close (11 / 10) 120 l L -> moderate rx -> moderate ry -> tame xo -> tame yo ->
  moderate J -> tame Iw -> 0 <= val Iw -> moderate E -> moderate G ->
  exists f, nf_euler_torsion pw A l rx ry xo yo J Iw E G = Ok f /\
    close 32 850 f (val G * val J / (val A * (val rx ^ 2 + val ry ^ 2 + val xo ^ 2 + val yo ^ 2)) *
      (1 + PI ^ 2 * val E * val Iw / (val G * val J * L ^ 2))).
Proof.
  intros MA Cl Mx My Tx Ty MJ TW PW ME MG. unfold nf_euler_torsion.
  destruct (r_ol_close rx ry xo yo Mx My Tx Ty) as (r & -> & CR). cbn [bind].
  pose proof (cmul _ _ _ _ _ _ _ _ (moderate_close G MG) (moderate_close J MJ) ltac:(lra) ltac:(lra) ltac:(lia) ltac:(lia) ltac:(lia)) as CB.
  pose proof (cmul _ _ _ _ _ _ _ _ (moderate_close A MA) CR ltac:(lra) ltac:(lra) ltac:(lia) ltac:(lia) ltac:(lia)) as C1.
  pose proof (cmul _ _ _ _ _ _ _ _ C1 CR ltac:(lra) ltac:(lra) ltac:(lia) ltac:(lia) ltac:(lia)) as C2.
  destruct (cdiv _ _ _ _ _ _ _ _ CB C2) as [-> C3]; try side. cbn [bind].
  pose proof (cmul _ _ _ _ _ _ _ _ pipi_close (moderate_close E ME) ltac:(lra) ltac:(lra) ltac:(lia) ltac:(lia) ltac:(lia)) as C4.
  pose proof (cmul0 _ _ _ _ _ _ _ _ (or_introl C4) (tame_close0 Iw TW PW) ltac:(lra) ltac:(lra) ltac:(lia) ltac:(lia) ltac:(lia)) as C5.
  pose proof (cmul _ _ _ _ _ _ _ _ Cl Cl ltac:(lra) ltac:(lra) ltac:(lia) ltac:(lia) ltac:(lia)) as C6.
  pose proof (cmul _ _ _ _ _ _ _ _ CB C6 ltac:(lra) ltac:(lra) ltac:(lia) ltac:(lia) ltac:(lia)) as C7.
  destruct (cdiv0 _ _ _ _ _ _ _ _ C5 C7) as [-> C8]; try side. cbn [bind].
  change (nint 1) with (PInt 1). rewrite iadd by exact (close0_fin _ _ _ _ C8).
  apply close0_weak with (k' := 112 / 10) (e' := 544%Z) in C8; [|lra|lia].
  pose proof (cint 1 ltac:(lia)) as C0. apply close_weak with (k' := 112 / 10) (e' := 544%Z) in C0; [|lra|lia].
  pose proof (cadd01 _ _ _ _ _ _ C0 C8 ltac:(lra) ltac:(lia)) as C9.
  pose proof (cmul _ _ _ _ _ _ _ _ C3 C9 ltac:(lra) ltac:(lra) ltac:(lia) ltac:(lia) ltac:(lia)) as C10.
  eexists. split; [reflexivity|].
  set (S := val rx ^ 2 + val ry ^ 2 + val xo ^ 2 + val yo ^ 2) in *.
  assert (PS : 0 < S).
  { unfold S. pose proof (pow_lt _ 2 (moderate_pos _ Mx)). pose proof (pow_lt _ 2 (moderate_pos _ My)).
    pose proof (pow2_ge_0 (val xo)). pose proof (pow2_ge_0 (val yo)). lra. }
  replace (val A * S) with (val A * sqrt S * sqrt S) by (rewrite Rmult_assoc, sqrt_sqrt; lra).
  replace (PI ^ 2 * val E * val Iw / (val G * val J * L ^ 2)) with (PI * PI * val E * val Iw / (val G * val J * (L * L)))
    by (f_equal; [ring|f_equal; ring]).
  apply close_weak with (3 := C10); [lra|lia].
Qed.

Lemma f_euler_torsion_close A l rx ry xo yo J Iw E G : moderate A -> moderate l -> moderate rx -> moderate ry -> tame xo -> tame yo ->
  moderate J -> tame Iw -> 0 <= val Iw -> moderate E -> moderate G ->
  exists f, nf_euler_torsion pw A l rx ry xo yo J Iw E G = Ok f /\
    accurate 48 f (val G * val J / (val A * (val rx ^ 2 + val ry ^ 2 + val xo ^ 2 + val yo ^ 2)) *
      (1 + PI ^ 2 * val E * val Iw / (val G * val J * val l ^ 2))).
Proof.
  intros MA Ml Mx My Tx Ty MJ TW PW ME MG. pose proof (moderate_close l Ml) as Cl. apply close_weak with (k' := 11 / 10) (e' := 120%Z) in Cl; [|lra|lia].
  destruct (f_euler_torsion_cl A l (val l) rx ry xo yo J Iw E G MA Cl Mx My Tx Ty MJ TW PW ME MG) as (f & Ef & C).
  exists f. split; [exact Ef|]. apply (close_units _ _ 5 _ _ C); [lia|cbn; lra].
Qed.

Lemma lambda_n_cl kf l L r fy ref : moderate kf -> close (11 / 10) 120 l L -> moderate r -> moderate fy -> moderate ref ->
  exists x, ns6_3_3_lambda_n pw kf l r fy ref = Ok x /\ close 14 270 x (L / val r * sqrt (val kf) * sqrt (val fy / val ref)).
Proof.
  intros Mk Cl Mr My Mf. unfold ns6_3_3_lambda_n.
  destruct (cdiv _ _ _ _ _ _ _ _ Cl (moderate_close r Mr)) as [-> C1]; try side. cbn [bind].
  destruct (croot pw good _ _ 30 _ _ (moderate_close kf Mk)) as (a & -> & C2); try side. cbn [bind].
  destruct (cdiv _ _ _ _ _ _ _ _ (moderate_close fy My) (moderate_close ref Mf)) as [-> C3]; try side. cbn [bind].
  destruct (croot pw good _ _ 60 _ _ C3) as (b & -> & C4); try side. cbn [bind].
  pose proof (cmul _ _ _ _ _ _ _ _ C1 C2 ltac:(lra) ltac:(lra) ltac:(lia) ltac:(lia) ltac:(lia)) as C5.
  pose proof (cmul _ _ _ _ _ _ _ _ C5 C4 ltac:(lra) ltac:(lra) ltac:(lia) ltac:(lia) ltac:(lia)) as C6.
  eexists. split; [reflexivity|]. apply close_weak with (3 := C6); [lra|lia].
Qed.

Lemma lambda_n_close kf l r fy ref : moderate kf -> moderate l -> moderate r -> moderate fy -> moderate ref ->
  exists x, ns6_3_3_lambda_n pw kf l r fy ref = Ok x /\ close 14 270 x (val l / val r * sqrt (val kf) * sqrt (val fy / val ref)).
Proof.
  intros Mk Ml Mr My Mf. apply lambda_n_cl; auto. apply close_weak with (3 := moderate_close l Ml); [lra|lia].
Qed.
End Pow.
