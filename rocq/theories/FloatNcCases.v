(** Packaged statements, cases and a counterexample for the compression capacity on doubles. *)

From Coq Require Import ZArith Reals List Bool String Lia Lra Psatz Floats.SpecFloat.
From Verif Require Import Base Num PyNum FloatSpec FloatValSpec FloatRound FloatOps FloatFacts FloatError FloatUtil
  FloatUtilSpec FloatCheck FloatCapacity FloatFormulaSpec FloatS6Spec FloatCalc FloatFormulas
  FloatFormulaFinal FloatDesignCases FloatTorsion FloatPow6 FloatColumn FloatNc Symmetry NumFormulas NumS6.
Import ListNotations.
Open Scope R_scope.

(** C125: the coupled stress. *)
Lemma coupled_float pw : full_pow pw -> forall A lx lz rx ry xo yo J Iw E G,
  moderate A -> moderate lx -> moderate lz -> moderate rx -> moderate ry -> tame xo -> tame yo ->
  moderate J -> tame Iw -> 0 <= val Iw -> moderate E -> moderate G ->
  let r2 := val rx ^ 2 + val ry ^ 2 + val xo ^ 2 + val yo ^ 2 in
  let FX := euler_stress (val E) (val lx) (val rx) in
  let FZ := torsion_stress (val A) (val lz) r2 (val J) (val Iw) (val E) (val G) in
  let C := coupled_stress (1 - val xo ^ 2 / r2) FX FZ in
  powerRZ 2 (-180) <= FX <= powerRZ 2 180 -> powerRZ 2 (-180) <= FZ <= powerRZ 2 180 -> 2 * val xo ^ 2 <= r2 ->
  (nf_oxz pw A lx lz rx ry xo yo J Iw E G = Err EComplex /\ Rabs (FX - FZ) < (FX + FZ) / 1024) \/
  (exists b fx fz ro f, nf_oxz pw A lx lz rx ry xo yo J Iw E G = Ok [b; fx; fz; ro; f] /\
     accurate 49 fx FX /\ accurate 48 fz FZ /\ within 21 (FX + FZ) f C /\
     ((FX + FZ) / 1024 <= Rabs (FX - FZ) -> within 35 (FX + FZ) f C)).
Proof.
  intros full A lx lz rx ry xo yo J Iw E G MA Mlx Mlz Mx My Tx Ty MJ TW PW ME MG r2 FX FZ C BX BZ H2.
  change (powerRZ 2 (-180)) with (bp (-180)) in *. change (powerRZ 2 180) with (bp 180) in *.
  pose proof (bp_le (-200) (-180) ltac:(lia)) as W1. pose proof (bp_le 180 200 ltac:(lia)) as W2.
  destruct (foxz_gen pw full A lx lz (val lx) (val lz) rx ry xo yo J Iw E G MA) as (fz & Ez & Cz & [[Ex B]|(b & fx & ro & f & Ef & Cx & Fb & Eb & Cr & Ff & E1 & E2)]); auto;
    try (apply close_weak with (3 := moderate_close _ Mlx); [lra|lia]); try (apply close_weak with (3 := moderate_close _ Mlz); [lra|lia]);
    try (fold FX; lra); try (fold r2; fold FZ; lra).
  right. exists b, fx, fz, ro, f. split; [exact Ef|]. pose proof (bp_pos (-180)) as P.
  split; [|split; [|split; [split; [exact Ff|exact E1]|intros S; split; [exact Ff|exact (E2 S)]]]].
  - split; [apply Cx|]. destruct Cx as (_ & B & _). apply Rle_trans with (1 := B). fold FX. rewrite Rabs_right by lra. apply Rmult_le_compat_r; [lra|].
    change (powerRZ 2 (- (49))%Z) with (bp (4 + -53)). rewrite bp_add. fold u53. rewrite bp_Z by lia. pose proof u53_small. apply Rmult_le_compat_r; [lra|]. cbn; lra.
  - split; [apply Cz|]. destruct Cz as (_ & B & _). apply Rle_trans with (1 := B). fold r2. fold FZ. rewrite Rabs_right by lra. apply Rmult_le_compat_r; [lra|].
    change (powerRZ 2 (- (48))%Z) with (bp (5 + -53)). rewrite bp_add. fold u53. rewrite bp_Z by lia. pose proof u53_small. apply Rmult_le_compat_r; [lra|]. cbn; lra.
Qed.

(** With the shear centre at the centroid the exact coupled stress is the lesser of the two. *)
Lemma coupled_min f g : 0 < f -> 0 < g -> coupled_stress 1 f g = Rmin f g.
Proof.
  intros P Q. unfold coupled_stress. replace ((f + g) ^ 2 - 4 * 1 * f * g) with (Rsqr (f - g)) by (unfold Rsqr; ring).
  rewrite sqrt_Rsqr_abs. unfold Rmin, Rabs. destruct (Rcase_abs (f - g)), (Rle_dec f g); lra.
Qed.

(** Ordinary numbers: in metres and newtons. *)
Definition tube (J : pynum) : nsect pynum :=
  mk_nsect (fl 762 100000) (fl 1 1) (fl 891 10000) (fl 517 10000) (fl 0 1) (fl 0 1) J (fl 0 1)
    (fl 250000000 1) (fl 200000000000 1) (fl 80000000000 1).
Definition bad_J : pynum := fl 127835 100000000000.

Lemma zero_tame : tame (fl 0 1) /\ val (fl 0 1) = 0.
Proof.
  change (fl 0 1) with (PFlt (S754_zero false)). split; [|now rewrite val_sfR]. split; [apply fin_double; reflexivity|left; now rewrite val_sfR].
Qed.

Lemma div_bounds a b : 0 < b -> 135 / 10 * b <= a -> a <= 1000 * b -> 135 / 10 <= a / b <= 1000.
Proof.
  intros P L U. split; apply Rmult_le_reg_r with b; try lra; replace (a / b * b) with a by (field; lra); lra.
Qed.

Lemma tube_inputs : column_inputs (tube bad_J) (fl 352 100) (fl 1 1) (fl 1 1) (fl 250000000 1) (fl 5 10) (fl 9 10) /\
  torsion_inputs (tube bad_J) (fl 1 1) (fl 85 100) /\
  135 / 10 <= axis_slenderness (tube bad_J) (fl 352 100) (fl 1 1) (w_r_x (tube bad_J)) (fl 250000000 1) <= 1000 /\
  135 / 10 <= axis_slenderness (tube bad_J) (fl 352 100) (fl 1 1) (w_r_y (tube bad_J)) (fl 250000000 1) <= 1000.
Proof.
  assert (H : column_inputs (tube bad_J) (fl 352 100) (fl 1 1) (fl 1 1) (fl 250000000 1) (fl 5 10) (fl 9 10)).
  { split; [cbn [tube w_A_n w_k_f w_r_x w_r_y w_f_y]; mods|]. assert (M : moderate (fl 5 10)) by mods. split; [apply M|]. literal (fl 5 10). lra. }
  assert (F : moderate (fl 250000000 1)) by mods. pose proof (moderate_pos _ F) as PF.
  destruct zero_tame as [Z Z0].
  split; [exact H|]. split.
  { split; [cbn [tube w_J w_E w_G]; mods|]. split; [cbn [tube w_x_o w_y_o w_I_w]; repeat (constructor; [exact Z|]); constructor|].
    cbn [tube w_I_w]. rewrite Z0. literal (fl 85 100). lra. }
  unfold axis_slenderness, slenderness. cbn [tube w_k_f w_f_y w_r_x w_r_y].
  replace (val (fl 250000000 1) / val (fl 250000000 1)) with 1 by (field; lra). literal (fl 1 1). literal (fl 352 100). literal (fl 891 10000). literal (fl 517 10000).
  replace (val (fl 1 1)) with 1 by lra. rewrite sqrt_1, !Rmult_1_r.
  split; apply div_bounds; lra.
Qed.

Lemma tube_fails : forall roots,
  ns6_1_1_Nc real_pow roots (tube bad_J) (fl 352 100) (fl 1 1) (fl 1 1) (fl 1 1) (Some [AxStr "x"; AxStr "y"])
    (fl 250000000 1) (fl 5 10) (fl 85 100) (fl 9 10) true true = Err EComplex.
Proof. intros. vm_compute. reflexivity. Qed.

Lemma coupled_refuted :
  ~ (forall pw, full_pow pw -> forall roots q l kx ky kz ref ab un phi,
     column_inputs q l kx ky ref ab phi -> torsion_inputs q kz un ->
     135 / 10 <= axis_slenderness q l kx (w_r_x q) ref <= 1000 -> 135 / 10 <= axis_slenderness q l ky (w_r_y q) ref <= 1000 ->
     exists r, ns6_1_1_Nc pw roots q l kx ky kz (Some [AxStr "x"; AxStr "y"]) ref ab un phi true true = Ok r).
Proof.
  intros H. destruct tube_inputs as (I1 & I2 & R1 & R2).
  destruct (H real_pow real_full (fun _ _ _ _ => []) _ _ _ _ _ _ _ _ _ I1 I2 R1 R2) as (r & E). rewrite tube_fails in E. discriminate.
Qed.

(** C126. *)
Lemma close_acc_pow k e x X (d : Z) (c : Z) : close k e x X -> (0 <= c)%Z -> k <= IZR (2 ^ c) -> d = (53 - c)%Z -> accurate d x X.
Proof.
  intros C Hc K ->. pose proof (close_pos _ _ _ _ C) as P. destruct C as (F & B & _). split; [exact F|]. apply Rle_trans with (1 := B).
  rewrite Rabs_right by lra. apply Rmult_le_compat_r; [lra|]. change (powerRZ 2 (- (53 - c))) with (bp (- (53 - c))).
  replace (- (53 - c))%Z with (c + -53)%Z by lia. rewrite bp_add. fold u53. rewrite (bp_Z c) by exact Hc. pose proof u53_small. apply Rmult_le_compat_r; lra.
Qed.

Lemma torsion_capacity_float pw : full_pow pw -> forall Ae fy fo un, moderate Ae -> moderate fy -> moderate fo -> moderate un ->
  let s := sqrt (val fy / val fo) in let N := nominal_stress (val fy) (val fo) in let C := val un * val Ae * N in
  exists n lc fn, nn_cz_of pw Ae fy fo un = Ok [n; fo; lc; fn] /\ accurate 50 lc s /\ accurate 11 fn N /\ accurate 11 n C /\
    (powerRZ 2 (-49) <= Rabs (s - 3 / 2) -> accurate 48 fn N /\ accurate 48 n C).
Proof.
  intros full Ae fy fo un MA My Mo Mu s N C.
  assert (Co : close 0 200 fo (val fo)) by (apply close_weak with (3 := moderate_close fo Mo); [lra|lia]).
  destruct (n_cz_float pw full Ae (val Ae) fy fo un) as (n & lc & fn & En & Cl & NB & Ff & Fn & B1 & B2 & B3); auto.
  { apply close_weak with (3 := moderate_close Ae MA); [lra|lia]. }
  fold N in NB, B1, B2, B3. fold C in B2, B3. fold s in Cl, B3. exists n, lc, fn. split; [exact En|].
  assert (PN : 0 < N) by (pose proof (bp_pos (-202)); lra).
  assert (PC : 0 < C) by (unfold C; repeat apply Rmult_lt_0_compat; try assumption; now apply moderate_pos).
  assert (B11 : 482 / 1000000 <= powerRZ 2 (- (11))%Z).
  { change (powerRZ 2 (- (11))%Z) with (bp (- (11))). rewrite <- bp_inv, bp_Z by lia. change (2 ^ 11)%Z with 2048%Z. lra. }
  split; [apply close_acc_pow with (1 := Cl) (c := 3%Z); [lia|cbn; lra|reflexivity]|].
  split; [|split].
  - split; [exact Ff|]. rewrite (Rabs_right N) by lra. apply Rle_trans with (1 := B1). apply Rmult_le_compat_r; lra.
  - split; [exact Fn|]. rewrite (Rabs_right C) by lra. apply Rle_trans with (1 := B2). apply Rmult_le_compat_r; lra.
  - intros Sep. change (powerRZ 2 (-49)) with (bp (4 + -53)) in Sep. rewrite bp_add, bp_Z in Sep by lia. fold u53 in Sep. change (IZR (2 ^ 4)) with 16 in Sep.
    destruct (B3 Sep) as [C1 C2]. split; [apply close_acc_pow with (1 := C1) (c := 5%Z)|apply close_acc_pow with (1 := C2) (c := 5%Z)]; try lia; cbn; lra.
Qed.

(** C127. *)
Lemma compression_float pw : full_pow pw -> forall roots q l kx ky kz sym ref ab un phi FO,
  column_inputs q l kx ky ref ab phi -> torsion_inputs q kz un ->
  usual_slenderness (axis_slenderness q l kx (w_r_x q) ref) (val ab) -> usual_slenderness (axis_slenderness q l ky (w_r_y q) ref) (val ab) ->
  elastic q l kx ky kz sym FO ->
  let S := squash_load q in
  let X := flexural_capacity q l kx (w_r_x q) ref ab in let Y := flexural_capacity q l ky (w_r_y q) ref ab in
  let Z := torsional_capacity q un FO in
  exists s ps x px y py z pz c pc,
  ns6_1_1_Nc pw roots q l kx ky kz sym ref ab un phi true true =
    Ok [Some s; Some ps; Some x; Some px; Some y; Some py; Some z; Some pz; Some c; Some pc] /\
  within 50 S s S /\ within 36 S x X /\ within 36 S y Y /\
  forall d, d = 10%Z \/ d = 22%Z /\ powerRZ 2 (-20) <= Rabs (sqrt (val (w_f_y q) / FO) - 3 / 2) ->
    within d S z Z /\ within d S c (Rmin (Rmin X Y) Z) /\
    within (d - 1) (val phi * S) pz (val phi * Z) /\ within (d - 1) (val phi * S) pc (val phi * Rmin (Rmin X Y) Z).
Proof.
  intros full roots q l kx ky kz sym ref ab un phi FO I1 I2 R1 R2 El S X Y Z.
  destruct (oc_elastic pw full roots q l kx ky kz ref ab phi sym un FO I1 I2 El) as (fo & Eo & Fo & BO & HO).
  destruct I2 as (F1 & F2 & PW & Hu). repeat (apply Forall_cons_iff in F1; destruct F1 as (? & F1)).
  exact (nc_torsional pw full roots q l kx ky kz sym ref ab un phi I1 R1 R2 fo FO ltac:(assumption) Hu Eo Fo BO HO).
Qed.

(** A member 3 m long with exactly representable dimensions. *)
Definition plain : nsect pynum :=
  mk_nsect (fl 1 128) (fl 1 1) (fl 3 32) (fl 1 16) (fl 0 1) (fl 0 1) (fl 1 1048576) (fl 0 1)
    (fl 250000000 1) (fl 200000000000 1) (fl 80000000000 1).

Lemma plain_case : column_inputs plain (fl 3 1) (fl 1 1) (fl 1 1) (fl 250000000 1) (fl 5 10) (fl 9 10) /\
  torsion_inputs plain (fl 1 1) (fl 85 100) /\
  usual_slenderness (axis_slenderness plain (fl 3 1) (fl 1 1) (w_r_x plain) (fl 250000000 1)) (val (fl 5 10)) /\
  usual_slenderness (axis_slenderness plain (fl 3 1) (fl 1 1) (w_r_y plain) (fl 250000000 1)) (val (fl 5 10)) /\
  elastic plain (fl 3 1) (fl 1 1) (fl 1 1) (fl 1 1) (Some [AxStr "x"; AxStr "y"]) (80000000000 / 104) /\
  powerRZ 2 (-20) <= Rabs (sqrt (val (w_f_y plain) / (80000000000 / 104)) - 3 / 2).
Proof.
  assert (H : column_inputs plain (fl 3 1) (fl 1 1) (fl 1 1) (fl 250000000 1) (fl 5 10) (fl 9 10)).
  { split; [cbn [plain w_A_n w_k_f w_r_x w_r_y w_f_y]; mods|]. assert (M : moderate (fl 5 10)) by mods. split; [apply M|]. literal (fl 5 10). lra. }
  destruct zero_tame as [T Z0]. split; [exact H|]. split.
  { split; [cbn [plain w_J w_E w_G]; mods|]. split; [cbn [plain w_x_o w_y_o w_I_w]; repeat (constructor; [exact T|]); constructor|].
    cbn [plain w_I_w]. rewrite Z0. literal (fl 85 100). lra. }
  literal (fl 1 1). literal (fl 3 1). literal (fl 3 32). literal (fl 1 16). literal (fl 1 128). literal (fl 1 1048576).
  literal (fl 250000000 1). literal (fl 200000000000 1). literal (fl 80000000000 1).
  assert (V1 : val (fl 1 1) = 1) by lra. assert (V3 : val (fl 3 1) = 3) by lra. assert (Vx : val (fl 3 32) = 3 / 32) by lra. assert (Vy : val (fl 1 16) = 1 / 16) by lra.
  assert (VA : val (fl 1 128) = 1 / 128) by lra. assert (VJ : val (fl 1 1048576) = 1 / 1048576) by lra.
  assert (Vf : val (fl 250000000 1) = 250000000) by lra. assert (VE : val (fl 200000000000 1) = 200000000000) by lra. assert (VG : val (fl 80000000000 1) = 80000000000) by lra.
  unfold axis_slenderness, slenderness. cbn [plain w_k_f w_f_y w_r_x w_r_y]. rewrite V1, V3, Vx, Vy, Vf.
  replace (250000000 / 250000000) with 1 by lra. rewrite sqrt_1. destruct H as (_ & _ & Ha).
  split; [apply usual_slender; lra|]. split; [apply usual_slender; lra|].
  pose proof PI_4 as P4. pose proof PI2_3_2 as P3.
  assert (PP : 9 <= PI * PI <= 16) by (split; [replace 9 with (3 * 3) by ring|replace 16 with (4 * 4) by ring]; apply Rmult_le_compat; lra).
  assert (EX : bending_stress plain (fl 3 1) (fl 1 1) (w_r_x plain) = PI * PI * 195312500).
  { unfold bending_stress, euler_stress. cbn [plain w_E w_r_x]. rewrite V1, V3, Vx, VE. field. }
  assert (EP : polar_square plain = 13 / 1024).
  { unfold polar_square. cbn [plain w_r_x w_r_y w_x_o w_y_o]. rewrite Vx, Vy, Z0. field. }
  assert (EZ : twisting_stress plain (fl 3 1) (fl 1 1) = 80000000000 / 104).
  { unfold twisting_stress, torsion_stress. rewrite EP. cbn [plain w_A_n w_J w_I_w w_E w_G]. rewrite V1, V3, VA, VJ, VE, VG, Z0. field. }
  split.
  - rewrite <- (Rmin_right (PI * PI * 195312500) (80000000000 / 104)) by lra. rewrite <- coupled_min by lra.
    rewrite <- EX, <- EZ.
    replace (coupled_stress 1) with (coupled_stress (coupling plain (w_x_o plain))) by (unfold coupling; cbn [plain w_x_o]; rewrite Z0, EP; f_equal; field).
    apply elastic_double; [reflexivity|cbn [plain w_x_o]; rewrite Z0, EP; lra|]. rewrite EX, EZ.
    change (powerRZ 2 (-180)) with (bp (-180)). change (powerRZ 2 180) with (bp 180).
    assert (L1 : bp (-180) <= 1) by (rewrite <- bp_0; apply bp_le; lia).
    assert (L2 : 10000000000 <= bp 180) by (apply Rle_trans with (bp 40); [rewrite bp_Z by lia; apply IZR_le; cbn; lia|apply bp_le; lia]).
    unfold separate. rewrite Rabs_right by lra. change (powerRZ 2 (-180)) with (bp (-180)). change (powerRZ 2 180) with (bp 180). lra.
  - assert (SQ : 0 <= sqrt (250000000 / (80000000000 / 104)) <= 1).
    { split; [apply sqrt_pos|]. rewrite <- sqrt_1 at 1. apply sqrt_le_1_alt. lra. }
    change (powerRZ 2 (-20)) with (bp (-20)). rewrite Rabs_left1 by lra. apply Rle_trans with (bp (-1)); [apply bp_le; lia|].
    change (-1)%Z with (- (1))%Z. rewrite <- bp_inv, bp_1. lra.
Qed.

(** The same section in a stub 75 cm long: slendernesses 8 and 12. *)
Lemma stub_case : column_inputs plain (fl 75 100) (fl 1 1) (fl 1 1) (fl 250000000 1) (fl 5 10) (fl 9 10) /\
  usual_slenderness (axis_slenderness plain (fl 75 100) (fl 1 1) (w_r_x plain) (fl 250000000 1)) (val (fl 5 10)) /\
  usual_slenderness (axis_slenderness plain (fl 75 100) (fl 1 1) (w_r_y plain) (fl 250000000 1)) (val (fl 5 10)) /\
  axis_slenderness plain (fl 75 100) (fl 1 1) (w_r_y plain) (fl 250000000 1) < 135 / 10.
Proof.
  assert (H : column_inputs plain (fl 75 100) (fl 1 1) (fl 1 1) (fl 250000000 1) (fl 5 10) (fl 9 10)).
  { split; [cbn [plain w_A_n w_k_f w_r_x w_r_y w_f_y]; mods|]. assert (M : moderate (fl 5 10)) by mods. split; [apply M|]. literal (fl 5 10). lra. }
  split; [exact H|]. literal (fl 1 1). literal (fl 75 100). literal (fl 3 32). literal (fl 1 16). literal (fl 250000000 1). literal (fl 5 10).
  assert (V1 : val (fl 1 1) = 1) by lra. assert (V3 : val (fl 75 100) = 3 / 4) by lra. assert (Vx : val (fl 3 32) = 3 / 32) by lra. assert (Vy : val (fl 1 16) = 1 / 16) by lra.
  assert (Vf : val (fl 250000000 1) = 250000000) by lra.
  unfold axis_slenderness, slenderness. cbn [plain w_k_f w_f_y w_r_x w_r_y]. rewrite V1, V3, Vx, Vy, Vf.
  replace (250000000 / 250000000) with 1 by lra. rewrite sqrt_1. split; [apply usual_mid; lra|]. split; [apply usual_mid; lra|]. lra.
Qed.
