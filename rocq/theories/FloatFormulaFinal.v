(** The rounding bounds of the S5, S6 and S7 formulas in the form in which P_FloatFormulas.v states them, and
    inputs that meet or break them. *)

From Coq Require Import ZArith Reals List Bool Lia Lra Psatz Floats.SpecFloat.
From Verif Require Import Base Num PyNum FloatSpec FloatValSpec FloatRound FloatOps FloatFacts FloatError FloatUtil
  FloatUtilSpec FloatCheck FloatLocs FloatCapacity FloatRoot FloatFormulaSpec FloatCalc FloatFormulas FloatNear FloatAlphaC FloatStocky FloatPow
  FloatDesignCases S5 NumFormulas.
Import ListNotations.
Open Scope R_scope.
Local Opaque SFadd SFsub SFmul SFdiv SFsqrt.

Lemma close_acc k e n x X : close k e x X -> (0 <= n)%Z -> k <= IZR (2 ^ n) -> accurate (53 - n) x X.
Proof. exact (close_units k e n x X). Qed.

Lemma list_acc k e n l m : (0 <= n)%Z -> k <= IZR (2 ^ n) -> Forall2 (close k e) l m -> Forall2 (accurate (53 - n)) l m.
Proof. intros H K F. revert F. apply Forall2_imp. intros a b C. exact (close_units k e n a b C H K). Qed.

(** ** S7 *)
Lemma tension_capacity_acc A_g A_n f_y f_u k_t phi au :
  moderate A_g -> moderate A_n -> moderate f_y -> moderate f_u -> moderate k_t -> moderate phi -> moderate au ->
  Forall2 (accurate 50) (ns7_1_N_t A_g A_n f_y f_u k_t phi au)
    (let ty := val A_g * val f_y in let tu := val A_n * val f_u * val k_t * val au in
     [ty; tu; Rmin ty tu; ty * val phi; tu * val phi; Rmin ty tu * val phi]).
Proof.
  intros. apply (list_acc (0 + 44 / 10) (60 + 240) 3); [lia|change (2 ^ 3)%Z with 8%Z; lra|].
  apply N_t_close; auto using moderate_close; try lra; lia.
Qed.

Lemma tension_area_acc N f_y f_u k_t phi au :
  moderate N -> moderate f_y -> moderate f_u -> moderate k_t -> moderate phi -> moderate au ->
  exists l, ns7_1_A_reqd N f_y f_u k_t phi au = Ok l /\ Forall2 (accurate 50) l
    (let ag := val N / val f_y in let an := val N / val au / val k_t / val f_u in
     [ag; an; Rmax ag an; ag / val phi; an / val phi; Rmax ag an / val phi]).
Proof.
  intros HN Hy Hu Hk Hp Ha. destruct (A_reqd_close f_y f_u k_t phi au Hy Hu Hk Hp Ha N HN) as (l & E & F).
  exists l. split; [exact E|]. apply (list_acc (44 / 10) 300 3); [lia|change (2 ^ 3)%Z with 8%Z; lra|exact F].
Qed.

(** ** S5_Shear *)
Lemma shear_products_acc A f s c : moderate A -> moderate f -> moderate s -> moderate c ->
  accurate 51 (ns5_11_4_V_w_Generic A f s) (val s * val f * val A) /\
  accurate 51 (ns5_11_4_V_w_CHS A f s c) (val c * val s * val f * val A).
Proof.
  intros HA Hf Hs Hc. split.
  - apply (close_acc _ _ 2 _ _ (vw_generic_close A f s HA Hf Hs)); [lia|change (2 ^ 2)%Z with 4%Z; lra].
  - apply accurate_eq with (val c * (val s * val f) * val A); [ring|].
    apply (close_acc _ _ 2 _ _ (vw_chs_close A f s c HA Hf Hs Hc)); [lia|change (2 ^ 2)%Z with 4%Z; lra].
Qed.

Lemma interface_acc t f Q I s : moderate t -> moderate f -> moderate Q -> moderate I -> moderate s ->
  exists r, ns5_11_4_V_w_Interface t f Q I s = Ok r /\ accurate 50 r (val f * val s * val t * val I / val Q).
Proof.
  intros Ht Hf HQ HI Hs. destruct (vw_interface_close t f Q I s Ht Hf HQ HI Hs) as (r & E & C). exists r. split; [exact E|].
  apply (close_acc _ _ 3 _ _ C); [lia|change (2 ^ 3)%Z with 8%Z; lra].
Qed.

(** ** S5 *)
Lemma bending_products_acc a b c d : moderate a -> moderate b -> moderate c -> moderate d ->
  accurate 51 (ns5_2_M_s a b) (val a * val b) /\
  accurate 51 (ns5_6_1_Mb a b c) (val b * val c * val a) /\
  accurate 51 (ns5_6_3_l_e a b c d) (val a * val b * val c * val d).
Proof.
  intros HA HB HC HD. apply moderate_close in HA, HB, HC, HD.
  pose proof (cmul _ _ _ _ _ _ _ _ HA HB ltac:(lra) ltac:(lra) ltac:(lia) ltac:(lia) ltac:(lia)) as M.
  pose proof (cmul _ _ _ _ _ _ _ _ HB HC ltac:(lra) ltac:(lra) ltac:(lia) ltac:(lia) ltac:(lia)) as M2.
  pose proof (cmul _ _ _ _ _ _ _ _ M2 HA ltac:(lra) ltac:(lra) ltac:(lia) ltac:(lia) ltac:(lia)) as M3.
  pose proof (cmul _ _ _ _ _ _ _ _ M HC ltac:(lra) ltac:(lra) ltac:(lia) ltac:(lia) ltac:(lia)) as M4.
  pose proof (cmul _ _ _ _ _ _ _ _ M4 HD ltac:(lra) ltac:(lra) ltac:(lia) ltac:(lia) ltac:(lia)) as M5.
  split; [|split].
  - apply (close_acc _ _ 2 _ _ M); [lia|change (2 ^ 2)%Z with 4%Z; lra].
  - apply (close_acc _ _ 2 _ _ M3); [lia|change (2 ^ 2)%Z with 4%Z; lra].
  - apply (close_acc _ _ 2 _ _ M5); [lia|change (2 ^ 2)%Z with 4%Z; lra].
Qed.

Lemma alpha_s_acc pw : good_pow pw -> forall Ms Mo, moderate Ms -> moderate Mo ->
  exists a, ns5_6_alpha_s pw Ms Mo = Ok a /\ finite_double a /\
    let q := val Ms / val Mo in let exact := 6 / 10 * (sqrt (q ^ 2 + 3) - q) in
    Rabs (val a - exact) <= powerRZ 2 (-49) * (1 + q) /\ (q <= 1024 -> accurate 28 a exact /\ 0 < val a).
Proof.
  intros good Ms Mo H1 H2. destruct (alpha_s_near pw good Ms Mo H1 H2) as (a & E & F & N). exists a. split; [exact E|].
  split; [exact F|]. intros q ex. split; [exact N|]. intros Hq.
  destruct (alpha_s_rel pw good Ms Mo H1 H2 Hq) as (a' & E' & R). rewrite E in E'. injection E' as <-. exact R.
Qed.

(** ** S6 *)
Lemma compression_products_acc a b : moderate a -> moderate b ->
  accurate 52 (ns6_2_A_e a b) (val a * val b) /\ accurate 52 (ns6_2_N_s a b) (val a * val b) /\
  accurate 52 (ns6_3_2_l_e a b) (val a * val b).
Proof.
  intros HA HB. apply moderate_close in HA, HB.
  pose proof (cmul _ _ _ _ _ _ _ _ HA HB ltac:(lra) ltac:(lra) ltac:(lia) ltac:(lia) ltac:(lia)) as M.
  assert (H : accurate 52 (nmul a b) (val a * val b)) by (apply (close_acc _ _ 1 _ _ M); [lia|change (2 ^ 1)%Z with 2%Z; lra]).
  exact (conj H (conj H H)).
Qed.

Lemma euler_acc E I l r : moderate E -> moderate I -> moderate l -> moderate r ->
  (exists n, nN_euler E I l = Ok n /\ accurate 50 n (PI ^ 2 * val E * val I / val l ^ 2)) /\
  (exists f, nf_euler E l r = Ok f /\ accurate 50 f (PI ^ 2 * val E / (val l / val r) ^ 2)).
Proof.
  intros HE HI Hl Hr. split.
  - destruct (euler_close E I l HE HI Hl) as (Eq & C). eexists. split; [exact Eq|].
    apply accurate_eq with (PI * PI * val E * val I / (val l * val l)).
    { replace (val l * val l) with (val l ^ 2) by ring. unfold Rdiv. ring. }
    apply (close_acc _ _ 3 _ _ C); [lia|change (2 ^ 3)%Z with 8%Z; lra].
  - destruct (f_euler_close E l r HE Hl Hr) as (f & Eq & C). exists f. split; [exact Eq|].
    apply (close_acc _ _ 3 _ _ C); [lia|change (2 ^ 3)%Z with 8%Z; lra].
Qed.

Section Pow.
Variable pw : pynum -> pynum -> res pynum.
Hypothesis good : good_pow pw.

Lemma r_ol_acc rx ry xo yo : moderate rx -> moderate ry -> tame xo -> tame yo ->
  exists r, nr_ol pw rx ry xo yo = Ok r /\ accurate 50 r (sqrt (val rx ^ 2 + val ry ^ 2 + val xo ^ 2 + val yo ^ 2)).
Proof.
  intros H1 H2 H3 H4. destruct (r_ol_close pw good rx ry xo yo H1 H2 H3 H4) as (r & E & C). exists r. split; [exact E|].
  apply (close_acc _ _ 3 _ _ C); [lia|change (2 ^ 3)%Z with 8%Z; lra].
Qed.

Lemma lambda_n_acc kf l r fy ref : moderate kf -> moderate l -> moderate r -> moderate fy -> moderate ref ->
  exists x, ns6_3_3_lambda_n pw kf l r fy ref = Ok x /\ accurate 49 x (val l / val r * sqrt (val kf) * sqrt (val fy / val ref)).
Proof.
  intros H1 H2 H3 H4 H5. destruct (lambda_n_close pw good kf l r fy ref H1 H2 H3 H4 H5) as (x & E & C). exists x. split; [exact E|].
  apply (close_acc _ _ 4 _ _ C); [lia|change (2 ^ 4)%Z with 16%Z; lra].
Qed.

Lemma factor_eq X b :
  let A := 2100 * (X - 27 / 2) / (X * X - 153 / 10 * X + 2050) in
  let L := X + A * b in
  let H := Rmax (326 / 100000 * (L - 27 / 2)) 0 in
  let S := L / 90 * (L / 90) in
  let Xi := (S + 1 + H) / (2 * S) in
  let Q := 90 / (Xi * L) in
  member_factor X b = Xi * (1 - sqrt (1 - Q * Q)).
Proof.
  intros A L H S Xi Q. unfold member_factor. replace (135 / 10) with (27 / 2) by field. replace (X ^ 2) with (X * X) by ring. fold A. fold L. fold H.
  replace ((L / 90) ^ 2) with S by (unfold S; ring). fold Xi. replace ((90 / (Xi * L)) ^ 2) with (Q * Q) by (unfold Q; ring). reflexivity.
Qed.

Lemma h36 k : k <= 131072 -> k * u53 <= powerRZ 2 (-36).
Proof.
  intros K. change (powerRZ 2 (-36)) with (bp (-36)). replace (-36)%Z with (17 + -53)%Z by reflexivity. rewrite bp_add.
  change (bp (-53)) with u53. rewrite bp_Z by lia. change (2 ^ 17)%Z with 131072%Z. apply Rmult_le_compat_r; [|exact K]. pose proof u53_small. lra.
Qed.

Lemma effective_eq X b : effective_slenderness X b = X + 2100 * (X - 27 / 2) / (X * X - 153 / 10 * X + 2050) * b.
Proof. unfold effective_slenderness. replace (135 / 10) with (27 / 2) by field. replace (X ^ 2) with (X * X) by ring. reflexivity. Qed.

Lemma alpha_c_acc x ab : moderate x -> usual_slenderness (val x) (val ab) -> finite_double ab -> -1 <= val ab <= 1 ->
  exists aa lam eta xi ac, ns6_3_3_alpha_c pw x ab = Ok [aa; lam; eta; xi; ac] /\ finite_double ac /\
    Rabs (val ac - member_factor (val x) (val ab)) <= powerRZ 2 (-36).
Proof.
  intros M [HX HL] F Hab. rewrite effective_eq in HL. pose proof (moderate_close x M) as C. apply close_weak with (k' := 15) (e' := 60%Z) in C; [|lra|lia].
  destruct (alpha_c_any pw good 60 x (val x) ab C HX F Hab HL) as (aa & lam & eta & xi & ac & E & N).
  exists aa, lam, eta, xi, ac. split; [exact E|]. rewrite <- factor_eq in N. destruct N as (Fa & B). split; [exact Fa|].
  apply Rle_trans with (1 := B). apply h36. lra.
Qed.

Lemma root_gap q : 0 <= q <= 1 -> q / 2 <= 1 - sqrt (1 - q).
Proof.
  intros H. assert (sqrt (1 - q) <= 1 - q / 2).
  { rewrite <- (sqrt_square (1 - q / 2)) by lra. apply sqrt_le_1_alt. nra. }
  lra.
Qed.

Lemma factor_bounds X b : usual_slenderness X b -> -1 <= b <= 1 -> 1 / 10000 <= member_factor X b <= 25.
Proof.
  intros [HX HL] Hb. rewrite effective_eq in HL. destruct (Rle_dec X (27 / 2)) as [K|K].
  { rewrite factor_eq. pose proof (L_short X b ltac:(lra) Hb) as L1. set (L := X + _ * b) in *.
    assert (L0 : 1 <= L <= 14) by lra. pose proof (X_short L L0) as (X0 & _). pose proof (Q_short L L0) as (Q0 & Q1 & Q2).
    set (H := Rmax _ _) in *. set (S := L / 90 * (L / 90)) in *. set (Xi := (S + 1 + H) / (2 * S)) in *. set (Q := 90 / (Xi * L)) in *.
    assert (QQ : 0 <= Q * Q <= 1 / 2) by nra. pose proof (root_gap (Q * Q) ltac:(lra)) as G. pose proof (root_gap_up (Q * Q) QQ) as G2. split.
    - apply Rle_trans with (Xi * (Q * Q / 2)); [lra|apply Rmult_le_compat_l; lra].
    - apply Rle_trans with (Xi * (6 / 10 * (Q * Q))); [apply Rmult_le_compat_l; lra|lra]. }
  clear HL. assert (HX' : 27 / 2 <= X <= 1000) by lra. clear HX K. rename HX' into HX. rewrite factor_eq. pose proof (L_bounds X b HX Hb) as (L0 & _).
  set (L := X + _ * b) in *. pose proof (X_bounds L L0) as X0. pose proof (Q_bounds L L0) as Q0.
  set (H := Rmax _ _) in *. set (S := L / 90 * (L / 90)) in *. set (Xi := (S + 1 + H) / (2 * S)) in *. set (Q := 90 / (Xi * L)) in *.
  assert (EQ : Q * (Xi * L) = 90) by (unfold Q; field; split; lra).
  assert (QQ : 0 <= Q * Q <= 1) by nra. pose proof (root_gap (Q * Q) QQ) as G. pose proof (sqrt_pos (1 - Q * Q)) as Sp. split.
  - apply Rle_trans with (Xi * (Q * Q / 2)); [|apply Rmult_le_compat_l; lra].
    assert (Q1 : 90 / 25525 <= Q).
    { apply Rmult_le_reg_r with (Xi * L); [apply Rmult_lt_0_compat; lra|]. rewrite EQ.
      assert (Xi * L <= 25 * 1021) by (apply Rmult_le_compat; lra). lra. }
    replace (Xi * (Q * Q / 2)) with (Q * (Xi * L) * Q / (2 * L)) by (field; lra). rewrite EQ.
    apply Rmult_le_reg_r with (2 * L); [lra|]. replace (90 * Q / (2 * L) * (2 * L)) with (90 * Q) by (field; lra). lra.
  - apply Rle_trans with (25 * 1); [apply Rmult_le_compat; lra|lra].
Qed.

Lemma N_c_cl A_n k_f l_e L r f_y f_ref ab : moderate A_n -> moderate k_f -> close (11 / 10) 120 l_e L -> moderate r -> moderate f_y -> moderate f_ref ->
  finite_double ab -> -1 <= val ab <= 1 ->
  let ln := L / val r * sqrt (val k_f) * sqrt (val f_y / val f_ref) in
  usual_slenderness ln (val ab) ->
  exists n, ns6_3_3_N_c pw A_n k_f l_e r f_y f_ref ab = Ok n /\ finite_double n /\
    let N_s := val A_n * val k_f * val f_y in
    Rabs (val n - N_s * member_factor ln (val ab)) <= powerRZ 2 (-36) * N_s.
Proof.
  intros HA Hk Hl Hr Hf Hg F Hab ln Hln. destruct (lambda_n_cl pw good k_f l_e L r f_y f_ref Hk Hl Hr Hf Hg) as (x & Ex & C). fold ln in C.
  apply close_weak with (k' := 15) (e' := 270%Z) in C; [|lra|lia].
  pose proof (proj2 Hln) as HL. rewrite effective_eq in HL.
  destruct (alpha_c_any pw good 270 x ln ab C (proj1 Hln) F Hab HL) as (aa & lam & eta & xi & ac & E & N).
  rewrite <- factor_eq in N. pose proof (factor_bounds ln (val ab) Hln Hab) as FB. set (m := member_factor ln (val ab)) in *.
  pose proof (cmul _ _ _ _ _ _ _ _ (moderate_close _ HA) (moderate_close _ Hk) ltac:(lra) ltac:(lra) ltac:(lia) ltac:(lia) ltac:(lia)) as C1.
  pose proof (cmul _ _ _ _ _ _ _ _ C1 (moderate_close _ Hf) ltac:(lra) ltac:(lra) ltac:(lia) ltac:(lia) ltac:(lia)) as C2.
  change (60 + 60 + 60)%Z with 180%Z in C2.
  exists (nmul (nmul (nmul A_n k_f) f_y) ac). split.
  { unfold ns6_3_3_N_c. rewrite Ex. cbn [bind]. rewrite E. reflexivity. }
  pose proof u53_small as U. pose proof u53_val as U'.
  destruct (close_ratio _ _ _ _ C2) as (a & Ea & Ba). pose proof (close_pos _ _ _ _ C2) as NP.
  destruct C2 as (F2 & _ & R2). destruct N as (Fc & Bc). set (Ns := val A_n * val k_f * val f_y) in *.
  destruct (proj1 (finite_double_fin _) F2) as (f & Ef & Gf). destruct (proj1 (finite_double_fin _) Fc) as (g & -> & Gg).
  rewrite Ef in *. rewrite val_sfR in *.
  assert (G0 : 1 / 20000 <= sfR g <= 26) by (apply abs_le in Bc; lra).
  assert (A0 : 999 / 1000 <= a <= 1001 / 1000) by (apply abs_le in Ba; lra).
  assert (P : bp (-1022) <= Rabs (sfR f * sfR g) <= bp 1022).
  { rewrite Ea. rewrite Rabs_right by (apply Rle_ge, Rmult_le_pos; [apply Rmult_le_pos; lra|lra]). 
    assert (AG : / 40000 <= a * sfR g <= 1024).
    { split; [apply Rle_trans with (999 / 1000 * (1 / 20000)); [lra|apply Rmult_le_compat; lra]|].
      apply Rle_trans with (1001 / 1000 * 26); [apply Rmult_le_compat; lra|lra]. }
    change (-180)%Z with (- (180))%Z in R2. split.
    - apply Rle_trans with (bp (- (180)) * / 40000).
      + apply Rle_trans with (bp (- (180)) * bp (-20)); [rewrite <- bp_add; apply bp_le; lia|]. apply Rmult_le_compat_l; [apply Rlt_le, bp_pos|].
        replace (bp (-20)) with (/ bp 20) by apply (bp_inv 20). rewrite bp_Z by lia. change (2 ^ 20)%Z with 1048576%Z. lra.
      + rewrite (Rmult_comm a), Rmult_assoc. apply Rmult_le_compat; try lra; apply Rlt_le, bp_pos.
    - apply Rle_trans with (bp 180 * bp 10); [|rewrite <- bp_add; apply bp_le; lia]. rewrite (Rmult_comm a), Rmult_assoc.
      apply Rmult_le_compat; try lra. rewrite bp_Z by lia. change (2 ^ 10)%Z with 1024%Z. lra. }
  destruct (rounds_normal _ _ (mul_rounds f g Gf Gg) P) as (Fr & e & He & Er).
  assert (FR : finite_double (nmul (PFlt f) (PFlt g))) by (apply fin_double; exact Fr). split; [exact FR|]. cbv zeta. fold Ns.
  change (val (nmul (PFlt f) (PFlt g))) with (val (PFlt (SFmul f64 e64 f g))). rewrite val_sfR, Er, Ea.
  replace (a * Ns * sfR g * (1 + e) - Ns * m) with (Ns * (a * sfR g * (1 + e) - m)) by ring. rewrite Rabs_mult, (Rabs_right Ns) by lra.
  rewrite (Rmult_comm (powerRZ _ _)). apply Rmult_le_compat_l; [lra|]. apply Rle_trans with (100000 * u53); [|apply h36; lra].
  set (d := a - 1) in *. replace (a * sfR g * (1 + e) - m) with ((sfR g - m) + sfR g * (d + e + d * e)) by (unfold d; ring).
  apply abs_le in Bc, Ba, He. assert (Rabs (d * e) <= u53).
  { rewrite Rabs_mult. apply Rle_trans with (1 * u53); [apply Rmult_le_compat; auto using Rabs_pos; apply abs_le; lra|lra]. }
  apply abs_le in H. assert (Rabs (d + e + d * e) <= 10 * u53) by (apply abs_le; lra).
  assert (Rabs (sfR g * (d + e + d * e)) <= 26 * (10 * u53)).
  { rewrite Rabs_mult. apply Rmult_le_compat; auto using Rabs_pos. apply abs_le. lra. }
  apply abs_le in H1. apply abs_le. lra.
Qed.

Lemma N_c_acc A_n k_f l_e r f_y f_ref ab : moderate A_n -> moderate k_f -> moderate l_e -> moderate r -> moderate f_y -> moderate f_ref ->
  finite_double ab -> -1 <= val ab <= 1 ->
  let ln := val l_e / val r * sqrt (val k_f) * sqrt (val f_y / val f_ref) in
  usual_slenderness ln (val ab) ->
  exists n, ns6_3_3_N_c pw A_n k_f l_e r f_y f_ref ab = Ok n /\ finite_double n /\
    let N_s := val A_n * val k_f * val f_y in
    Rabs (val n - N_s * member_factor ln (val ab)) <= powerRZ 2 (-36) * N_s.
Proof.
  intros HA Hk Hl. apply N_c_cl; auto. apply close_weak with (3 := moderate_close l_e Hl); [lra|lia].
Qed.
End Pow.

(** ** Cases and counterexamples *)
Lemma lit_moderate n d : (1 <= n <= 2 ^ 20)%Z -> (1 <= Z.pos d <= 2 ^ 20)%Z -> moderate (fl n d).
Proof.
  intros Hn Hd. pose proof (clit n d Hn Hd) as C. change (@nflt pynum PNum n d) with (fl n d) in C.
  pose proof (close_pos _ _ _ _ C) as P. destruct C as (F & E & B). split; [exact F|]. pose proof u53_small as U.
  set (X := IZR n / IZR (Z.pos d)) in *.
  assert (E' : Rabs (val (fl n d) - X) <= 1 / 2 * X) by (apply Rle_trans with (1 := E); apply Rmult_le_compat_r; lra).
  apply abs_le in E'. change (powerRZ 2 (-60)) with (bp (-60)). change (powerRZ 2 60) with (bp 60).
  assert (bp (-60) <= bp (- (40)) * / 4).
  { replace (-60)%Z with (- (40) + -20)%Z by reflexivity. rewrite bp_add. apply Rmult_le_compat_l; [apply Rlt_le, bp_pos|].
    replace (bp (-20)) with (/ bp 20) by apply (bp_inv 20). rewrite bp_Z by lia. change (2 ^ 20)%Z with 1048576%Z. lra. }
  assert (bp 40 * 4 <= bp 60).
  { replace 60%Z with (40 + 20)%Z by reflexivity. rewrite bp_add. apply Rmult_le_compat_l; [apply Rlt_le, bp_pos|].
    rewrite bp_Z by lia. change (2 ^ 20)%Z with 1048576%Z. lra. }
  lra.
Qed.

Ltac lits := repeat match goal with |- Forall _ _ => constructor | |- _ /\ _ => split | |- moderate _ => apply lit_moderate; lia end.

Lemma round_trip_short : moderate (fl 11000 1) /\ moderate (fl 250 1) /\ moderate (fl 410 1) /\ moderate (fl 1 1) /\ moderate (fl 9 10) /\ moderate (fl 85 100)
  /\ exists ag an a pag pan pa, ns7_1_A_reqd (fl 11000 1) (fl 250 1) (fl 410 1) (fl 1 1) (fl 9 10) (fl 85 100) = Ok [ag; an; a; pag; pan; pa]
  /\ exists ty tu n pty ptu pn, ns7_1_N_t pa pa (fl 250 1) (fl 410 1) (fl 1 1) (fl 9 10) (fl 85 100) = [ty; tu; n; pty; ptu; pn] /\ val pn < 11000.
Proof.
  lits. do 6 eexists. split; [vm_compute; reflexivity|]. do 6 eexists. split; [vm_compute; reflexivity|].
  rewrite val_sfR. cbn [sfR signed]. change (-39)%Z with (- (39))%Z. rewrite <- (bp_inv 39), bp_Z by lia.
  change (2 ^ 39)%Z with 549755813888%Z. lra.
Qed.

Lemma round_trip_refuted : ~ forall N fy fu kt phi au, moderate N -> moderate fy -> moderate fu -> moderate kt -> moderate phi -> moderate au ->
  exists ag an a pag pan pa, ns7_1_A_reqd N fy fu kt phi au = Ok [ag; an; a; pag; pan; pa] /\
  exists ty tu n pty ptu pn, ns7_1_N_t pa pa fy fu kt phi au = [ty; tu; n; pty; ptu; pn] /\ val N <= val pn.
Proof.
  intros H. destruct round_trip_short as (M1 & M2 & M3 & M4 & M5 & M6 & ag & an & a & pag & pan & pa & E & ty & tu & n & pty & ptu & pn & En & V).
  destruct (H _ _ _ _ _ _ M1 M2 M3 M4 M5 M6) as (ag' & an' & a' & pag' & pan' & pa' & E' & ty' & tu' & n' & pty' & ptu' & pn' & En' & V').
  assert (L : Ok [ag; an; a; pag; pan; pa] = Ok [ag'; an'; a'; pag'; pan'; pa']) by (rewrite <- E, <- E'; reflexivity).
  injection L as -> -> -> -> -> ->. rewrite En in En'. injection En' as -> -> -> -> -> ->.
  assert (V0 : val (fl 11000 1) = 11000).
  { replace (fl 11000 1) with (PFlt (S754_finite false 6047313952768000 (-39))) by (vm_compute; reflexivity).
    rewrite val_sfR. cbn [sfR signed]. change (-39)%Z with (- (39))%Z. rewrite <- (bp_inv 39), bp_Z by lia. change (2 ^ 39)%Z with 549755813888%Z. lra. }
  lra.
Qed.

Lemma slender_beam_zero : ns5_6_alpha_s soft_pow (fl 131072 1) (fl 1 1024) = Ok (PFlt (S754_zero false)).
Proof. vm_compute. reflexivity. Qed.

Lemma alpha_s_refuted : ~ forall pw, good_pow pw -> forall Ms Mo, moderate Ms -> moderate Mo ->
  exists a, ns5_6_alpha_s pw Ms Mo = Ok a /\ 0 < val a.
Proof.
  intros H. destruct (H soft_pow soft_good (fl 131072 1) (fl 1 1024)) as (a & E & P); try (apply lit_moderate; lia).
  rewrite slender_beam_zero in E. injection E as <-. cbn [val] in P. lra.
Qed.

Lemma factor_short X : 0 < X <= 27 / 2 -> member_factor X 0 = 1.
Proof.
  intros HX. rewrite factor_eq. rewrite Rmult_0_r, Rplus_0_r. rewrite Rmax_right by lra.
  set (y := X / 90). assert (Y : 0 < y < 1) by (unfold y; lra). assert (EX : X = 90 * y) by (unfold y; field).
  set (S := y * y). assert (HS : 0 < S < 1) by (unfold S; nra).
  rewrite Rplus_0_r. set (Q := 90 / _).
  assert (EQ : 1 - Q * Q = (1 - S) / (1 + S) * ((1 - S) / (1 + S))).
  { unfold Q. rewrite EX. unfold S. field. repeat split; nra. }
  rewrite EQ, sqrt_square.
  - field. split; lra.
  - apply Rmult_le_pos; [lra|]. apply Rlt_le, Rinv_0_lt_compat. lra.
Qed.

Lemma stub_moderate : moderate (fl 1 100000000). Proof. is_moderate (fl 1 100000000). Qed.

Lemma stub_zero : exists aa lam eta xi, ns6_3_3_alpha_c soft_pow (fl 1 100000000) (fl 0 1) = Ok [aa; lam; eta; xi; PFlt (S754_zero false)].
Proof. do 4 eexists. vm_compute. reflexivity. Qed.

Lemma zero_finite : finite_double (fl 0 1).
Proof. change (fl 0 1) with (@nflt pynum PNum 0 1). apply lit0. Qed.

Lemma zero_val : val (fl 0 1) = 0.
Proof. vm_compute. reflexivity. Qed.

Lemma alpha_c_refuted : ~ forall pw, good_pow pw -> forall x ab, moderate x -> finite_double ab -> -1 <= val ab <= 1 ->
  exists aa lam eta xi ac, ns6_3_3_alpha_c pw x ab = Ok [aa; lam; eta; xi; ac] /\ finite_double ac /\
    Rabs (val ac - member_factor (val x) (val ab)) <= powerRZ 2 (-36).
Proof.
  intros H. destruct stub_moderate as (F & B).
  destruct (H soft_pow soft_good (fl 1 100000000) (fl 0 1) stub_moderate zero_finite) as (aa & lam & eta & xi & ac & E & _ & Bd).
  { rewrite zero_val. lra. }
  destruct stub_zero as (aa' & lam' & eta' & xi' & E'). rewrite E' in E. injection E as _ _ _ _ <-.
  assert (L : 0 < val (fl 1 100000000) <= 27 / 2) by (literal (fl 1 100000000); lra).
  rewrite zero_val, factor_short in Bd by exact L. cbn [val] in Bd. rewrite Rminus_0_l, Rabs_Ropp, Rabs_R1 in Bd.
  change (powerRZ 2 (-36)) with (bp (-36)) in Bd. assert (bp (-36) <= bp (-1)) by (apply bp_le; lia).
  replace (bp (-1)) with (/ bp 1) in H0 by apply (bp_inv 1). rewrite bp_1 in H0. lra.
Qed.

Lemma tame_moderate x : moderate x -> tame x.
Proof.
  intros (F & B). split; [exact F|]. right. pose proof (powerRZ_lt 2 (-60) ltac:(lra)). rewrite Rabs_right by lra. exact B.
Qed.

Lemma beam_numbers : moderate (fl 3 1) /\ moderate (fl 765 100000000) /\ moderate (fl 157 1000000000) /\ moderate (fl 200 1) /\ moderate (fl 80 1)
  /\ moderate (fl 186 1) /\ moderate (fl 250 1) /\ tame (fl (-100) 1) /\ tame (fl 0 1) /\ tame (fl 50 1) /\ val (fl (-100) 1) <> 0 /\ val (fl 50 1) <> 0.
Proof.
  assert (M : moderate (fl 50 1)) by (apply lit_moderate; lia).
  assert (H : finite_double (fl (-100) 1) /\ val (fl (-100) 1) = -100).
  { replace (fl (-100) 1) with (PFlt (S754_finite true 7036874417766400 (-46))) by (vm_compute; reflexivity). split; [apply fin_double; vm_compute; reflexivity|].
    rewrite val_sfR. cbn [sfR signed]. change (-46)%Z with (- (46))%Z. rewrite <- (bp_inv 46), bp_Z by lia. change (2 ^ 46)%Z with 70368744177664%Z. lra. }
  split; [apply lit_moderate; lia|]. split; [is_moderate (fl 765 100000000)|]. split; [is_moderate (fl 157 1000000000)|].
  split; [apply lit_moderate; lia|]. split; [apply lit_moderate; lia|]. split; [apply lit_moderate; lia|]. split; [apply lit_moderate; lia|].
  split.
  { destruct H as (F & V). split; [exact F|]. right. rewrite V. change (powerRZ 2 (-60)) with (bp (-60)). change (powerRZ 2 60) with (bp 60).
    rewrite Rabs_left by lra. split; [apply Rle_trans with (bp 0); [apply bp_le; lia|rewrite bp_0; lra]|].
    apply Rle_trans with (bp 20); [rewrite bp_Z by lia; change (2 ^ 20)%Z with 1048576%Z; lra|apply bp_le; lia]. }
  split; [split; [exact zero_finite|left; exact zero_val]|]. split; [now apply tame_moderate|].
  split; [rewrite (proj2 H); lra|]. apply Rgt_not_eq. now apply moderate_pos.
Qed.

Lemma column_numbers : (moderate (fl 5000 1) /\ moderate (fl 1 1) /\ moderate (fl 4000 1) /\ moderate (fl 60 1) /\ moderate (fl 300 1) /\ moderate (fl 250 1))
  /\ finite_double (fl 5 10) /\ -1 <= val (fl 5 10) <= 1
  /\ 135 / 10 <= val (fl 4000 1) / val (fl 60 1) * sqrt (val (fl 1 1)) * sqrt (val (fl 300 1) / val (fl 250 1)) <= 1000.
Proof.
  split; [lits|]. assert (M : moderate (fl 5 10)) by (apply lit_moderate; lia). split; [apply M|].
  literal (fl 5 10). literal (fl 4000 1). literal (fl 60 1). literal (fl 1 1). literal (fl 300 1). literal (fl 250 1).
  split; [lra|]. replace (val (fl 1 1)) with 1 by lra. rewrite sqrt_1. 
  replace (val (fl 4000 1)) with 4000 by lra. replace (val (fl 60 1)) with 60 by lra. replace (val (fl 300 1)) with 300 by lra. replace (val (fl 250 1)) with 250 by lra.
  assert (S : 1 <= sqrt (300 / 250) <= 2).
  { split; [rewrite <- sqrt_1 at 1|rewrite <- (sqrt_square 2) by lra]; apply sqrt_le_1_alt; lra. }
  split; lra.
Qed.

Lemma ordinary_beam : moderate (fl 186 1) /\ moderate (fl 80 1) /\ val (fl 186 1) / val (fl 80 1) <= 1024.
Proof.
  split; [apply lit_moderate; lia|]. split; [apply lit_moderate; lia|]. literal (fl 186 1). literal (fl 80 1).
  replace (val (fl 186 1)) with 186 by lra. replace (val (fl 80 1)) with 80 by lra. lra.
Qed.

(** Members of ordinary slenderness, and stocky ones with a section constant that is not positive, are covered. *)
Lemma usual_slender X b : 27 / 2 <= X <= 1000 -> -1 <= b <= 1 -> usual_slenderness X b.
Proof. intros HX Hb. split; [lra|]. rewrite effective_eq. pose proof (L_bounds X b HX Hb). lra. Qed.

Lemma usual_stocky X b : 1 <= X <= 27 / 2 -> -1 <= b <= 0 -> usual_slenderness X b.
Proof.
  intros HX Hb. split; [lra|]. rewrite effective_eq. pose proof (A_short X ltac:(lra)) as ([_ A1] & _). set (A := 2100 * _ / _) in *.
  assert (0 <= A * b) by nra. lra.
Qed.

Lemma usual_mid X b : 7 <= X <= 27 / 2 -> -1 <= b <= 8 / 10 -> usual_slenderness X b.
Proof.
  intros HX Hb. split; [lra|]. rewrite effective_eq. pose proof (A_short X ltac:(lra)) as ([A0 A1] & _). pose proof (D_short X ltac:(lra)) as (D0 & _).
  set (D := X * X - 153 / 10 * X + 2050) in *. assert (E : 2100 * (X - 27 / 2) / D * D = 2100 * (X - 27 / 2)) by (field; lra).
  set (A := 2100 * _ / D) in *. assert (- (69 / 10) <= A) by (apply Rmult_le_reg_r with D; [lra|]; rewrite E; lra). nra.
Qed.

Lemma usual_covered ln b : -1 <= b <= 1 -> ln <= 1000 -> 135 / 10 <= ln \/ 7 <= ln /\ b <= 8 / 10 \/ 1 <= ln /\ b <= 0 ->
  usual_slenderness ln b.
Proof.
  intros Hb Hl H. destruct (Rle_dec (27 / 2) ln) as [K|K]; [apply usual_slender; lra|].
  destruct H as [H|[H|H]]; [lra|apply usual_mid; lra|apply usual_stocky; lra].
Qed.

Lemma column_slenderness : (moderate (fl 73 1) /\ usual_slenderness (val (fl 73 1)) (val (fl 5 10))) /\
  (moderate (fl 9 1) /\ usual_slenderness (val (fl 9 1)) (val (fl 5 10))) /\ finite_double (fl 5 10) /\ -1 <= val (fl 5 10) <= 1.
Proof.
  assert (M : moderate (fl 5 10)) by (apply lit_moderate; lia). literal (fl 73 1). literal (fl 5 10). literal (fl 9 1).
  split; [|split; [|split; [apply M|lra]]]; (split; [apply lit_moderate; lia|]).
  - apply usual_slender; lra.
  - apply usual_mid; lra.
Qed.
