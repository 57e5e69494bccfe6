(** The tension capacity computed on doubles. *)

From Coq Require Import ZArith Reals List Bool String Lia Lra Floats.SpecFloat.
From Verif Require Import Base Num PyNum Numpy LoadCase Beam Material AS4100 AS4100Spec AS4100Facts
  FloatSpec FloatValSpec FloatRound FloatOps FloatFacts FloatError FloatUtil FloatUtilSpec FloatCheck BeamPositions PiBound.
Import ListNotations.
Open Scope R_scope.
Local Opaque SFadd SFsub SFmul SFdiv.

(** [x] is within [k] units of [X], which is between 2^-e and 2^e. *)
Definition close (k : R) (e : Z) (x : pynum) (X : R) : Prop :=
  finite_double x /\ Rabs (val x - X) <= k * u53 * X /\ bp (- e) <= X <= bp e.

Lemma close_mul k j e g x y X Y : close k e x X -> close j g y Y -> 0 <= k <= 10 -> 0 <= j <= 10 ->
  (0 <= e)%Z -> (0 <= g)%Z -> (e + g <= 1000)%Z -> close (k + j + 101 / 100) (e + g) (nmul x y) (X * Y).
Proof.
  intros (Fx & Ex & Bx) (Fy & Ey & By) Hk Hj He Hg Hs.
  apply finite_double_fin in Fx, Fy. destruct Fx as (f & -> & Fx), Fy as (h & -> & Fy). rewrite !val_sfR in *.
  pose proof u53_small as U. pose proof u53_val as U'.
  pose proof (bp_pos (- e)) as P1. pose proof (bp_pos (- g)) as P2.
  assert (PX : 0 < X) by lra. assert (PY : 0 < Y) by lra. assert (PXY : 0 < X * Y) by now apply Rmult_lt_0_compat.
  assert (BXY : bp (- (e + g)) <= X * Y <= bp (e + g)).
  { replace (- (e + g))%Z with (- e + - g)%Z by lia. rewrite !bp_add. split; apply Rmult_le_compat; lra. }
  set (a := sfR f / X). set (b := sfR h / Y).
  assert (Ea : sfR f = a * X) by (unfold a; field; lra). assert (Eb : sfR h = b * Y) by (unfold b; field; lra).
  assert (Ha : Rabs (a - 1) <= k * u53).
  { replace (a - 1) with ((sfR f - X) * / X) by (unfold a; field; lra). rewrite Rabs_mult, (Rabs_right (/ X)) by (apply Rle_ge, Rlt_le, Rinv_0_lt_compat; lra).
    apply Rmult_le_reg_r with X; [lra|]. rewrite Rmult_assoc, Rinv_l by lra. lra. }
  assert (Hb : Rabs (b - 1) <= j * u53).
  { replace (b - 1) with ((sfR h - Y) * / Y) by (unfold b; field; lra). rewrite Rabs_mult, (Rabs_right (/ Y)) by (apply Rle_ge, Rlt_le, Rinv_0_lt_compat; lra).
    apply Rmult_le_reg_r with Y; [lra|]. rewrite Rmult_assoc, Rinv_l by lra. lra. }
  assert (Ka : 0 <= k * u53 <= 10 * u53) by (split; [apply Rmult_le_pos; lra|apply Rmult_le_compat_r; lra]).
  assert (Kb : 0 <= j * u53 <= 10 * u53) by (split; [apply Rmult_le_pos; lra|apply Rmult_le_compat_r; lra]).
  apply abs_le in Ha, Hb.
  assert (Hab : Rabs (a * b - 1) <= (k + j + 1 / 1000) * u53).
  { replace (a * b - 1) with ((a - 1) + (b - 1) + (a - 1) * (b - 1)) by ring.
    assert (Rabs ((a - 1) * (b - 1)) <= (10 * u53) * (10 * u53)).
    { rewrite Rabs_mult. apply Rmult_le_compat; try apply Rabs_pos; apply abs_le; lra. }
    assert ((10 * u53) * (10 * u53) <= 1 / 1000 * u53) by (replace (10 * u53 * (10 * u53)) with ((100 * u53) * u53) by ring; apply Rmult_le_compat_r; lra).
    apply abs_le in H. apply abs_le. lra. }
  assert (Big : bp (-1022) <= Rabs (sfR f * sfR h) <= bp 1022).
  { rewrite Ea, Eb. replace (a * X * (b * Y)) with (a * b * (X * Y)) by ring. apply abs_le in Hab.
    assert (AB : 1 / 2 <= a * b <= 2).
    { assert (S : (k + j + 1 / 1000) * u53 <= 21 * u53) by (apply Rmult_le_compat_r; lra). lra. }
    rewrite Rabs_right by (apply Rle_ge, Rmult_le_pos; lra).
    assert (L1 : bp (-1022) * 2 <= X * Y).
    { replace (bp (-1022) * 2) with (bp (-1021)) by (change (-1021)%Z with (-1022 + 1)%Z; rewrite bp_add, bp_1; reflexivity).
      apply Rle_trans with (2 := proj1 BXY). apply bp_le. lia. }
    assert (L2 : X * Y * 2 <= bp 1022).
    { replace (bp 1022) with (bp 1021 * 2) by (change 1022%Z with (1021 + 1)%Z; rewrite bp_add, bp_1; reflexivity).
      apply Rmult_le_compat_r; [lra|]. apply Rle_trans with (1 := proj2 BXY). apply bp_le. lia. }
    split.
    - assert (1 / 2 * (X * Y) <= a * b * (X * Y)) by (apply Rmult_le_compat_r; lra). lra.
    - assert (a * b * (X * Y) <= 2 * (X * Y)) by (apply Rmult_le_compat_r; lra). lra. }
  destruct (mul_norm f h Fx Fy Big) as (d & Hd & Fm & Em).
  split; [apply (fin_double _ Fm)|]. split; [|exact BXY].
  change (nmul (PFlt f) (PFlt h)) with (PFlt (SFmul f64 e64 f h)). rewrite val_sfR, Em, Ea, Eb.
  replace (a * X * (b * Y) * (1 + d) - X * Y) with ((X * Y) * ((a * b) * (1 + d) - 1)) by ring.
  rewrite Rabs_mult, (Rabs_right (X * Y)) by lra. rewrite (Rmult_comm ((k + j + 101 / 100) * u53)).
  apply Rmult_le_compat_l; [lra|].
  replace (a * b * (1 + d) - 1) with ((a * b - 1) + d + (a * b - 1) * d) by ring.
  assert (S : (k + j + 1 / 1000) * u53 <= 21 * u53) by (apply Rmult_le_compat_r; lra).
  assert (Rabs ((a * b - 1) * d) <= (21 * u53) * u53).
  { rewrite Rabs_mult. apply Rmult_le_compat; try apply Rabs_pos; [apply Rle_trans with (1 := Hab); exact S|exact Hd]. }
  assert ((21 * u53) * u53 <= 1 / 1000 * u53) by (apply Rmult_le_compat_r; lra).
  apply abs_le in H, Hab, Hd. apply abs_le. lra.
Qed.

Lemma moderate_close x : moderate x -> close 0 60 x (val x).
Proof.
  intros (F & B). split; [exact F|]. split; [|exact B].
  rewrite Rminus_eq_0, Rabs_R0. lra.
Qed.

Lemma pi_close : close (1 / 2) 2 npi PI.
Proof.
  destruct PI_near as [L U]. split.
  - apply finite_double_fin. eexists. split; [reflexivity|]. vm_compute. reflexivity.
  - change npi with (PFlt (S754_finite false 7074237752028440 (-51))). cbn [val].
    change (powerRZ 2 (-51)) with (bp (-51)).
    assert (E51 : bp (-51) * bp 51 = 1) by (rewrite <- bp_add; apply bp_0). rewrite (bp_Z 51) in E51 by lia.
    assert (E53 : u53 * bp 53 = 1) by (unfold u53; rewrite <- bp_add; apply bp_0). rewrite (bp_Z 53) in E53 by lia.
    assert (E2 : bp (-2) * bp 2 = 1) by (rewrite <- bp_add; apply bp_0). rewrite (bp_Z 2) in E2 by lia.
    rewrite (bp_Z 2) by lia. cbn [Z.pow Z.pow_pos Pos.iter Z.mul Pos.mul] in *.
    change (- (2))%Z with (-2)%Z. split; [|split; lra]. apply abs_le.
    assert (u53 = / 9007199254740992) by lra. assert (bp (-51) = / 2251799813685248) by lra.
    rewrite H, H0. lra.
Qed.

Lemma area_close r : moderate r -> close (253 / 100) 122 (circle_area r) (PI * (val r * val r)).
Proof.
  intros M. pose proof (moderate_close r M) as C.
  pose proof (close_mul _ _ _ _ _ _ _ _ C C ltac:(lra) ltac:(lra) ltac:(lia) ltac:(lia) ltac:(lia)) as S.
  pose proof (close_mul _ _ _ _ _ _ _ _ pi_close S ltac:(lra) ltac:(lra) ltac:(lia) ltac:(lia) ltac:(lia)) as (F & E & B).
  split; [exact F|]. split; [|exact B]. apply Rle_trans with (1 := E).
  pose proof u53_small. apply Rmult_le_compat_r; [|apply Rmult_le_compat_r; lra].
  apply Rlt_le, Rlt_le_trans with (2 := proj1 B). apply bp_pos.
Qed.

Lemma close_weak k k' e e' x X : k <= k' -> (e <= e')%Z -> close k e x X -> close k' e' x X.
Proof.
  intros Hk He (F & E & B). split; [exact F|]. pose proof u53_small. pose proof (bp_pos (- e)). split.
  - apply Rle_trans with (1 := E). apply Rmult_le_compat_r; [lra|]. apply Rmult_le_compat_r; lra.
  - split; [apply Rle_trans with (2 := proj1 B)|apply Rle_trans with (1 := proj2 B)]; apply bp_le; lia.
Qed.

Lemma yield_close r fy : moderate r -> moderate fy ->
  close 6 302 (s7_2_Nty (circle_area r) fy) (PI * val r ^ 2 * val fy).
Proof.
  intros M1 M2. unfold s7_2_Nty. replace (PI * val r ^ 2 * val fy) with (PI * (val r * val r) * val fy) by ring.
  apply close_weak with (253 / 100 + 0 + 101 / 100) (122 + 60)%Z; [lra|lia|].
  apply close_mul; try lra; try lia; [now apply area_close|now apply moderate_close].
Qed.

Lemma ultimate_close r fu kt au : moderate r -> moderate fu -> moderate kt -> moderate au ->
  close 6 302 (s7_2_Ntu (circle_area r) fu kt au) (PI * val r ^ 2 * val fu * val kt * val au).
Proof.
  intros M1 M2 M3 M4. unfold s7_2_Ntu.
  replace (PI * val r ^ 2 * val fu * val kt * val au) with (PI * (val r * val r) * val fu * val kt * val au) by ring.
  apply close_weak with (253 / 100 + 0 + 101 / 100 + 0 + 101 / 100 + 0 + 101 / 100) (122 + 60 + 60 + 60)%Z; [lra|lia|].
  apply close_mul; try lra; try lia; [|now apply moderate_close].
  apply close_mul; try lra; try lia; [|now apply moderate_close].
  apply close_mul; try lra; try lia; [now apply area_close|now apply moderate_close].
Qed.

(** ** The least of several *)
Lemma fold_min_val l x : finp x -> Forall finp l ->
  In (fold_left pymin l x) (x :: l) /\ forall y, In y (x :: l) -> val (fold_left pymin l x) <= val y.
Proof.
  revert x. induction l as [|z l IH]; intros x X F; cbn [fold_left].
  - split; [now left|]. intros y [<-|[]]. lra.
  - inversion F as [|? ? Z F']; subst. unfold pymin at 2 4. change (@nltb pynum PNum) with py_ltb.
    destruct (Rlt_le_dec (val z) (val x)) as [L|L].
    + rewrite (ltb_t z x Z X L). destruct (IH z Z F') as [I M]. split; [now right|].
      intros y [<-|H]; [|now apply M]. apply Rle_trans with (val z); [|lra]. apply M. now left.
    + rewrite (ltb_f z x Z X L). destruct (IH x X F') as [I M]. split; [destruct I as [I|I]; [left|right; right]; auto|].
      intros y [<-|[<-|H]]; [apply M; now left| |apply M; now right].
      apply Rle_trans with (val x); [|exact L]. apply M. now left.
Qed.

Lemma list_min_val l : l <> [] -> Forall finp l ->
  exists m, list_min l = Ok m /\ In m l /\ forall y, In y l -> val m <= val y.
Proof.
  destruct l as [|x l]; [congruence|]. intros _ F. inversion F; subst. exists (fold_left pymin l x).
  destruct (fold_min_val l x) as [I M]; auto.
Qed.

Lemma Nt_close kt au ws (fy fu : as_section pynum -> pynum) : ws <> [] -> moderate kt -> moderate au ->
  (forall w, In w ws -> moderate (as_radius w) /\ min_fy w = Ok (fy w) /\ min_fu w = Ok (fu w) /\ moderate (fy w) /\ moderate (fu w)) ->
  let Y w := PI * val (as_radius w) ^ 2 * val (fy w) in
  let U w := PI * val (as_radius w) ^ 2 * val (fu w) * val kt * val au in
  exists y u c, (let! ns := mapM (fun s => let! fy := min_fy s in Ok (s7_2_Nty (Ag s) fy)) ws in list_min ns) = Ok y /\
    (let! ns := mapM (fun s => let! fu := min_fu s in Ok (s7_2_Ntu (An s) fu kt au)) ws in list_min ns) = Ok u /\
    least c (fun c => exists w, In w ws /\ c = Rmin (Y w) (U w)) /\ close 6 302 (pymin y u) c.
Proof.
  intros N Mk Ma H Y U.
  assert (Ey : mapM (fun s => let! fy := min_fy s in Ok (s7_2_Nty (Ag s) fy)) ws = Ok (map (fun w => s7_2_Nty (Ag w) (fy w)) ws)).
  { apply mapM_Forall2. clear N. induction ws as [|w ws IH]; cbn [map]; constructor.
    - destruct (H w) as (_ & E & _); [now left|]. rewrite E. reflexivity.
    - apply IH. intros v Hv. apply H. now right. }
  assert (Eu : mapM (fun s => let! fu := min_fu s in Ok (s7_2_Ntu (An s) fu kt au)) ws = Ok (map (fun w => s7_2_Ntu (An w) (fu w) kt au) ws)).
  { apply mapM_Forall2. clear N Ey. induction ws as [|w ws IH]; cbn [map]; constructor.
    - destruct (H w) as (_ & _ & E & _); [now left|]. rewrite E. reflexivity.
    - apply IH. intros v Hv. apply H. now right. }
  assert (Cy : forall w, In w ws -> close 6 302 (s7_2_Nty (Ag w) (fy w)) (Y w)).
  { intros w Hw. destruct (H w Hw) as (M & _ & _ & M1 & _). now apply yield_close. }
  assert (Cu : forall w, In w ws -> close 6 302 (s7_2_Ntu (An w) (fu w) kt au) (U w)).
  { intros w Hw. destruct (H w Hw) as (M & _ & _ & _ & M2). now apply ultimate_close. }
  destruct (list_min_val (map (fun w => s7_2_Nty (Ag w) (fy w)) ws)) as (y & Ly & Iy & My).
  { destruct ws; [congruence|discriminate]. }
  { apply Forall_forall. intros v Hv. apply in_map_iff in Hv. destruct Hv as (w & <- & Hw). apply finite_finp, Cy, Hw. }
  destruct (list_min_val (map (fun w => s7_2_Ntu (An w) (fu w) kt au) ws)) as (u & Lu & Iu & Mu).
  { destruct ws; [congruence|discriminate]. }
  { apply Forall_forall. intros v Hv. apply in_map_iff in Hv. destruct Hv as (w & <- & Hw). apply finite_finp, Cu, Hw. }
  rewrite Ey, Eu. cbn [bind]. rewrite Ly, Lu.
  assert (G : exists c, least c (fun c => exists w, In w ws /\ c = Rmin (Y w) (U w))).
  { destruct (list_greatest (map (fun w => - Rmin (Y w) (U w)) ws)) as (g & Ig & Mg); [destruct ws; [congruence|discriminate]|].
    apply in_map_iff in Ig. destruct Ig as (w & E & Hw). exists (Rmin (Y w) (U w)). split; [eauto|].
    intros x (v & Hv & ->). assert (- Rmin (Y v) (U v) <= g) by (apply Mg, in_map_iff; eauto). lra. }
  destruct G as (c & (w & Hw & Ec) & Lc). exists y, u, c. split; [reflexivity|]. split; [reflexivity|].
  split; [split; [eauto|exact Lc]|].
  apply in_map_iff in Iy, Iu. destruct Iy as (wy & Qy & Hy), Iu as (wu & Qu & Hu).
  pose proof (Cy wy Hy) as Ky. rewrite Qy in Ky. pose proof (Cu wu Hu) as Ku. rewrite Qu in Ku.
  assert (K : exists x X, pymin y u = x /\ close 6 302 x X /\ c <= X /\ val x <= val y /\ val x <= val u).
  { unfold pymin. change (@nltb pynum PNum) with py_ltb. destruct (Rlt_le_dec (val u) (val y)) as [L|L].
    - rewrite (ltb_t u y (finite_finp _ (proj1 Ku)) (finite_finp _ (proj1 Ky)) L). exists u, (U wu). split; [reflexivity|]. split; [exact Ku|].
      split; [|lra]. apply Rle_trans with (Rmin (Y wu) (U wu)); [apply Lc; eauto|apply Rmin_r].
    - rewrite (ltb_f u y (finite_finp _ (proj1 Ku)) (finite_finp _ (proj1 Ky)) L). exists y, (Y wy). split; [reflexivity|]. split; [exact Ky|].
      split; [|lra]. apply Rle_trans with (Rmin (Y wy) (U wy)); [apply Lc; eauto|apply Rmin_l]. }
  destruct K as (x & X & -> & (Fx & Ex & Bx) & Lx & L1 & L2).
  pose proof u53_small as U0. pose proof u53_val as U1.
  (* the exact least is itself met by a computed value *)
  assert (K : exists v, val x <= val v /\ close 6 302 v c).
  { unfold Rmin in Ec. destruct (Rle_dec (Y w) (U w)).
    - exists (s7_2_Nty (Ag w) (fy w)). rewrite Ec. split; [|now apply Cy]. apply Rle_trans with (1 := L1). apply My, in_map_iff. eauto.
    - exists (s7_2_Ntu (An w) (fu w) kt au). rewrite Ec. split; [|now apply Cu]. apply Rle_trans with (1 := L2). apply Mu, in_map_iff. eauto. }
  destruct K as (v & Lv & _ & Ev & Bv). split; [exact Fx|]. split; [|exact Bv].
  apply abs_le in Ex, Ev. apply abs_le. pose proof (bp_pos (- (302))) as Pb.
  assert (c * (1 - 6 * u53) <= X * (1 - 6 * u53)) by (apply Rmult_le_compat_r; lra). lra.
Qed.

Lemma phiNt_close phi au kt b s a position ss : make_as4100 phi au kt b s = Ok a -> assessed b s position ss -> ss <> [] ->
  moderate phi -> moderate kt -> moderate au ->
  (forall x, In x ss -> exists r m fy fu, x = Some (SCircle r (Some m)) /\ min_fy (mk_as r m) = Ok fy /\ min_fu (mk_as r m) = Ok fu /\
     moderate r /\ moderate fy /\ moderate fu) ->
  exists n c, phiNt a position = Ok n /\ finite_double n /\ least c (bar_capacities kt au ss) /\
    Rabs (val n - val phi * c) <= powerRZ 2 (-50) * (val phi * c).
Proof.
  intros Hm Ha Ns Mp Mk Ma H.
  assert (W : exists ws, sections_at a position = Ok ws /\ Forall2 wraps ss ws).
  { destruct (proj1 (make_ok phi au kt b s a) Hm) as (_ & ws & F & Ea).
    destruct Ha as [|b' s position ps ss Np E].
    - exists ws. subst a. split; [reflexivity|exact F].
    - assert (X : exists ws', get_as4100_section a position None None = Ok (ps, ws') /\ Forall2 wraps ss ws').
      { pose proof (as_section_of_beam phi au kt b' s a position None None Hm) as K. rewrite E in K.
        destruct (get_as4100_section a position None None) as [[ps' ws']|]; [|contradiction]. destruct K as [-> F'].
        exists ws'. split; [reflexivity|exact F']. }
      destruct X as (ws' & E' & F'). exists ws'. split; [|exact F']. unfold sections_at. rewrite E'.
      destruct position; [congruence|reflexivity|reflexivity]. }
  destruct W as (ws & Es & F).
  set (fy := fun w : as_section pynum => match min_fy w with Ok f => f | Err _ => PInt 0 end).
  set (fu := fun w : as_section pynum => match min_fu w with Ok f => f | Err _ => PInt 0 end).
  destruct (Nt_close kt au ws fy fu) as (y & u & c & Ey & Eu & Lc & Cl); auto.
  { intros ->. inversion F. subst. congruence. }
  { intros w Hw. destruct (Forall2_In_r _ _ _ _ F Hw) as (x & Hx & Wr). destruct (H x Hx) as (r & m & f1 & f2 & -> & E1 & E2 & M1 & M2 & M3).
    inversion Wr; subst. cbn [as_radius]. unfold fy, fu. rewrite E1, E2. auto. }
  exists (nmul phi (pymin y u)), c. 
  assert (K : k_t a = kt /\ alpha_u a = au /\ phi_steel a = phi).
  { apply make_ok in Hm. destruct Hm as (_ & ws' & _ & ->). auto. }
  destruct K as (K1 & K2 & K3).
  pose proof (close_mul _ _ _ _ _ _ _ _ (moderate_close phi Mp) Cl ltac:(lra) ltac:(lra) ltac:(lia) ltac:(lia) ltac:(lia)) as (F1 & E1 & B1).
  split; [|split; [exact F1|split]].
  - unfold phiNt, Nt, Nty, Ntu. rewrite Es. cbn [bind]. rewrite Ey. cbn [bind]. rewrite K1, K2, Eu, K3. reflexivity.
  - assert (Eq : forall x, bar_capacities kt au ss x <-> exists w, In w ws /\
      x = Rmin (PI * val (as_radius w) ^ 2 * val (fy w)) (PI * val (as_radius w) ^ 2 * val (fu w) * val kt * val au)).
    { intros x. split.
      - intros (r & m & f1 & f2 & Hx & G1 & G2 & ->). destruct (Forall2_In_l _ _ _ _ F Hx) as (w & Hw & Wr).
        inversion Wr; subst. exists (mk_as r m). split; [exact Hw|]. unfold fy, fu. rewrite G1, G2. reflexivity.
      - intros (w & Hw & ->). destruct (Forall2_In_r _ _ _ _ F Hw) as (x & Hx & Wr).
        destruct (H x Hx) as (r & m & f1 & f2 & -> & G1 & G2 & _). inversion Wr; subst.
        exists r, m, f1, f2. split; [exact Hx|]. split; [exact G1|]. split; [exact G2|]. unfold fy, fu. rewrite G1, G2. reflexivity. }
    destruct Lc as [I L]. split; [now apply Eq|]. intros x Hx. apply L. now apply Eq.
  - apply Rle_trans with (1 := E1). pose proof (bp_pos (- (60 + 302))). apply Rmult_le_compat_r; [lra|].
    replace (powerRZ 2 (-50)) with (8 * u53); [pose proof u53_small; apply Rmult_le_compat_r; lra|].
    pose proof rel49 as E49. pose proof (bp_double (-50)) as E50. change (-50 + 1)%Z with (-49)%Z in E50.
    change (powerRZ 2 (-49)) with (bp (-49)) in E49. change (powerRZ 2 (-50)) with (bp (-50)). lra.
Qed.
