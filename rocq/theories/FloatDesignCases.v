(** A 20 mm bar with 100 kN at mid-length, on doubles. *)

From Coq Require Import ZArith Reals List Bool String Lia Lra Floats.SpecFloat.
From Verif Require Import Base Num PyNum Numpy LoadCase Beam Material AS4100 AS4100Spec AS4100Facts AS4100Cases
  FloatSpec FloatValSpec FloatRound FloatOps FloatFacts FloatError FloatUtilSpec PiBound.
Import ListNotations.
Open Scope R_scope.

Definition pull : pynum := fl 100000 1.
Definition bar_steel : material pynum := match steel300 with Some m => m | None => mk_material None TOther TOther [] end.
Definition bar_points : list pynum := [fl 3 2; fl 3 4].
Definition bar_cap (_ : pynum) : pynum := PFlt (S754_finite false 5440392802463278 (-36)).
Definition bar_fy : pynum := PFlt (S754_finite false 4697620480000000 (-24)).
Definition bar_fu : pynum := PFlt (S754_finite false 7381975040000000 (-24)).
Definition bar_exact (_ : pynum) : R :=
  Rmin (PI * val (fl 1 100) ^ 2 * val bar_fy) (PI * val (fl 1 100) ^ 2 * val bar_fu * val (fl 100 100) * val (fl 85 100)).

Lemma val_lit m e : (0 <= e)%Z -> val (PFlt (S754_finite false m (- e))) = IZR (Z.pos m) / IZR (2 ^ e).
Proof.
  intros H. cbn [val]. change (powerRZ 2 (- e)) with (bp (- e)).
  assert (E : bp (- e) * bp e = 1) by (rewrite <- bp_add; replace (- e + e)%Z with 0%Z by lia; apply bp_0).
  rewrite (bp_Z e H) in E. pose proof (bp_pos e) as P. rewrite (bp_Z e H) in P.
  replace (bp (- e)) with (/ IZR (2 ^ e)); [field; lra|]. apply Rmult_eq_reg_r with (IZR (2 ^ e)); [|lra]. rewrite E. field. lra.
Qed.

(** The value of a literal as a quotient. *)
Ltac literal x :=
  let y := eval vm_compute in x in
  lazymatch y with
  | PFlt (S754_finite false ?m (Zneg ?e)) =>
      let n := eval vm_compute in (2 ^ Zpos e)%Z in
      assert (val x = IZR (Zpos m) / IZR n) by (exact (val_lit m (Zpos e) ltac:(lia)))
  end.

Lemma bar_moderate x f : x = PFlt f -> fin64 f -> (/ IZR (2 ^ 60) <= val x <= IZR (2 ^ 60)) -> moderate x.
Proof.
  intros -> F B. split; [now apply fin_double|]. change (powerRZ 2 (-60)) with (bp (-60)). change (powerRZ 2 60) with (bp 60).
  assert (E : bp (-60) * bp 60 = 1) by (rewrite <- bp_add; apply bp_0). rewrite (bp_Z 60) in * by lia.
  cbn [Z.pow Z.pow_pos Pos.iter Z.mul Pos.mul] in *. lra.
Qed.
Ltac is_moderate x := eapply bar_moderate; [vm_compute; reflexivity|vm_compute; reflexivity|literal x; cbn [Z.pow Z.pow_pos Pos.iter Z.mul Pos.mul]; lra].

Lemma phi_moderate : moderate (fl 90 100). Proof. is_moderate (fl 90 100). Qed.
Lemma kt_moderate : moderate (fl 100 100). Proof. is_moderate (fl 100 100). Qed.
Lemma au_moderate : moderate (fl 85 100). Proof. is_moderate (fl 85 100). Qed.
Lemma radius_moderate : moderate (fl 1 100). Proof. is_moderate (fl 1 100). Qed.
Lemma fy_moderate : moderate bar_fy. Proof. is_moderate bar_fy. Qed.
Lemma fu_moderate : moderate bar_fu. Proof. is_moderate bar_fu. Qed.

Lemma bar_rows l p : In l [1%Z; 2%Z] -> In p bar_points ->
  exists n, beam_get_loads stable_argsort (bar_beam (fl 3 1) pull) l (PosNum p) None (CStr "N") = Ok (Some [(p, [Some n])])
    /\ (n = fl 0 1 \/ n = pull).
Proof.
  intros [<-|[<-|[]]] [<-|[<-|[]]]; eexists; (split; [vm_compute; reflexivity|]).
  - left. vm_compute. reflexivity.
  - left. vm_compute. reflexivity.
  - right. vm_compute. reflexivity.
  - left. vm_compute. reflexivity.
Qed.

Lemma pull_val : val pull = 100000.
Proof. literal pull. lra. Qed.

Lemma bar_loads_moderate (c : R) : 100000 / 524288 <= c <= 9 -> 
  forall l p, In l [1%Z; 2%Z] -> In p bar_points -> exists rows,
  beam_get_loads stable_argsort (bar_beam (fl 3 1) pull) l (PosNum p) None (CStr "N") = Ok (Some rows) /\ rows <> [] /\
    Forall (fun o => exists n, snd o = [Some n] /\ finite_double n /\ (val n <= 0 \/ val n / (100000 / c) = c)) rows.
Proof.
  intros Hc l p Il Ip. destruct (bar_rows l p Il Ip) as (n & E & Hn). exists [(p, [Some n])]. split; [exact E|]. split; [discriminate|].
  constructor; [|constructor]. exists n. split; [reflexivity|]. destruct Hn as [-> | ->].
  - split; [apply finite_double_fin; exists (S754_zero false); split; [vm_compute; reflexivity|exact I]|].
    left. rewrite fl_zero. cbn [val]. lra.
  - split; [apply finite_double_fin; eexists; split; [vm_compute; reflexivity|vm_compute; reflexivity]|].
    right. rewrite pull_val. field. lra.
Qed.

Lemma powers : powerRZ 2 (-13) = 1 / 8192 /\ powerRZ 2 (-12) = 1 / 4096 /\ powerRZ 2 19 = 524288 /\ powerRZ 2 20 = 1048576.
Proof.
  change (powerRZ 2 (-13)) with (bp (-13)). change (powerRZ 2 (-12)) with (bp (-12)). change (powerRZ 2 19) with (bp 19).
  change (powerRZ 2 20) with (bp 20).
  assert (E : bp (-13) * bp 13 = 1) by (rewrite <- bp_add; apply bp_0).
  assert (E' : bp (-12) * bp 12 = 1) by (rewrite <- bp_add; apply bp_0).
  rewrite (bp_Z 13) in E by lia. rewrite (bp_Z 12) in E' by lia. rewrite (bp_Z 19), (bp_Z 20) by lia. cbn [Z.pow Z.pow_pos Pos.iter Z.mul Pos.mul] in *. lra.
Qed.

Lemma bar_cap_case : default_as4100 (Some (bar_beam (fl 3 1) pull)) None = Ok (bar_check (fl 3 1) pull)
  /\ wanted (bar_beam (fl 3 1) pull) LCNone [1%Z; 2%Z]
  /\ looked_double (bar_beam (fl 3 1) pull) 20 (PosList bar_points) [1%Z; 2%Z] bar_points
  /\ (forall p, In p bar_points -> tension_capacity (bar_check (fl 3 1) pull) (PosNum p) = Ok (bar_cap p) /\ finite_double (bar_cap p) /\
     powerRZ 2 (-500) <= val (bar_cap p) <= powerRZ 2 500)
  /\ (forall l p, In l [1%Z; 2%Z] -> In p bar_points -> moderate_loads stable_argsort (bar_beam (fl 3 1) pull) (bar_cap p) l p).
Proof.
  split; [apply bar_made|]. split; [apply w_all; vm_compute; reflexivity|]. split; [constructor|].
  assert (V : 70000 <= val (bar_cap pull) <= 90000) by (literal (bar_cap pull); lra).
  split.
  - intros p Ip. split; [destruct Ip as [<-|[<-|[]]]; vm_compute; reflexivity|].
    split; [apply finite_double_fin; eexists; split; [reflexivity|vm_compute; reflexivity]|].
    change (bar_cap p) with (bar_cap pull). change (powerRZ 2 (-500)) with (bp (-500)). change (powerRZ 2 500) with (bp 500).
    assert (bp (-500) <= bp 0) by (apply bp_le; lia). assert (bp 20 <= bp 500) by (apply bp_le; lia). rewrite bp_0 in *.
    rewrite (bp_Z 20) in * by lia. cbn [Z.pow Z.pow_pos Pos.iter Z.mul Pos.mul] in *. lra.
  - intros l p Il Ip. change (bar_cap p) with (bar_cap pull). destruct powers as (P1 & _ & _ & P4).
    set (c := val (bar_cap pull)) in *. assert (Q : c * / c = 1) by (field; lra).
    assert (B : 1 <= 100000 / c <= 2).
    { split; apply Rmult_le_reg_r with c; try lra; unfold Rdiv; rewrite Rmult_assoc, (Rmult_comm (/ c)), Q; lra. }
    destruct (bar_loads_moderate (100000 / c)) with (l := l) (p := p) as (rows & E & N & W); [lra|exact Il|exact Ip|].
    exists rows. split; [exact E|]. split; [exact N|]. apply Forall_impl with (2 := W). intros o (n & En & Fn & H).
    exists n. split; [exact En|]. split; [exact Fn|]. destruct H as [H|H]; [now left|]. right.
    replace (100000 / (100000 / c)) with c in H by (field; lra). fold c. rewrite P1, P4, H. lra.
Qed.

Lemma bar_sections p : In p bar_points ->
  exists at_p, beam_get_section (bar_beam (fl 3 1) pull) (PosNum p) None None = Ok (at_p, [Some bar20]).
Proof. intros [<-|[<-|[]]]; eexists; vm_compute; reflexivity. Qed.
Lemma bar20_is : Some bar20 = Some (SCircle (fl 1 100) (Some bar_steel)).
Proof. vm_compute. reflexivity. Qed.
Lemma bar_fy_ok : min_fy (mk_as (fl 1 100) bar_steel) = Ok bar_fy. Proof. vm_compute. reflexivity. Qed.
Lemma bar_fu_ok : min_fu (mk_as (fl 1 100) bar_steel) = Ok bar_fu. Proof. vm_compute. reflexivity. Qed.

Lemma bar_least p : least (bar_exact p) (bar_capacities (fl 100 100) (fl 85 100) [Some bar20]).
Proof.
  rewrite bar20_is. split.
  - exists (fl 1 100), bar_steel, bar_fy, bar_fu. split; [now left|]. split; [exact bar_fy_ok|]. split; [exact bar_fu_ok|reflexivity].
  - intros x (r & m & fy & fu & [E|[]] & E1 & E2 & ->). assert (Er : r = fl 1 100) by congruence. assert (Em : m = bar_steel) by congruence. subst r m.
    rewrite bar_fy_ok in E1. rewrite bar_fu_ok in E2. assert (fy = bar_fy) by congruence. assert (fu = bar_fu) by congruence. subst fy fu.
    apply Rle_refl.
Qed.

Lemma bar_moderate_sections : forall x, In x [Some bar20] ->
  exists r m fy fu, x = Some (SCircle r (Some m)) /\ min_fy (mk_as r m) = Ok fy /\ min_fu (mk_as r m) = Ok fu /\
    moderate r /\ moderate fy /\ moderate fu.
Proof.
  intros x [<-|[]]. exists (fl 1 100), bar_steel, bar_fy, bar_fu. split; [exact bar20_is|]. split; [exact bar_fy_ok|]. split; [exact bar_fu_ok|].
  split; [exact radius_moderate|]. split; [exact fy_moderate|exact fu_moderate].
Qed.

Lemma bar_exact_bounds p : 24576 <= bar_exact p <= 524288.
Proof.
  destruct PI_near as [L U]. cbn [Z.pow Z.pow_pos Pos.iter Z.mul Pos.mul] in L, U.
  unfold bar_exact. literal (fl 1 100). literal bar_fy. literal bar_fu. literal (fl 100 100). literal (fl 85 100).
  set (r := val (fl 1 100)) in *. set (y := val bar_fy) in *. set (u := val bar_fu) in *. set (k := val (fl 100 100)) in *. set (a := val (fl 85 100)) in *.
  assert (R2 : 1 / 16384 <= r ^ 2 <= 1 / 8192).
  { cbn [pow]. rewrite Rmult_1_r. assert (9 / 1000 <= r <= 11 / 1000) by lra.
    assert (9 / 1000 * (9 / 1000) <= r * r) by (apply Rmult_le_compat; lra). assert (r * r <= 11 / 1000 * (11 / 1000)) by (apply Rmult_le_compat; lra). lra. }
  assert (A : 3 * (1 / 16384) <= PI * r ^ 2 <= 4 * (1 / 8192)) by (split; apply Rmult_le_compat; lra).
  assert (Y : 3 * (1 / 16384) * 268435456 <= PI * r ^ 2 * y <= 4 * (1 / 8192) * 536870912) by (split; apply Rmult_le_compat; lra).
  assert (V : 3 * (1 / 16384) * 268435456 <= PI * r ^ 2 * u <= 4 * (1 / 8192) * 536870912) by (split; apply Rmult_le_compat; lra).
  assert (k = 1) by lra. assert (84 / 100 <= a <= 86 / 100) by lra.
  assert (W : 3 * (1 / 16384) * 268435456 * (84 / 100) <= PI * r ^ 2 * u * k * a <= 4 * (1 / 8192) * 536870912 * (86 / 100)).
  { replace k with 1 by lra. rewrite Rmult_1_r. split; apply Rmult_le_compat; lra. }
  unfold Rmin. destruct (Rle_dec _ _); lra.
Qed.

Lemma bar_exact_case :
  (forall p, In p bar_points -> exists at_p ss, beam_get_section (bar_beam (fl 3 1) pull) (PosNum p) None None = Ok (at_p, ss) /\
     least (bar_exact p) (bar_capacities (fl 100 100) (fl 85 100) ss) /\
     forall x, In x ss -> exists r m fy fu, x = Some (SCircle r (Some m)) /\ min_fy (mk_as r m) = Ok fy /\
       min_fu (mk_as r m) = Ok fu /\ moderate r /\ moderate fy /\ moderate fu)
  /\ (forall l p, In l [1%Z; 2%Z] -> In p bar_points -> exists rows,
     beam_get_loads stable_argsort (bar_beam (fl 3 1) pull) l (PosNum p) None (CStr "N") = Ok (Some rows) /\ rows <> [] /\
     Forall (fun o => exists n, snd o = [Some n] /\ finite_double n /\
       (val n <= 0 \/ powerRZ 2 (-12) <= val n / (val (fl 90 100) * bar_exact p) <= powerRZ 2 19)) rows).
Proof.
  split.
  - intros p Ip. destruct (bar_sections p Ip) as (at_p & E). exists at_p, [Some bar20]. split; [exact E|].
    split; [apply bar_least|exact bar_moderate_sections].
  - intros l p Il Ip. pose proof (bar_exact_bounds p) as B. destruct powers as (_ & P2 & P3 & _).
    assert (F : 89 / 100 <= val (fl 90 100) <= 91 / 100) by (literal (fl 90 100); lra).
    set (c := val (fl 90 100) * bar_exact p). assert (Hc : 89 / 100 * 24576 <= c <= 91 / 100 * 524288) by (split; apply Rmult_le_compat; lra).
    assert (Q : c * / c = 1) by (field; lra).
    assert (Bq : 100000 / 524288 <= 100000 / c <= 9).
    { split; apply Rmult_le_reg_r with c; try lra; unfold Rdiv at 2 || unfold Rdiv at 1; rewrite Rmult_assoc, (Rmult_comm (/ c)), Q; lra. }
    destruct (bar_loads_moderate (100000 / c) Bq l p Il Ip) as (rows & E & N & W).
    exists rows. split; [exact E|]. split; [exact N|]. apply Forall_impl with (2 := W). intros o (n & En & Fn & H).
    exists n. split; [exact En|]. split; [exact Fn|]. destruct H as [H|H]; [now left|]. right.
    replace (100000 / (100000 / c)) with c in H by (field; lra). rewrite P2, P3, H. lra.
Qed.
