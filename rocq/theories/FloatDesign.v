(** Utilisation computed on doubles against the exact loads and the exact capacities. *)

From Coq Require Import ZArith Reals List Bool String Lia Lra Floats.SpecFloat.
From Verif Require Import Base Num PyNum Numpy LoadCase Beam Material AS4100 AS4100Spec AS4100Facts
  FloatSpec FloatValSpec FloatRound FloatOps FloatFacts FloatError FloatUtil FloatUtilSpec FloatCheck FloatCapacity.
Import ListNotations.
Open Scope R_scope.
Local Opaque SFadd SFsub SFmul SFdiv.

Lemma phiNt_range phi au kt b s a position ss c : make_as4100 phi au kt b s = Ok a -> assessed b s position ss ->
  moderate phi -> moderate kt -> moderate au ->
  (forall x, In x ss -> exists r m fy fu, x = Some (SCircle r (Some m)) /\ min_fy (mk_as r m) = Ok fy /\ min_fu (mk_as r m) = Ok fu /\
     moderate r /\ moderate fy /\ moderate fu) ->
  least c (bar_capacities kt au ss) ->
  exists n, phiNt a position = Ok n /\ close 8 362 n (val phi * c).
Proof.
  intros Hm Ha Mp Mk Ma H Lc.
  assert (Ns : ss <> []) by (intros ->; destruct Lc as [(r & m & fy & fu & [] & _) _]).
  destruct (phiNt_close phi au kt b s a position ss Hm Ha Ns Mp Mk Ma H) as (n & c' & En & Fn & Lc' & B).
  assert (c' = c). { destruct Lc as [I L], Lc' as [I' L']. apply Rle_antisym; auto. } subst c'. clear Lc'.
  exists n. split; [exact En|]. split; [exact Fn|]. split.
  - replace (8 * u53) with (powerRZ 2 (-50)); [exact B|]. change (powerRZ 2 (-50)) with (bp (-50)).
    pose proof rel49 as E49. pose proof (bp_double (-50)) as E50. change (-50 + 1)%Z with (-49)%Z in E50.
    change (powerRZ 2 (-49)) with (bp (-49)) in E49. lra.
  - destruct Lc as [(r & m & fy & fu & Hx & E1 & E2 & ->) _].
    destruct (H _ Hx) as (r' & m' & fy' & fu' & Eq & E1' & E2' & M1 & M2 & M3). injection Eq as <- <-.
    assert (fy' = fy) by congruence. assert (fu' = fu) by congruence. subst fy' fu'.
    destruct (yield_close r fy M1 M2) as (_ & _ & B1). destruct (ultimate_close r fu kt au M1 M3 Mk Ma) as (_ & _ & B2).
    destruct Mp as (_ & Bp). change (powerRZ 2 (-60)) with (bp (-60)) in Bp. change (powerRZ 2 60) with (bp 60) in Bp.
    change (- (362))%Z with (-60 + - (302))%Z. change 362%Z with (60 + 302)%Z. rewrite !bp_add.
    pose proof (bp_pos (-60)). pose proof (bp_pos (- (302))).
    split; apply Rmult_le_compat; try lra; unfold Rmin; destruct (Rle_dec _ _); lra.
Qed.

Lemma quotient_close m n X : 0 <= m -> finite_double n -> Rabs (val n - X) <= 8 * u53 * X -> 0 < X ->
  Rabs (m / val n - m / X) <= 9 * u53 * (m / X).
Proof.
  intros Hm Fn E P. pose proof u53_small as U. pose proof u53_val as U'. apply abs_le in E.
  assert (L : X * (1 - 8 * u53) <= val n) by lra. assert (Pn : 0 < val n) by (assert (0 < X * (1 - 8 * u53)) by (apply Rmult_lt_0_compat; lra); lra).
  replace (m / val n - m / X) with (m / X * ((X - val n) * / val n)) by (field; lra).
  assert (Q : 0 <= m / X) by (apply Rmult_le_pos; [exact Hm|apply Rlt_le, Rinv_0_lt_compat; lra]).
  rewrite Rabs_mult, (Rabs_right (m / X)) by lra. rewrite (Rmult_comm (9 * u53)). apply Rmult_le_compat_l; [exact Q|].
  rewrite Rabs_mult, (Rabs_right (/ val n)) by (apply Rle_ge, Rlt_le, Rinv_0_lt_compat; exact Pn).
  apply Rmult_le_reg_r with (val n); [exact Pn|]. rewrite Rmult_assoc, Rinv_l, Rmult_1_r by lra.
  apply Rle_trans with (8 * u53 * X); [apply abs_le; lra|].
  apply Rle_trans with (9 * u53 * (X * (1 - 8 * u53))); [|apply Rmult_le_compat_l; lra].
  replace (9 * u53 * (X * (1 - 8 * u53))) with (X * (9 * u53 * (1 - 8 * u53))) by ring. rewrite (Rmult_comm (8 * u53)).
  apply Rmult_le_compat_l; [lra|]. replace (9 * u53 * (1 - 8 * u53)) with (u53 * (9 * (1 - 8 * u53))) by ring.
  rewrite (Rmult_comm 8). apply Rmult_le_compat_l; lra.
Qed.

Lemma exact_listed qs b phi C cs ps : (forall l p, In l cs -> In p ps ->
    exists rows, beam_get_loads qs b l (PosNum p) None (CStr "N") = Ok (Some rows) /\ Forall (fun o : orow pynum => exists n, snd o = [Some n]) rows) ->
  exists rs, forall x, exact_ratio qs b phi C cs ps x <-> In x rs.
Proof.
  intros H.
  destruct (listed_union (fun l x => exists p, In p ps /\ exists n, axial_double qs b l p n /\ x = Rmax (val n) 0 / (val phi * C p)) cs)
    as (rs & Hrs).
  { intros l Il. apply listed_union. intros p Ip. destruct (H l p Il Ip) as (rows & Er & W).
    exists (map (fun o : orow pynum => match snd o with [Some n] => Rmax (val n) 0 / (val phi * C p) | _ => 0 end) rows).
    intros x. rewrite in_map_iff. rewrite Forall_forall in W. split.
    - intros (n & (rows' & y & Er' & Hy) & ->). assert (rows' = rows) by congruence. subst rows'. exists (y, [Some n]). split; auto.
    - intros ([y c'] & <- & Ho). destruct (W _ Ho) as (n & En). cbn [snd] in *. subst c'. exists n. split; [|reflexivity].
      exists rows, y. split; assumption. }
  exists rs. intros x. rewrite <- Hrs. split.
  - intros (l & p & n & Il & Ip & An & E). exists l. split; auto. exists p. split; auto. exists n. auto.
  - intros (l & Il & p & Ip & n & An & E). exists l, p, n. auto.
Qed.

Lemma util_exact qs phi au kt b s a lc cs position ps C : make_as4100 phi au kt (Some b) s = Ok a ->
  wanted b lc cs -> looked_double b (assessment_points a) position cs ps -> cs <> [] -> ps <> [] ->
  moderate phi -> moderate kt -> moderate au ->
  (forall p, In p ps -> exists at_p ss, beam_get_section b (PosNum p) None None = Ok (at_p, ss) /\
     least (C p) (bar_capacities kt au ss) /\
     forall x, In x ss -> exists r m fy fu, x = Some (SCircle r (Some m)) /\ min_fy (mk_as r m) = Ok fy /\
       min_fu (mk_as r m) = Ok fu /\ moderate r /\ moderate fy /\ moderate fu) ->
  (forall l p, In l cs -> In p ps -> exists rows, beam_get_loads qs b l (PosNum p) None (CStr "N") = Ok (Some rows) /\ rows <> [] /\
     Forall (fun o => exists n, snd o = [Some n] /\ finite_double n /\
       (val n <= 0 \/ powerRZ 2 (-12) <= val n / (val phi * C p) <= powerRZ 2 19)) rows) ->
  exists u g, tension_utilisation qs a lc position = Ok u /\ finite_double u /\
    greatest g (exact_ratio qs b phi C cs ps) /\ Rabs (val u - g) <= powerRZ 2 (-48) * g.
Proof.
  intros Hm Hw Ha Nc Np Mp Mk Ma Hs Hl.
  pose proof u53_small as U. pose proof u53_val as U'.
  set (cap := fun p => match tension_capacity a (PosNum p) with Ok n => n | Err _ => PInt 0 end).
  assert (Hc : forall p, In p ps -> tension_capacity a (PosNum p) = Ok (cap p) /\ close 8 362 (cap p) (val phi * C p)).
  { intros p Ip. destruct (Hs p Ip) as (at_p & ss & Es & Lc & Hx).
    destruct (phiNt_range phi au kt (Some b) s a (PosNum p) ss (C p) Hm) as (n & En & Cn); auto.
    { apply as_given with at_p; [discriminate|exact Es]. }
    unfold cap, tension_capacity. rewrite En. split; [reflexivity|exact Cn]. }
  assert (Pc : forall p, In p ps -> 0 < val phi * C p).
  { intros p Ip. destruct (Hc p Ip) as (_ & _ & _ & B). apply Rlt_le_trans with (2 := proj1 B). apply bp_pos. }
  assert (Lo : bp (-500) * 2 <= bp (- (362))).
  { rewrite <- bp_1, <- bp_add. apply bp_le. lia. }
  assert (Hi : bp 362 * 2 <= bp 500).
  { rewrite <- bp_1, <- bp_add. apply bp_le. lia. }
  destruct (util_about qs phi au kt b s a lc cs position ps cap Hm Hw Ha Nc Np) as (u & g & Eu & Fu & (Gg & Mg) & Bu).
  { intros p Ip. destruct (Hc p Ip) as (E & F & D & B). split; [exact E|]. split; [exact F|]. apply abs_le in D.
    change (powerRZ 2 (-500)) with (bp (-500)). change (powerRZ 2 500) with (bp 500).
    pose proof (Pc p Ip) as P. set (X := val phi * C p) in *.
    assert (8 * u53 * X <= 1 / 2 * X) by (apply Rmult_le_compat_r; lra). lra. }
  { intros l p Il Ip. destruct (Hl l p Il Ip) as (rows & Er & Nr & W). exists rows. split; [exact Er|]. split; [exact Nr|].
    apply Forall_impl with (2 := W). intros o (n & En & Fn & B). exists n. split; [exact En|]. split; [exact Fn|].
    destruct B as [B|B]; [now left|]. destruct (Rle_lt_dec (val n) 0) as [L|L]; [now left|]. right.
    destruct (Hc p Ip) as (_ & F & D & _). pose proof (quotient_close (val n) (cap p) _ (Rlt_le _ _ L) F D (Pc p Ip)) as Q.
    apply abs_le in Q. set (q := val n / (val phi * C p)) in *.
    change (powerRZ 2 (-12)) with (bp (-12)) in B. change (powerRZ 2 19) with (bp 19) in B.
    change (powerRZ 2 (-13)) with (bp (-13)). change (powerRZ 2 20) with (bp 20).
    pose proof (bp_double (-13)) as B1. change (-13 + 1)%Z with (-12)%Z in B1. pose proof (bp_double 19) as B2. change (19 + 1)%Z with 20%Z in B2.
    pose proof (bp_pos (-12)). assert (9 * u53 * q <= 1 / 2 * q) by (apply Rmult_le_compat_r; lra). lra. }
  (* from computed to exact quotients *)
  assert (T : forall l p n, In l cs -> In p ps -> axial_double qs b l p n ->
    0 <= Rmax (val n) 0 / (val phi * C p) /\
    Rabs (Rmax (val n) 0 / val (cap p) - Rmax (val n) 0 / (val phi * C p)) <= 9 * u53 * (Rmax (val n) 0 / (val phi * C p))).
  { intros l p n Il Ip An. destruct (Hc p Ip) as (_ & F & D & _). split.
    - apply Rmult_le_pos; [apply Rmax_r|]. apply Rlt_le, Rinv_0_lt_compat, Pc, Ip.
    - apply quotient_close; [apply Rmax_r|exact F|exact D|apply Pc, Ip]. }
  assert (G : exists G, greatest G (exact_ratio qs b phi C cs ps)).
  { destruct (exact_listed qs b phi C cs ps) as (rs & Hrs).
    { intros l p Il Ip. destruct (Hl l p Il Ip) as (rows & Er & _ & W). exists rows. split; [exact Er|].
      apply Forall_impl with (2 := W). intros o (n & En & _). exists n. exact En. }
    destruct (list_greatest rs) as (G & Ig & MG).
    - intros ->. destruct Gg as (l & p & n & Il & Ip & An & _).
      assert (X : In (Rmax (val n) 0 / (val phi * C p)) []) by (apply Hrs; exists l, p, n; auto). destruct X.
    - exists G. split; [now apply Hrs|]. intros x Hx. apply MG. now apply Hrs. }
  destruct G as (G & GG & MG). exists u, G. split; [exact Eu|]. split; [exact Fu|]. split; [split; [exact GG|exact MG]|].
  destruct Gg as (l1 & p1 & n1 & Il1 & Ip1 & An1 & E1). destruct (T l1 p1 n1 Il1 Ip1 An1) as (P1 & T1).
  rewrite <- E1 in T1. set (x1 := Rmax (val n1) 0 / (val phi * C p1)) in *.
  assert (L1 : x1 <= G) by (apply MG; exists l1, p1, n1; auto).
  destruct GG as (l2 & p2 & n2 & Il2 & Ip2 & An2 & E2). destruct (T l2 p2 n2 Il2 Ip2 An2) as (P2 & T2).
  rewrite <- E2 in T2, P2. set (y2 := Rmax (val n2) 0 / val (cap p2)) in *.
  assert (L2 : y2 <= g) by (apply Mg; exists l2, p2, n2; auto).
  assert (E48 : powerRZ 2 (-48) = 32 * u53).
  { pose proof rel49 as E49. pose proof (bp_double (-49)) as E50. change (-49 + 1)%Z with (-48)%Z in E50.
    change (powerRZ 2 (-49)) with (bp (-49)) in E49. change (powerRZ 2 (-48)) with (bp (-48)). lra. }
  rewrite <- rel49 in Bu. rewrite E48. apply abs_le in Bu, T1, T2. apply abs_le.
  assert (g <= G * (1 + 9 * u53)).
  { apply Rle_trans with (x1 * (1 + 9 * u53)); [lra|]. apply Rmult_le_compat_r; lra. }
  assert (G * (1 - 9 * u53) <= g) by lra.
  assert (K : 16 * u53 * g <= 16 * u53 * (G * (1 + 9 * u53))) by (apply Rmult_le_compat_l; lra).
  assert (K2 : 16 * u53 * (G * (1 + 9 * u53)) <= 17 * u53 * G).
  { replace (16 * u53 * (G * (1 + 9 * u53))) with ((16 * (1 + 9 * u53)) * (u53 * G)) by ring.
    replace (17 * u53 * G) with (17 * (u53 * G)) by ring.
    apply Rmult_le_compat_r; [apply Rmult_le_pos; lra|lra]. }
  assert (0 <= u53 * G) by (apply Rmult_le_pos; lra). lra.
Qed.
