(** A beam that carries more or is weaker has a higher utilisation. *)

From Coq Require Import ZArith Reals List Bool String Sorted Lra Lia.
From Verif Require Import Base Num RNum OrdFacts Numpy LoadCase LoadSpec LoadFacts LoadProofs Beam BeamSpec BeamFacts
  BeamPositions BeamLoads BeamProofs BeamMisc BeamFloat TableCut BeamCut BeamMirror BeamJoin BeamCutAt TransformSpec
  Material AS4100 AS4100Spec AS4100Facts AS4100Util AS4100Scale PeakSpec Peak SameUtil TabulateSpec Tabulate Combine HeavierSpec.
Import ListNotations.
Open Scope R_scope.

(** ** One table *)

Definition more (k : comp) (r r' : lrow R) : Prop := lpos r' = lpos r /\ lcomp k r <= lcomp k r'.

Lemma more_pos k rows rows' : Forall2 (more k) rows rows' -> map lpos rows' = map lpos rows.
Proof. induction 1 as [|r r' l l' [E _] F IH]; cbn; auto. now rewrite E, IH. Qed.

Lemma more_interp_from k p rs rs' : Forall2 (more k) rs rs' -> forall xj yj zj, xj <= p -> yj <= zj ->
  interp_from p xj yj (map (fun r => (lpos r, lcomp k r)) rs) None
  <= interp_from p xj zj (map (fun r => (lpos r, lcomp k r)) rs') None.
Proof.
  induction 1 as [|r r' l l' [E H] F IH]; intros xj yj zj Px Py; cbn [map interp_from].
  - now destruct (nltb xj p).
  - rewrite E. destruct (nleb (lpos r) p) eqn:L.
    + apply Rleb_true in L. now apply IH.
    + apply Rleb_false in L. destruct (neqb xj p); auto. cbn.
      set (x1 := lpos r) in *. set (a := lcomp k r) in *. set (a' := lcomp k r') in *.
      set (t := (p - xj) / (x1 - xj)). assert (T : 0 <= t <= 1).
      { unfold t. split; [apply Rmult_le_pos; [lra|apply Rlt_le, Rinv_0_lt_compat; lra]|].
        apply Rmult_le_reg_r with (x1 - xj); [lra|]. unfold Rdiv. rewrite Rmult_assoc, Rinv_l by lra. lra. }
      replace ((a - yj) / (x1 - xj) * (p - xj) + yj) with (t * a + (1 - t) * yj) by (unfold t; field; lra).
      replace ((a' - zj) / (x1 - xj) * (p - xj) + zj) with (t * a' + (1 - t) * zj) by (unfold t; field; lra).
      apply Rplus_le_compat; apply Rmult_le_compat_l; lra.
Qed.

Lemma more_interp k rows rows' p : Forall2 (more k) rows rows' -> rows <> [] -> interp_val rows p k <= interp_val rows' p k.
Proof.
  intros [|r r' l l' [E H] F] N; [congruence|]. cbn [interp_val]. rewrite E. destruct (nltb p (lpos r)) eqn:L; auto.
  apply Rltb_false in L. apply more_interp_from; auto.
Qed.

Lemma more_block k rows rows' p : Forall2 (more k) rows rows' -> rows <> [] -> below (block rows [k] p) (block rows' [k] p).
Proof.
  intros F N. unfold block, below. rewrite (more_pos k rows rows' F). destruct (py_in p (map lpos rows)).
  - clear N. induction F as [|r r' l l' [E H] F IH]; cbn [filter map]; [constructor|]. rewrite E.
    destruct (neqb (lpos r) p); cbn [map]; auto. constructor; auto. split; auto. cbn. eauto.
  - constructor; [|constructor]. split; auto. cbn. eexists _, _. split; [reflexivity|]. split; [reflexivity|]. now apply more_interp.
Qed.

Lemma more_wf k rows rows' : Forall2 (more k) rows rows' -> well_formed rows -> well_formed rows'.
Proof.
  intros F. apply more_pos in F. intros [S G]. split.
  - clear G. revert rows' F. induction S as [|x l S IH Fx]; intros [|y l2] E; try discriminate; constructor.
    + injection E as _ E. now apply IH.
    + injection E as E1 E. rewrite Forall_forall in *. intros q Hq0. rewrite E1.
      assert (H : In (lpos q) (map lpos l)) by (rewrite <- E; now apply in_map).
      apply in_map_iff in H. destruct H as (z & <- & Hz). now apply Fx.
  - rewrite Forall_forall in *. intros q Hq0. assert (H : In (lpos q) (map lpos rows)) by (rewrite <- F; now apply in_map).
    apply in_map_iff in H. destruct H as (z & <- & Hz). now apply G.
Qed.

Lemma below_at p o o' : below o o' -> below (at_position p o) (at_position p o').
Proof. induction 1 as [|x x' l l' [E H] F IH]; cbn; constructor; auto. Qed.

Lemma below_app x x' y y' : below x x' -> below y y' -> below (x ++ y) (x' ++ y').
Proof. apply Forall2_app. Qed.

(** ** Beams *)
Section Beams.
Context {Sec : Type}.
Variables (qs : argsort_oracle R) (k : comp) (c : Z) (b b' : beam_t R Sec) (ls : list R).
Hypothesis Hq : any_argsort qs.
Hypothesis Hb : Forall2 (heavier k c) b b'.
Hypothesis Hl : has_lengths b ls.

Lemma heavier_lengths : has_lengths b' ls.
Proof using Hb Hl.
  clear Hq. revert ls Hl. induction Hb as [|e e' l l' (E & _) F IH]; intros ls0 H; inversion H; subst; constructor.
  - now rewrite E.
  - now apply IH.
Qed.

Lemma heavier_loaded : loaded b c /\ loaded b' c.
Proof using Hb.
  clear Hl Hq. split; intros x Hx; induction Hb as [|e e' l l' (E & rows & rows' & D & D' & A & N & M) F IH]; try contradiction;
    (destruct Hx as [<-|Hx]; [|now apply IH]).
  - exists rows. auto.
  - exists rows'. split; auto. apply accepted_rows in A. split; [apply accepted_rows; now apply (more_wf k rows)|].
    destruct M; [congruence|discriminate].
Qed.

Lemma heavier_positions position mp :
  beam_list_positions b' position mp (Some c) = beam_list_positions b position mp (Some c).
Proof using Hb.
  apply same_list_positions. clear Hl. induction Hb as [|e e' l l' (E & rows & rows' & D & D' & A & N & M) F IH]; constructor; auto.
  split; auto. unfold el_load_positions. rewrite D, D'. cbn [bind load_positions]. now rewrite (more_pos k rows rows' M).
Qed.

Lemma heavier_nth i e e' : nth_error b i = Some e -> nth_error b' i = Some e' -> heavier k c e e'.
Proof using Hb.
  clear Hl Hq. revert i. induction Hb as [|x x' l l' R F IH]; intros [|i] E E'; try discriminate; [|now apply (IH F i)]. cbn in *. congruence.
Qed.

Lemma C140_sum position mp a : designates a [k] ->
  (exists e, beam_get_loads qs b c position mp a = Err e /\ beam_get_loads qs b' c position mp a = Err e) \/
  (beam_get_loads qs b c position mp a = Ok None /\ beam_get_loads qs b' c position mp a = Ok None) \/
  (exists out out', beam_get_loads qs b c position mp a = Ok (Some out) /\
     beam_get_loads qs b' c position mp a = Ok (Some out') /\ below out out').
Proof using Hq Hb Hl.
  intros Hd. assert (C : [k] <> []) by discriminate. destruct heavier_loaded as (L1 & L2). pose proof (heavier_positions position mp) as P2.
  pose proof heavier_lengths as Hl'.
  destruct (beam_list_positions b position mp (Some c)) as [locs|e] eqn:E.
  2:{ left. exists e. unfold beam_get_loads. now rewrite P2, E. }
  destruct (C21_total qs b ls c position mp a [k] locs Hq Hl L1 Hd C E) as (bl1 & F1 & ->).
  destruct (C21_total qs b' ls c position mp a [k] locs Hq Hl' L2 Hd C P2) as (bl2 & F2 & ->).
  right. destruct locs as [|t locs]; [now left|right]. exists (List.concat bl1), (List.concat bl2). split; auto. split; auto.
  clear E P2. revert bl1 bl2 F1 F2.
  induction (t :: locs) as [|[[p z] x] r IH]; intros bl1 bl2 F1 F2; inversion F1; inversion F2; subst; [constructor|].
  cbn [List.concat]. apply below_app; [|now apply IH].
  destruct H1 as (e1 & o1 & N1 & _ & G1 & ->). destruct H6 as (e2 & o2 & N2 & _ & G2 & ->).
  destruct (heavier_nth _ e1 e2 N1 N2) as (_ & rows & rows' & D1 & D2 & A & N & M).
  assert (A2 : accepted (Some rows') /\ rows' <> []).
  { destruct (L2 e2 (nth_error_In _ _ N2)) as (rr & Dr & Ar & Nr). rewrite D2 in Dr. injection Dr as <-. auto. }
  rewrite (el_get_loads_block qs e1 c x a [k] rows) in G1 by auto. rewrite (el_get_loads_block qs e2 c x a [k] rows') in G2 by tauto.
  injection G1 as <-. injection G2 as <-. apply below_at. now apply more_block.
Qed.
End Beams.

(** ** Utilisation *)
Section Util.
Variables (qs : argsort_oracle R) (phi phi' au kt au' kt' : R) (c : Z) (b b' : beam_t R (section R)).
Variables (s s' : option (section R)) (a a' : as4100 R) (ls : list R).
Hypothesis Hq : any_argsort qs.
Hypothesis Hphi : 0 < phi' <= phi.
Hypothesis Hb : Forall2 (heavier N c) b b'.
Hypothesis Hw : Forall2 (weaker_bar kt au kt' au') b b'.
Hypothesis Hl : has_lengths b ls.
Hypothesis Nb : b <> [].
Hypothesis Hm : make_as4100 phi au kt (Some b) s = Ok a.
Hypothesis Hm' : make_as4100 phi' au' kt' (Some b') s' = Ok a'.

Lemma heavier_axial p x : 0 <= p <= span ls -> axial qs b c p x -> exists y, axial qs b' c p y /\ x <= y.
Proof using Hq Hb Hl.
  intros P (rows & q & E & I).
  destruct (C140_sum qs N c b b' ls Hq Hb Hl (PosNum p) None (CStr "N") (d_name N)) as [(e & X & _)|[(X & _)|(o1 & o2 & X1 & X2 & B)]]; try congruence.
  assert (o1 = rows) by congruence. subst o1. clear X1 E. assert (K : exists y q', In (q', [Some y]) o2 /\ x <= y).
  { clear X2. induction B as [|o o' l l' (Eq & v & v' & Ev & Ev' & L) F IH]; [contradiction|]. destruct I as [->|I].
    - cbn in Ev. injection Ev as <-. exists v', (fst o'). split; auto. left. destruct o'. cbn in *. congruence.
    - destruct (IH I) as (y & q' & Iy & Ly). exists y, q'. split; auto. now right. }
  destruct K as (y & q' & Iy & Ly). exists y. split; auto. exists o2, q'. auto.
Qed.

Lemma bars_both : sound_bars kt au b /\ sound_bars kt' au' b'.
Proof using Hw.
  clear - Hw. split; intros e He; induction Hw as [|x x' l l' (r & m & y & r' & m' & y' & E & B & E' & B' & P) F IH]; try contradiction;
    (destruct He as [<-|He]; [|now apply IH]).
  - exists r, m, y. split; auto. split; auto. lra.
  - exists r', m', y'. split; auto. split; auto. lra.
Qed.

Lemma weaker_nth i e e' : nth_error b i = Some e -> nth_error b' i = Some e' -> weaker_bar kt au kt' au' e e'.
Proof using Hw.
  clear - Hw. revert i. induction Hw as [|x x' l l' R F IH]; intros [|i] E E'; try discriminate; [|now apply (IH F i)]. cbn in *. congruence.
Qed.

Lemma nonempty' : b' <> [].
Proof using Hb Nb. clear - Hb Nb. destruct Hb; [congruence|discriminate]. Qed.

Lemma caps_sound p : 0 <= p <= span ls -> (phiNt a (PosNum p) = Ok (cap_of a p) /\ 0 < cap_of a p) /\
  (phiNt a' (PosNum p) = Ok (cap_of a' p) /\ 0 < cap_of a' p) /\ cap_of a' p <= cap_of a p.
Proof using Hphi Hb Hw Hl Nb Hm Hm'.
  intros P. destruct bars_both as [B B']. pose proof (heavier_lengths N c b b' ls Hb Hl) as Hl'.
  destruct (cap_sound phi au kt b s a ls Hm Hl Nb ltac:(lra) B p P) as (E & Pc & (Ec & _)).
  destruct (cap_sound phi' au' kt' b' s' a' ls Hm' Hl' nonempty' ltac:(lra) B' p P) as (E' & Pc' & (_ & Lc)).
  split; auto. split; auto. destruct Ec as (q & i & [<-|[]] & Cv & (e & r & m & Ee & Es & Bc)).
  destruct (lengths_has b' ls i Hl' (proj1 Cv)) as (e' & Ee').
  destruct (weaker_nth i e e' Ee Ee') as (r0 & m0 & x & r' & m' & x' & Es0 & Bc0 & Es' & Bc' & Px).
  assert (r0 = r) by congruence. assert (m0 = m) by congruence. subst r0 m0.
  assert (X : cap_of a p / phi = x).
  { destruct Bc as (fy & fu & F1 & F2 & ->). destruct Bc0 as (fy' & fu' & F1' & F2' & ->). congruence. }
  assert (Y : cap_of a' p / phi' <= x').
  { apply Lc. exists p, i. split; [now left|]. split; auto. exists e', r', m'. auto. }
  apply Rle_trans with (phi' * x').
  - apply (Rmult_le_compat_l phi') in Y; [|lra]. replace (phi' * (cap_of a' p / phi')) with (cap_of a' p) in Y by (field; lra). exact Y.
  - replace (cap_of a p) with (phi * x) by (rewrite <- X; field; lra). apply Rmult_le_compat; lra.
Qed.

Lemma ratio_more p x y : 0 <= p <= span ls -> x <= y -> Rmax x 0 / cap_of a p <= Rmax y 0 / cap_of a' p.
Proof using Hphi Hb Hw Hl Nb Hm Hm'.
  intros P L. destruct (caps_sound p P) as ((_ & Pc) & (_ & Pc') & Lc).
  apply Rmult_le_compat; [apply Rmax_r|apply Rlt_le, Rinv_0_lt_compat; auto| |apply Rinv_le_contravar; auto].
  apply Rmax_lub; [apply Rle_trans with y; auto; apply Rmax_l|apply Rmax_r].
Qed.

Theorem C140_everywhere n n' u u' : (0 <= n)%Z -> (0 <= n')%Z ->
  tension_utilisation qs (set_assessment_points a n) (LCInt c) PosNone = Ok u ->
  tension_utilisation qs (set_assessment_points a' n') (LCInt c) PosNone = Ok u' -> u <= u'.
Proof using Hq Hphi Hb Hw Hl Nb Hm Hm'.
  intros P1 P2 U1 U2. destruct (heavier_loaded N c b b' Hb) as (L1 & L2). pose proof (heavier_lengths N c b b' ls Hb Hl) as Hl'.
  assert (C1 : forall p, 0 <= p <= span ls -> phiNt a (PosNum p) = Ok (cap_of a p) /\ 0 < cap_of a p) by (intros p P; apply (caps_sound p P)).
  assert (C2 : forall p, 0 <= p <= span ls -> phiNt a' (PosNum p) = Ok (cap_of a' p) /\ 0 < cap_of a' p) by (intros p P; apply (caps_sound p P)).
  destruct (C103_worst qs phi au kt b s a ls (cap_of a) c Hq Hm ltac:(lra) Hl Nb L1 C1 n u P1 U1) as [_ (p & t & P & Ht & ->)].
  destruct (C103_worst qs phi' au' kt' b' s' a' ls (cap_of a') c Hq Hm' ltac:(lra) Hl' nonempty' L2 C2 n' u' P2 U2) as [W2 _].
  apply (tension_axial qs phi au kt b s a ls c Hq Hm Hl Nb L1 p t P) in Ht. destruct Ht as (x & Ax & ->).
  destruct (heavier_axial p x P Ax) as (y & Ay & Ly).
  apply Rle_trans with (Rmax y 0 / cap_of a' p); [now apply ratio_more|].
  apply W2; auto. apply (tension_axial qs phi' au' kt' b' s' a' ls c Hq Hm' Hl' nonempty' L2 p _ P). eauto.
Qed.

Theorem C140_at position ps u u' : requested position ps -> Forall (fun p => 0 <= p <= span ls) ps ->
  tension_utilisation qs a (LCInt c) position = Ok u -> tension_utilisation qs a' (LCInt c) position = Ok u' -> u <= u'.
Proof using Hq Hphi Hb Hw Hl Nb Hm Hm'.
  intros Rq F U1 U2. destruct (heavier_loaded N c b b' Hb) as (L1 & L2). pose proof (heavier_lengths N c b b' ls Hb Hl) as Hl'.
  rewrite Forall_forall in F.
  assert (Sp : Forall (sound_position a ls (cap_of a)) ps).
  { rewrite Forall_forall. intros p Hp. split; [now apply F|apply (caps_sound p); now apply F]. }
  assert (Sp' : Forall (sound_position a' ls (cap_of a')) ps).
  { rewrite Forall_forall. intros p Hp. split; [now apply F|apply (caps_sound p); now apply F]. }
  destruct (util_iff qs phi au kt b s a ls (cap_of a) Hq Hm Hl Nb (LCInt c) [c] position ps (w_int b c) (at_given _ _ _ _ _ Rq) (Forall_cons _ L1 (Forall_nil _)) Sp) as (V1 & _).
  destruct (util_iff qs phi' au' kt' b' s' a' ls (cap_of a') Hq Hm' Hl' nonempty' (LCInt c) [c] position ps (w_int b' c) (at_given _ _ _ _ _ Rq) (Forall_cons _ L2 (Forall_nil _)) Sp') as (V2 & _).
  apply V1 in U1. apply V2 in U2. destruct U2 as [[_ G2] _].
  destruct U1 as [[(c0 & p & x & Ic & Ip & Ax & ->) _] _]. destruct Ic as [<-|[]].
  destruct (heavier_axial p x (F p Ip) Ax) as (y & Ay & Ly).
  apply Rle_trans with (Rmax y 0 / cap_of a' p); [apply ratio_more; auto|]. apply G2. exists c, p, y. cbn. auto.
Qed.
End Util.
