(** A 3 m bar with a jump at 0.2 of its length, and one without jumps. *)

From Coq Require Import ZArith Reals List Bool String Sorted Lia Lra Floats.SpecFloat.
From Verif Require Import Base Num RNum PyNum Numpy LoadCase LoadSpec LoadProofs Beam BeamSpec BeamCases Material AS4100 AS4100Spec AS4100Cases
  FloatSpec FloatValSpec FloatPlaceSpec FloatStoredSpec FloatRound FloatOps FloatFacts FloatError FloatUtilSpec FloatLoads FloatUtil FloatCheck FloatCapacity FloatDesign FloatEnd FloatCases FloatDesignCases FloatPlaceCases.
Import ListNotations.
Open Scope R_scope.

Definition jump (n : pynum) : list (lrow pynum) :=
  [row_N (fl 0 1) (fl 0 1); row_N (fl 17 100) (fl 0 1); row_N (fl 2 10) n; row_N (fl 2 10) (fl 0 1); row_N (fl 1 1) (fl 0 1)].
Definition slope : list (lrow pynum) := [row_N (fl 0 1) (fl 40000 1); row_N (fl 2 10) pull; row_N (fl 1 1) (fl 50000 1)].
Definition one_bar (rows : list (lrow pynum)) : beam_t pynum (section pynum) := [mk_elem (Some (fl 3 1)) (Some bar20) [(1%Z, Some rows)]].
Definition one_check (rows : list (lrow pynum)) : as4100 pynum :=
  match default_as4100 (Some (one_bar rows)) None with
  | Ok a => a
  | Err _ => mk_as4100 None None 0 [] (fl 0 1) (fl 0 1) (fl 0 1)
  end.
Definition heavy : pynum := fl 1000000 1.

Lemma one_made rows : default_as4100 (Some (one_bar rows)) None = Ok (one_check rows).
Proof. reflexivity. Qed.

Lemma one_ordinary rows : ordinary_beam (one_bar rows) [fl 3 1].
Proof.
  split; [repeat constructor|]. split; [repeat constructor; a_length|]. split; [discriminate|]. split; [vm_compute; discriminate|].
  apply Rle_trans with (2 := big_1000). cbn [exact_lengths map span fold_right].
  literal (fl 3 1). cbn [Z.pow Z.pow_pos Pos.iter Z.mul Pos.mul]. lra.
Qed.

Lemma jump_ordinary : ordinary_table 1000000 (jump heavy).
Proof.
  pose proof val_zero. literal (fl 1 1). literal (fl 17 100). literal (fl 2 10). literal heavy. split; [discriminate|]. split.
  - repeat (apply Forall_cons; [split; [split; [a_finite|split; vm_compute; reflexivity]|]|]); [| | | | |constructor];
      intros c; destruct c; (split; [a_finite|]); cbn [load_of row_N lVX lVY lN lMX lMY lT]; apply Rabs_le; lra.
  - split; [repeat constructor|]. split; [|apply Rle_trans with (2 := big_500); cbn [Z.pow Z.pow_pos Pos.iter Z.mul Pos.mul]; lra].
    pose proof small_500 as S5.
    intros r r' [<-|[<-|[<-|[<-|[<-|[]]]]]] [<-|[<-|[<-|[<-|[<-|[]]]]]]; cbn [row_N lpos]; lra.
Qed.

Lemma slope_ordinary : ordinary_table 100000 slope.
Proof.
  pose proof val_zero. literal (fl 1 1). literal (fl 2 10). literal (fl 40000 1). literal (fl 50000 1). literal pull. split; [discriminate|]. split.
  - repeat (apply Forall_cons; [split; [split; [a_finite|split; vm_compute; reflexivity]|]|]); [| | |constructor];
      intros c; destruct c; (split; [a_finite|]); cbn [load_of row_N lVX lVY lN lMX lMY lT]; apply Rabs_le; lra.
  - split; [repeat constructor|]. split; [|apply Rle_trans with (2 := big_500); cbn [Z.pow Z.pow_pos Pos.iter Z.mul Pos.mul]; lra].
    pose proof small_500 as S5.
    intros r r' [<-|[<-|[<-|[]]]] [<-|[<-|[<-|[]]]]; cbn [row_N lpos]; lra.
Qed.

Lemma one_loads Y rows l : ordinary_table Y rows -> In l [1%Z] -> ordinary_loads Y (one_bar rows) l.
Proof. intros T [<-|[]] e [<-|[]]. exists rows. split; [reflexivity|exact T]. Qed.

Lemma slope_spread : spread (1 / 10) slope.
Proof.
  pose proof val_zero. literal (fl 1 1). literal (fl 2 10). unfold spread, slope.
  apply SSorted_cons; [|apply Forall_cons; [|apply Forall_cons; [|apply Forall_nil]]; cbn [row_N lpos]; lra].
  apply SSorted_cons; [|apply Forall_cons; [|apply Forall_nil]; cbn [row_N lpos]; lra].
  apply SSorted_cons; [apply SSorted_nil|apply Forall_nil].
Qed.

Lemma one_long rows : long_element (one_bar rows) [fl 3 1] 1 0 (fl 3 1) rows.
Proof. eexists. split; [reflexivity|]. split; [reflexivity|]. split; [literal (fl 3 1); lra|reflexivity]. Qed.

Lemma one_extends rows p : nleb (fl 0 1) p = true -> nleb p (fl 3 1) = true -> extends (one_bar rows) 0 p.
Proof. intros A B. exists [(fl 0 1, Some (fl 3 1))], (fl 0 1), (fl 3 1). split; [vm_compute; reflexivity|]. split; [reflexivity|]. split; assumption. Qed.

(** ** The jump *)
Lemma jump_rows : exists out, beam_get_loads stable_argsort (one_bar (jump heavy)) 1 PosNone (Some 20%Z) (CStr "N") = Ok (Some out) /\
  List.length out = 22%nat /\ Forall (fun o => snd o = [Some (fl 0 1)]) out.
Proof.
  eexists. split; [vm_compute; reflexivity|]. split; [reflexivity|]. repeat (apply Forall_cons; [vm_compute; reflexivity|]). apply Forall_nil.
Qed.

Lemma C149_counterexample :
  ~ (forall qs Y (b : beam_t pynum (section pynum)) ls c n a k out i l rows r, any_argsort qs -> ordinary_beam b ls -> ordinary_loads Y b c ->
     (0 <= n <= 2 ^ 52)%Z -> designates a [k] -> beam_get_loads qs b c PosNone (Some n) a = Ok (Some out) ->
     long_element b ls c i l rows -> In r rows ->
     exists p v, In (p, [Some v]) out /\ Rabs (val v - val (load_of k r)) <= Rabs (val (load_of k r)) / 2).
Proof.
  intros H. destruct jump_rows as (out & E & _ & F). rewrite Forall_forall in F.
  assert (Hd : designates (CStr "N") [N]) by exact n_designates.
  destruct (H stable_argsort 1000000 _ [fl 3 1] 1%Z 20%Z _ N out 0%nat (fl 3 1) (jump heavy) (row_N (fl 2 10) heavy) stable_argsort_ok
    (one_ordinary _) (one_loads _ _ _ jump_ordinary (or_introl eq_refl)) ltac:(lia) Hd E (one_long _) ltac:(cbn [jump In]; auto)) as (p & v & Hv & B).
  pose proof (F _ Hv) as Ev. cbn [snd] in Ev. assert (v = fl 0 1) as -> by congruence. cbn [load_of row_N lN] in B.
  rewrite val_zero in B. assert (Vh : val heavy = 1000000) by (literal heavy; lra). rewrite Vh in B.
  rewrite Rminus_0_l, Rabs_Ropp, Rabs_right in B by lra. lra.
Qed.

Lemma jump_numbers : tension_utilisation stable_argsort (one_check (jump heavy)) LCNone PosNone = Ok (fl 0 1) /\
  exists v, tension_utilisation stable_argsort (one_check (jump heavy)) LCNone (PosNum (fl 6 10)) = Ok v /\ nltb (nint 12) v = true.
Proof. split; [vm_compute; reflexivity|]. eexists. split; vm_compute; reflexivity. Qed.

Lemma C150_counterexample :
  ~ (forall (b : beam_t pynum (section pynum)) ls Y s a c i p u v, ordinary_beam b ls -> ordinary_loads Y b c -> beam_load_cases b = Ok [c] ->
     default_as4100 (Some b) s = Ok a -> extends b i p ->
     tension_utilisation stable_argsort a LCNone PosNone = Ok u -> tension_utilisation stable_argsort a LCNone (PosNum p) = Ok v ->
     nltb (nint 12) v = true -> nltb (nint 0) u = true).
Proof.
  intros H. destruct jump_numbers as (E0 & v & Ev & Lv).
  specialize (H _ _ _ None _ 1%Z 0%nat (fl 6 10) (fl 0 1) v (one_ordinary (jump heavy)) (one_loads _ _ _ jump_ordinary (or_introl eq_refl)) eq_refl (one_made _)
    (one_extends _ (fl 6 10) eq_refl eq_refl) E0 Ev Lv). discriminate H.
Qed.

(** ** The slope *)
Definition slope_locs : list (pynum * Z * pynum) := match beam_list_positions (one_bar slope) PosNone (Some 20%Z) (Some 1%Z) with Ok l => l | Err _ => [] end.
Definition slope_points : list pynum := map (fun x => fst (fst x)) slope_locs.
Lemma slope_made : default_as4100 (Some (one_bar slope)) None = Ok (one_check slope) /\ assessment_points (one_check slope) = 20%Z /\
  beam_list_positions (one_bar slope) PosNone (Some 20%Z) (Some 1%Z) = Ok slope_locs /\ List.length slope_points = 21%nat.
Proof. split; [apply one_made|]. split; [reflexivity|]. split; vm_compute; reflexivity. Qed.

Lemma slope_sections p : In p slope_points -> exists at_p, beam_get_section (one_bar slope) (PosNum p) None None = Ok (at_p, [Some bar20]).
Proof.
  intros Hp. assert (A : Forall (fun p => exists at_p, beam_get_section (one_bar slope) (PosNum p) None None = Ok (at_p, [Some bar20])) slope_points).
  { let x := eval vm_compute in slope_points in change slope_points with x. repeat (apply Forall_cons; [eexists; vm_compute; reflexivity|]). apply Forall_nil. }
  rewrite Forall_forall in A. exact (A p Hp).
Qed.

Lemma slope_rows p : In p slope_points -> exists n, beam_get_loads stable_argsort (one_bar slope) 1 (PosNum p) None (CStr "N") = Ok (Some [(p, [Some n])]) /\
  finite_double n /\ 39000 <= val n <= 101000.
Proof.
  intros Hp. assert (A : Forall (fun p => exists n, beam_get_loads stable_argsort (one_bar slope) 1 (PosNum p) None (CStr "N") = Ok (Some [(p, [Some n])]) /\
    finite_double n /\ nleb (fl 39000 1) n = true /\ nleb n (fl 101000 1) = true) slope_points).
  { let x := eval vm_compute in slope_points in change slope_points with x.
    repeat (apply Forall_cons; [eexists; split; [vm_compute; reflexivity|]; split; [a_finite|]; split; vm_compute; reflexivity|]). apply Forall_nil. }
  rewrite Forall_forall in A. destruct (A p Hp) as (n & E & Fn & L & U). exists n. split; [exact E|]. split; [exact Fn|].
  clear A E Hp. assert (F1 : finite_double (fl 39000 1)) by a_finite. assert (F2 : finite_double (fl 101000 1)) by a_finite.
  pose proof (proj1 (val_leb _ _ F1 Fn) L) as L'. pose proof (proj1 (val_leb _ _ Fn F2) U) as U'.
  literal (fl 39000 1). literal (fl 101000 1). clear L U F1 F2. lra.
Qed.

Lemma slope_case :
  (forall p, In p slope_points -> exists at_p ss, beam_get_section (one_bar slope) (PosNum p) None None = Ok (at_p, ss) /\
     least (bar_exact p) (bar_capacities (fl 100 100) (fl 85 100) ss) /\
     forall x, In x ss -> exists r m fy fu, x = Some (SCircle r (Some m)) /\ min_fy (mk_as r m) = Ok fy /\
       min_fu (mk_as r m) = Ok fu /\ moderate r /\ moderate fy /\ moderate fu)
  /\ (forall l p, In l [1%Z] -> In p slope_points -> exists rows,
     beam_get_loads stable_argsort (one_bar slope) l (PosNum p) None (CStr "N") = Ok (Some rows) /\ rows <> [] /\
     Forall (fun o => exists n, snd o = [Some n] /\ finite_double n /\
       (val n <= 0 \/ powerRZ 2 (-12) <= val n / (val (fl 90 100) * bar_exact p) <= powerRZ 2 19)) rows).
Proof.
  split.
  - intros p Ip. destruct (slope_sections p Ip) as (at_p & E). exists at_p, [Some bar20]. split; [exact E|].
    split; [apply bar_least|exact bar_moderate_sections].
  - intros l p [<-|[]] Ip. pose proof (bar_exact_bounds p) as B. destruct powers as (_ & P2 & P3 & _).
    assert (F : 89 / 100 <= val (fl 90 100) <= 91 / 100) by (literal (fl 90 100); lra).
    set (c := val (fl 90 100) * bar_exact p). assert (Hc : 89 / 100 * 24576 <= c <= 91 / 100 * 524288) by (split; apply Rmult_le_compat; lra).
    destruct (slope_rows p Ip) as (n & E & Fn & Bn). exists [(p, [Some n])]. split; [exact E|]. split; [discriminate|].
    constructor; [|constructor]. exists n. split; [reflexivity|]. split; [exact Fn|]. right. rewrite P2, P3.
    assert (Q : c * / c = 1) by (field; lra). set (w := / c) in *. unfold Rdiv. fold w.
    assert (0 < w) by (apply Rinv_0_lt_compat; lra).
    split; apply Rmult_le_reg_r with c; try lra; rewrite !Rmult_assoc, (Rmult_comm w), Q; lra.
Qed.

Lemma slope_error : load_error 100000 (1 / 10) [fl 3 1] 0 (fl 3 1) <= 1 / 1000000.
Proof.
  unfold load_error, place_error. cbn [exact_lengths map]. unfold end_of, start_of. cbn [span firstn fold_right Nat.mul Nat.add].
  literal (fl 3 1). replace (val (fl 3 1)) with 3 by lra.
  change (powerRZ 2 (-49)) with (bp (-49)). change (powerRZ 2 (-53)) with (bp (-53)). change (powerRZ 2 (-1073)) with (bp (-1073)). change (powerRZ 2 (-1074)) with (bp (-1074)).
  assert (bp (-1073) <= bp (-49)) by (apply bp_le; lia). assert (bp (-1074) <= bp (-49)) by (apply bp_le; lia). assert (bp (-53) <= bp (-49)) by (apply bp_le; lia).
  assert (E : bp (-49) * bp 49 = 1) by (rewrite <- bp_add; apply bp_0). rewrite (bp_Z 49) in E by lia. cbn [Z.pow Z.pow_pos Pos.iter Z.mul Pos.mul] in E.
  pose proof (bp_pos (-49)). cbn [INR]. lra.
Qed.
