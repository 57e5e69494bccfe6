(** Concrete code checks used as examples and counterexamples in P_AS4100.v. *)

From Coq Require Import ZArith Reals List Bool String Lra Lia.
From Verif Require Import Base Num RNum PyNum Numpy LoadCase LoadSpec LoadFacts LoadProofs
  Beam BeamSpec BeamFacts BeamPositions BeamProofs BeamLoads BeamMisc BeamFloat BeamCases Material MaterialFacts
  AS4100 AS4100Spec AS4100Facts AS4100Util AS4100Scale IntFloat AS4100Int.
Import ListNotations.
Open Scope R_scope.

(** ** Exact arithmetic *)
Definition rod_steel : material R :=
  mk_material (Some Steel) (TStr "rod") (TStr "AS4100")
    [("strengths"%string, TTable [[5 / 1000; 1]; [320; 300]; [440; 430]])].
Definition rod (r : R) : section R := SCircle r (Some rod_steel).
Definition rod_elem (l r : R) : elem R (section R) := mk_elem (Some l) (Some (rod r)) [(7%Z, Some tab4)].
Definition rod_beam : beam_t R (section R) := [rod_elem 2 (1 / 10); rod_elem 0 (1 / 5); rod_elem 3 (1 / 20)].
Definition rod_lengths : list R := [2; 0; 3].
Definition rod_check : as4100 R :=
  mk_as4100 (Some rod_beam) None 20 [mk_as (1 / 10) rod_steel; mk_as (1 / 5) rod_steel; mk_as (1 / 20) rod_steel]
    (9 / 10) (85 / 100) 1.
Definition rod_capacity (r : R) : R := Rmin (PI * r ^ 2 * 300) (PI * r ^ 2 * 430 * 1 * (85 / 100)).

Lemma rod_made : make_as4100 (9 / 10) (85 / 100) 1 (Some rod_beam) None = Ok rod_check.
Proof. apply make_ok. split; [intros [H _]; discriminate H|]. eexists. split; [|reflexivity]. repeat constructor. Qed.

Lemma rod_strength r : 5 / 1000 < r * 2 -> r * 2 <= 1 ->
  min_fy (mk_as r rod_steel) = Ok 300 /\ min_fu (mk_as r rod_steel) = Ok 430.
Proof.
  intros H1 H2. unfold min_fy, min_fu. change (as_strengths (mk_as r rod_steel)) with (Ok [[5 / 1000; 1]; [320; 300]; [440; 430]]).
  cbn [bind as_radius nmul nint RNum].
  assert (G : forall y, get_f (r * 2) y [[5 / 1000; 1]; [320; 300]; [440; 430]] =
    let! i := strength_index y in let! row := nth_res [[5 / 1000; 1]; [320; 300]; [440; 430]] i in nth_res row 1).
  { intros y. unfold get_f. cbn [nth_res nth_error bind rev app thick_sorted find_band nltb nleb nsub nint RNum].
    rewrite (proj2 (Rltb_false (r * 2) 0)), (proj2 (Rltb_false 1 (r * 2))) by lra.
    rewrite (proj2 (Rleb_false (1 - 5 / 1000) 0)), (proj2 (Rleb_false (r * 2) (5 / 1000))), (proj2 (Rleb_true (r * 2) 1)) by lra.
    reflexivity. }
  split; apply G.
Qed.

Lemma rod_bar r : 5 / 1000 < r * 2 -> r * 2 <= 1 -> forall c, bar_capacity 1 (85 / 100) r rod_steel c <-> c = rod_capacity r.
Proof.
  intros H1 H2 c. destruct (rod_strength r H1 H2) as [E1 E2]. split.
  - intros (fy & fu & F1 & F2 & ->). assert (fy = 300) by congruence. assert (fu = 430) by congruence. now subst.
  - intros ->. exists 300, 430. auto.
Qed.

Lemma rod_capacity_val r : rod_capacity r = PI * r ^ 2 * 300.
Proof.
  unfold rod_capacity. apply Rmin_left.
  assert (0 <= PI * r ^ 2) by (apply Rmult_le_pos; [pose proof PI_RGT_0; lra|apply pow2_ge_0]). lra.
Qed.
Lemma rod_capacity_pos r : 0 < r -> 0 < rod_capacity r.
Proof.
  intros H. rewrite rod_capacity_val.
  assert (0 < PI * r ^ 2). { pose proof PI_RGT_0. pose proof (pow_lt r 2 H). now apply Rmult_lt_0_compat. } lra.
Qed.
Lemma rod_capacity_le r r' : 0 < r -> r <= r' -> rod_capacity r <= rod_capacity r'.
Proof.
  intros H L. rewrite !rod_capacity_val. assert (PI * r ^ 2 <= PI * r' ^ 2); [|lra].
  apply Rmult_le_compat_l; [pose proof PI_RGT_0; lra|]. cbn. rewrite !Rmult_1_r. apply Rmult_le_compat; lra.
Qed.

(** The design capacity along the beam: that of the thinnest bar present. *)
Definition rod_cap (p : R) : R := 9 / 10 * rod_capacity (if Rlt_dec p 2 then 1 / 10 else 1 / 20).

Lemma rod_has_lengths : has_lengths rod_beam rod_lengths.
Proof. repeat constructor; cbn; lra. Qed.
Lemma rod_loaded : Forall (loaded rod_beam) [7%Z].
Proof.
  constructor; [|constructor].
  intros e He. exists tab4. assert (E : eloads e = [(7%Z, Some tab4)]).
  { cbn in He. destruct He as [<-|[<-|[<-|[]]]]; reflexivity. }
  rewrite E. split; [reflexivity|]. split; [apply tab4_accepted|discriminate].
Qed.

Definition rod_radius (i : nat) : R := match i with 0%nat => 1 / 10 | 1%nat => 1 / 5 | _ => 1 / 20 end.
Lemma rod_element i c : (i < 3)%nat -> element_capacity 1 (85 / 100) rod_beam i c <-> c = rod_capacity (rod_radius i).
Proof.
  intros Hi. destruct i as [|[|[|i]]]; [| | |lia]; cbn [rod_radius]; (split;
    [intros (e & r & m & [= <-] & [= <- <-] & H); revert H; apply rod_bar; lra
    |intros ->; eexists; eexists; eexists; split; [reflexivity|]; split; [reflexivity|]; apply rod_bar; lra]).
Qed.

Lemma rod_sound p : 0 <= p <= 5 -> sound_position rod_check rod_lengths rod_cap p.
Proof.
  intros Hp. assert (Sp : span rod_lengths = 5) by (unfold span, rod_lengths; cbn; lra).
  split; [now rewrite Sp|].
  assert (P : 0 < rod_cap p).
  { unfold rod_cap. assert (0 < rod_capacity (if Rlt_dec p 2 then 1 / 10 else 1 / 20)); [|lra].
    apply rod_capacity_pos. destruct (Rlt_dec p 2); lra. }
  split; auto.
  apply (C28_phi (9 / 10) (85 / 100) 1 (Some rod_beam) None rod_check (PosNum p) (rod_cap p) rod_made).
  eexists. split; [|reflexivity].
  apply (C28_explicit (9 / 10) (85 / 100) 1 rod_beam None rod_check rod_lengths (PosNum p) [p] _ rod_made rod_has_lengths); [discriminate|constructor|].
  assert (Cv : forall i, covers rod_lengths i p -> (i < 3)%nat /\ (p < 2 -> i = 0%nat)).
  { intros i [C1 C2]. cbn in C1. split; [lia|]. intros L. destruct i as [|[|[|i]]]; auto; try lia;
    unfold start_of, end_of, span, rod_lengths in C2; cbn in C2; lra. }
  split; [rewrite Sp; now constructor|]. split.
  - intros q i [<-|[]] C. exists (rod_capacity (rod_radius i)). apply rod_element; auto. apply Cv; auto.
  - split.
    + exists p. destruct (Rlt_dec p 2) as [L|L]; [exists 0%nat|exists 2%nat]; (split; [now left|]);
        (split; [split; [cbn; lia|unfold start_of, end_of, span, rod_lengths; cbn; lra]|]); apply rod_element; auto with arith; reflexivity.
    + intros x (q & i & [<-|[]] & C & V). destruct (Cv i C) as [Hi Hl]. apply rod_element in V; auto. subst x.
      destruct (Rlt_dec p 2) as [L|L]; [rewrite (Hl L); cbn; apply rod_capacity_le; lra|].
      apply rod_capacity_le; destruct i as [|[|[|i]]]; cbn; lra.
Qed.

Lemma rod_axial qs n : any_argsort qs -> axial qs rod_beam 7 1 n <-> n = 2 \/ n = 3.
Proof.
  intros Hq.
  assert (D : designates (CStr "N") [N]) by apply (d_name N).
  assert (Dn : [N] <> []) by discriminate.
  pose proof (Forall_inv rod_loaded) as Ld. pose proof rod_has_lengths as Hl.
  assert (Hp : 0 <= 1 <= span rod_lengths) by (unfold span, rod_lengths; cbn; lra).
  destruct (C24_explicit qs rod_beam rod_lengths 7 (PosNum 1) [1] (CStr "N") [N] Hq Hl Ld D Dn) as (out & E);
    [constructor|constructor; auto|].
  assert (El : exists locs, beam_list_positions rod_beam (PosNum 1) None (Some 7%Z) = Ok locs).
  { unfold beam_get_loads in E. destruct (beam_list_positions rod_beam (PosNum 1) None (Some 7%Z)); [eauto|discriminate]. }
  destruct El as (locs & El).
  destruct (list_positions_triples rod_beam rod_lengths _ _ _ locs Hl El) as (H1 & _ & H3 & H4).
  assert (I : In 1 (positions_of locs)) by (apply (H4 ltac:(discriminate) [1] (r_num 1)); now left).
  assert (C0 : covers rod_lengths 0 1) by (split; [cbn; lia|unfold start_of, end_of, span, rod_lengths; cbn; lra]).
  destruct (C21_total qs rod_beam rod_lengths 7 (PosNum 1) None (CStr "N") [N] locs Hq Hl Ld D Dn El) as (bl & F & G).
  assert (G' : beam_get_loads qs rod_beam 7 (PosNum 1) None (CStr "N") = Ok (Some (List.concat bl))).
  { destruct locs; [destruct I|exact G]. }
  assert (Loc : forall t, In t locs -> t = (1, 0%Z, 1 / 2)).
  { intros [[p z] x] Ht. destruct (H1 _ _ _ Ht) as (i & -> & [C1 C2] & Lx).
    assert (p = 1).
    { assert (In p [1]); [|destruct H; [auto|destruct H]]. apply (H4 ltac:(discriminate) [1] (r_num 1)).
      unfold positions_of. apply in_map_iff. exists (p, Z.of_nat i, x). auto. }
    subst p. destruct i as [|[|[|i]]]; cbn in C1; try lia; unfold start_of, end_of, span, rod_lengths in *; cbn in *; try lra.
    f_equal. specialize (Lx ltac:(lra)). lra. }
  assert (Bk : block tab4 [N] (1 / 2) = [(1 / 2, [Some 2]); (1 / 2, [Some 3])]).
  { unfold block, tab4. cbn [map lpos]. unfold py_in. cbn [existsb filter neqb RNum lpos]. unfold Reqb.
    repeat (match goal with |- context [Req_EM_T ?x ?y] => destruct (Req_EM_T x y) as [?|?]; try (exfalso; lra) end).
    reflexivity. }
  assert (Bl : forall o, In o bl -> o = [(1, [Some 2]); (1, [Some 3])]).
  { intros o Ho. destruct (Forall2_In_r _ _ _ _ F Ho) as ([[q z] x] & Ht & el & rs & He & _ & Eg & ->).
    specialize (Loc _ Ht). injection Loc as -> -> ->. cbn in He. injection He as <-.
    rewrite (el_get_loads_block qs _ 7 (1 / 2) (CStr "N") [N] tab4) in Eg; auto using tab4_accepted; [|discriminate].
    rewrite Bk in Eg. injection Eg as <-. reflexivity. }
  assert (Nb : bl <> []).
  { intros ->. inversion F. subst. destruct I. }
  split.
  - intros (rows & x & Er & Hin). rewrite G' in Er. injection Er as <-. apply in_concat in Hin. destruct Hin as (o & Ho & Hx).
    rewrite (Bl o Ho) in Hx. destruct Hx as [[= _ <-]|[[= _ <-]|[]]]; auto.
  - intros Hn. exists (List.concat bl), 1. split; auto. destruct bl as [|o bl]; [congruence|]. apply in_concat. exists o. split; [now left|].
    rewrite (Bl o) by now left. destruct Hn as [->| ->]; cbn; auto.
Qed.

Lemma rod_utilisation qs : any_argsort qs ->
  tension_utilisation qs rod_check LCNone (PosNum 1) = Ok (3 / rod_cap 1).
Proof.
  intros Hq.
  assert (C1 : rod_cap 1 = 27 / 10 * PI).
  { unfold rod_cap. destruct (Rlt_dec 1 2); [|lra]. rewrite rod_capacity_val. field. }
  pose proof PI_RGT_0. pose proof PI_4.
  assert (Rs : forall x, ratios qs rod_beam rod_cap [7%Z] [1] x <-> x = 2 / rod_cap 1 \/ x = 3 / rod_cap 1).
  { intros x. split.
    - intros (l & p & n & [<-|[]] & [<-|[]] & A & ->). apply rod_axial in A; auto. destruct A as [->| ->]; rewrite Rmax_left by lra; auto.
    - intros Hx. exists 7%Z, 1. destruct Hx as [->| ->]; [exists 2|exists 3]; (split; [now left|]); (split; [now left|]);
        (split; [apply rod_axial; auto|]); rewrite Rmax_left by lra; auto. }
  assert (P : 0 < / rod_cap 1) by (apply Rinv_0_lt_compat; rewrite C1; lra).
  apply (util_iff qs (9 / 10) (85 / 100) 1 rod_beam None rod_check rod_lengths rod_cap Hq rod_made rod_has_lengths
     ltac:(discriminate) LCNone [7%Z] (PosNum 1) [1]).
  - now apply w_all.
  - apply at_given. constructor.
  - apply rod_loaded.
  - constructor; [|constructor]. apply rod_sound. lra.
  - split; [split|].
    + apply Rs. auto.
    + intros x Hx. apply Rs in Hx. unfold Rdiv in *. destruct Hx as [->| ->]; lra.
    + assert (Sm : smallest_ratio < 2 / rod_cap 1).
      { unfold smallest_ratio. rewrite C1. apply Rlt_trans with (/ 1000000).
        - apply (Rmult_lt_reg_r (200000 - / 10000)); [lra|]. unfold Rdiv. rewrite Rmult_assoc, Rinv_l by lra. lra.
        - apply (Rmult_lt_reg_r (27 / 10 * PI)); [lra|]. unfold Rdiv. rewrite (Rmult_assoc 2), Rinv_l by lra. lra. }
      intros x Hx _. apply Rs in Hx. destruct Hx as [->| ->]; auto. unfold Rdiv in *. lra.
Qed.

Lemma smallest_small : smallest_ratio < 51 / 10000000000000000.
Proof.
  unfold smallest_ratio. apply (Rmult_lt_reg_r (200000 - / 10000)); [lra|]. unfold Rdiv. rewrite Rmult_assoc, Rinv_l by lra. lra.
Qed.

(** The rod check with all axial loads doubled. *)
Definition rod_beam2 : beam_t R (section R) :=
  map (fun e => mk_elem (elength e) (esection e)
         [(7%Z, Some (map (fun r => mk_lrow (lpos r) (lVX r) (lVY r) (2 * lN r) (lMX r) (lMY r) (lT r)) tab4))]) rod_beam.
Lemma rod_scaled : axial_scaled 2 rod_beam rod_beam2.
Proof. repeat constructor. Qed.

(** ** Doubles *)
Close Scope R_scope.
Definition steel300 : option (material pynum) :=
  match load_material material_toml "AS3679.1-2016-300" with Ok m => Some m | _ => None end.
(** A 20 mm bar. *)
Definition bar20 : section pynum := SCircle (fl 1 100) steel300.
Definition row_N (x n : pynum) : lrow pynum :=
  mk_lrow x (fl 0 1) (fl 0 1) n (fl 0 1) (fl 0 1) (fl 0 1).
(** No load at all in load case 1; in load case 2 a load [n] at mid-length. *)
Definition calm : list (lrow pynum) := [row_N (fl 0 1) (fl 0 1); row_N (fl 1 1) (fl 0 1)].
Definition spike (n : pynum) : list (lrow pynum) :=
  [row_N (fl 0 1) (fl 0 1); row_N (fl 49 100) (fl 0 1); row_N (fl 1 2) n;
   row_N (fl 51 100) (fl 0 1); row_N (fl 1 1) (fl 0 1)].
Definition bar_beam (len n : pynum) : beam_t pynum (section pynum) :=
  [mk_elem (Some len) (Some bar20) [(1%Z, Some calm); (2%Z, Some (spike n))]].
Definition bar_check (len n : pynum) : as4100 pynum :=
  match default_as4100 (Some (bar_beam len n)) None with
  | Ok a => a
  | Err _ => mk_as4100 None None 0 [] (fl 0 1) (fl 0 1) (fl 0 1)
  end.
Lemma bar_made len n : default_as4100 (Some (bar_beam len n)) None = Ok (bar_check len n).
Proof. vm_compute. reflexivity. Qed.

Lemma spike_table n : nisfloat n = true -> BeamSpec.good_table (spike n).
Proof.
  intros H. split; [|split; [|discriminate]].
  - apply Forall_forall. intros r Hr. unfold spike, calm in Hr. cbn [In] in Hr.
    repeat (destruct Hr as [<-|Hr]; [split; [vm_compute; exact I|intros []; cbn; auto]|]). destruct Hr.
  - repeat constructor; vm_compute; reflexivity.
Qed.
Lemma calm_table : BeamSpec.good_table calm.
Proof.
  split; [|split; [|discriminate]].
  - apply Forall_forall. intros r Hr. unfold spike, calm in Hr. cbn [In] in Hr.
    repeat (destruct Hr as [<-|Hr]; [split; [vm_compute; exact I|intros []; cbn; auto]|]). destruct Hr.
  - repeat constructor; vm_compute; reflexivity.
Qed.

(** A beam of doubles with nothing odd about it: at least one element, positive lengths,
    every load case given by a non-empty ordered table. *)
Definition plain_beam (b : beam_t pynum (section pynum)) : Prop :=
  b <> [] /\
  Forall (fun e => (exists l, elength e = Some l /\ positive_float l) /\
                   Forall (fun d => exists rows, snd d = Some rows /\ BeamSpec.good_table rows) (eloads e)) b /\
  exists cs, cs <> [] /\ Forall (fun e => map fst (eloads e) = cs) b.

Lemma bar_beam_plain len n : positive_float len -> nisfloat n = true -> plain_beam (bar_beam len n).
Proof.
  intros Hl Hn. split; [discriminate|]. split.
  - constructor; [|constructor]. split; [cbn; eauto|]. cbn [eloads bar_beam].
    constructor; [|constructor; [|constructor]]; eexists; (split; [reflexivity|]); auto using calm_table, spike_table.
  - exists [1%Z; 2%Z]. split; [discriminate|]. constructor; [reflexivity|constructor].
Qed.

Lemma three_positive : positive_float (fl 3 1).
Proof. eapply fl_positive. vm_compute. reflexivity. Qed.

(** ** C29 *)
Lemma C29_counterexample :
  ~ (forall (b : option (beam_t pynum (section pynum))) s a position n, default_as4100 b s = Ok a ->
     Ntu a position = Ok n -> phiNtu a position = Ok (nmul (phi_steel a) n)).
Proof.
  intros H. pose proof (fun n => H _ _ _ PosNone n (bar_made (fl 3 1) (fl 1 1))) as K. clear H.
  destruct (Ntu (bar_check (fl 3 1) (fl 1 1)) PosNone) as [n|] eqn:E; [|vm_compute in E; discriminate E].
  specialize (K n eq_refl). vm_compute in E. injection E as <-. vm_compute in K. discriminate K.
Qed.

Lemma C29_what_it_is phi au kt (b : option (beam_t R (section R))) s a position y u :
  make_as4100 phi au kt b s = Ok a -> Nty a position = Ok y -> Ntu a position = Ok u ->
  phiNty a position = Ok (phi * y)%R /\
  (phiNtu a position = Ok (phi * u)%R <-> (phi = 0 \/ u = y)%R).
Proof.
  intros Hm Ey Eu. destruct (make_fields _ _ _ _ _ _ Hm) as (_ & _ & <-).
  unfold phiNty, phiNtu. rewrite Ey. cbn [bind nmul RNum]. split; [reflexivity|]. split.
  - intros E. assert (K : (phi_steel a * y = phi_steel a * u)%R) by congruence.
    destruct (Req_dec (phi_steel a) 0) as [Z0|Z0]; [now left|]. right. apply (Rmult_eq_reg_l (phi_steel a)); auto.
  - intros [Z0| ->]; [rewrite Z0|reflexivity]. now rewrite !Rmult_0_l.
Qed.

(** ** C31 *)
Lemma C31_counterexample :
  ~ (forall b s a c p t cap, plain_beam b -> default_as4100 (Some b) s = Ok a ->
     get_tension stable_argsort a c (PosNum p) None = Ok [(p, [Some t])] -> nltb (nint 0) t = true ->
     tension_capacity a (PosNum p) = Ok cap -> nltb (nint 0) cap = true ->
     exists u, tension_utilisation stable_argsort a (LCInt c) (PosNum p) = Ok u).
Proof.
  intros H. set (n := fl 1 10000000000).
  destruct (tension_capacity (bar_check (fl 3 1) n) (PosNum (fl 3 2))) as [cap|] eqn:E; [|vm_compute in E; discriminate E].
  assert (Lc : nltb (nint 0) cap = true).
  { pose proof E as E'. vm_compute in E'. injection E' as <-. vm_compute. reflexivity. }
  assert (Lt : nltb (nint 0) n = true) by (vm_compute; reflexivity).
  assert (Et : get_tension stable_argsort (bar_check (fl 3 1) n) 2 (PosNum (fl 3 2)) None = Ok [(fl 3 2, [Some n])])
    by (vm_compute; reflexivity).
  assert (Pb : plain_beam (bar_beam (fl 3 1) n)) by (apply bar_beam_plain; [apply three_positive|reflexivity]).
  destruct (H _ None _ 2%Z (fl 3 2) n cap Pb (bar_made (fl 3 1) n) Et Lt E Lc) as (u & Eu).
  vm_compute in Eu. discriminate Eu.
Qed.

(** ** C32 *)
Lemma C32_counterexample :
  ~ (forall b s a c u v, plain_beam b -> default_as4100 (Some b) s = Ok a ->
     tension_utilisation stable_argsort a LCNone PosNone = Ok u ->
     tension_utilisation stable_argsort a (LCInt c) PosNone = Ok v -> nleb v u = true).
Proof.
  intros H. set (n := fl 1000000 1).
  destruct (tension_utilisation stable_argsort (bar_check (fl 3 1) n) LCNone PosNone) as [u|] eqn:Eu; [|vm_compute in Eu; discriminate Eu].
  destruct (tension_utilisation stable_argsort (bar_check (fl 3 1) n) (LCInt 2) PosNone) as [v|] eqn:Ev; [|vm_compute in Ev; discriminate Ev].
  specialize (H (bar_beam (fl 3 1) n) None (bar_check (fl 3 1) n) 2%Z u v).
  assert (L : nleb v u = true).
  { apply H; [|apply bar_made|exact Eu|exact Ev]. apply bar_beam_plain; [apply three_positive|reflexivity]. }
  vm_compute in Eu, Ev. injection Eu as <-. injection Ev as <-. vm_compute in L. discriminate L.
Qed.
(** 0.0 without a load case, 12.6 for load case 2. *)
Lemma C32_how_bad :
  tension_utilisation stable_argsort (bar_check (fl 3 1) (fl 1000000 1)) LCNone PosNone = Ok (fl 0 1) /\
  exists v, tension_utilisation stable_argsort (bar_check (fl 3 1) (fl 1000000 1)) (LCInt 2) PosNone = Ok v /\
    nltb (nint 12) v = true.
Proof. split; [vm_compute; reflexivity|]. eexists. split; [vm_compute; reflexivity|]. vm_compute. reflexivity. Qed.

(** ** C34 *)
Lemma C34_counterexample :
  ~ (forall b s a position mp lc, plain_beam b -> default_as4100 (Some b) s = Ok a ->
     cc_get_section a position mp lc = beam_get_section b position mp lc).
Proof.
  intros H. specialize (H (bar_beam (fl 3 1) (fl 1 1)) None (bar_check (fl 3 1) (fl 1 1)) PosNone (Some 3%Z) (Some 1%Z)).
  rewrite (ltac:(vm_compute; reflexivity) : cc_get_section (bar_check (fl 3 1) (fl 1 1)) PosNone (Some 3%Z) (Some 1%Z) = Err InvalidPositionError) in H.
  assert (E : exists x, beam_get_section (bar_beam (fl 3 1) (fl 1 1)) PosNone (Some 3%Z) (Some 1%Z) = Ok x).
  { eexists. vm_compute. reflexivity. }
  destruct E as (x & E). rewrite E in H.
  assert (X : Err InvalidPositionError = Ok x); [|discriminate X].
  apply H; [|apply bar_made]. apply bar_beam_plain; [apply three_positive|reflexivity].
Qed.

Lemma C34_when {T} {NT : Num T} phi au kt (b : beam_t T (section T)) s a position lc :
  make_as4100 phi au kt (Some b) s = Ok a ->
  (lc = None \/ forall e l, In e b -> elength e = Some l -> neqb l (nint 0) = false) ->
  cc_get_section a position None lc = beam_get_section b position None lc.
Proof.
  intros Hm H. unfold cc_get_section. rewrite (make_beam _ _ _ _ _ _ Hm). unfold beam_get_section.
  assert (E : beam_list_positions b position None None = beam_list_positions b position None lc); [|now rewrite E].
  destruct H as [->|H]; auto.
  assert (L : forall ps, locations b None ps = locations b lc ps).
  { intros ps. unfold locations. f_equal. apply mapM_ext. intros p _. destruct (in_elements b p) as [is|]; [|reflexivity].
    cbn [bind]. f_equal. apply mapM_ext. intros i _. unfold locations_at. destruct (py_index b i) as [e|] eqn:Ei; [|reflexivity].
    cbn [bind]. destruct (elength e) as [l|] eqn:El; auto.
    assert (Ie : In e b). { unfold py_index in Ei. destruct (_ || _) in Ei; [discriminate Ei|].
      destruct (nth_error b _) eqn:En in Ei; [|discriminate Ei]. injection Ei as <-. eapply nth_error_In; eauto. }
    now rewrite (H e l Ie El). }
  unfold beam_list_positions. destruct position as [|x|l]; auto.
  - now rewrite L.
  - now rewrite L.
Qed.

Lemma C34_ignored {T} {NT : Num T} phi au kt (b : beam_t T (section T)) s a position mp lc :
  make_as4100 phi au kt (Some b) s = Ok a ->
  cc_get_section a position mp lc = beam_get_section b position None None.
Proof. intros Hm. unfold cc_get_section. now rewrite (make_beam _ _ _ _ _ _ Hm). Qed.

(** ** C35 *)
Section OnlySection.
Context {T : Type} {NT : Num T}.
Variables (phi au kt : T) (s : option (section T)) (a : as4100 T).
Hypothesis Hm : make_as4100 phi au kt None s = Ok a.

Lemma C35_no_beam : cc_beam a = None.
Proof. apply make_ok in Hm. destruct Hm as (_ & ws & _ & ->). reflexivity. Qed.

Lemma C35_most qs c position mp lc component :
  cc_get_section a position mp lc = Err SectionOnlyError /\
  get_as4100_section a position mp lc = Err SectionOnlyError /\
  cc_get_loads qs a c position mp component = Err SectionOnlyError.
Proof. unfold cc_get_section, get_as4100_section, cc_get_loads. rewrite C35_no_beam. auto. Qed.

Lemma C35_tension qs c position mp : get_tension qs a c position mp = Err AttributeError.
Proof. unfold get_tension. now rewrite C35_no_beam. Qed.

Lemma C35_utilisation qs lc position :
  exists e, tension_utilisation qs a lc position = Err e /\ (lc = LCNone -> e = AttributeError).
Proof.
  unfold tension_utilisation. rewrite C35_no_beam. destruct lc as [|z|l].
  - cbn. eauto.
  - cbn [bind]. destruct position as [|x|ps]; cbn [bind].
    + eexists. split; [reflexivity|discriminate].
    + destruct (nisfloat x); cbn [bind]; eexists; (split; [reflexivity|discriminate]).
    + destruct ps; cbn [bind]; eexists; (split; [reflexivity|discriminate]).
  - cbn [bind]. destruct l as [|z l], position as [|x|ps]; cbn [bind];
      try (eexists; split; [reflexivity|discriminate]);
      try (destruct (nisfloat x)); try (destruct ps); cbn [bind];
      eexists; (split; [reflexivity|discriminate]).
Qed.
End OnlySection.

Definition lone_check : as4100 pynum :=
  match default_as4100 None (Some bar20) with Ok a => a | Err _ => mk_as4100 None None 0 [] (fl 0 1) (fl 0 1) (fl 0 1) end.
Lemma lone_made : default_as4100 None (Some bar20) = Ok lone_check.
Proof. vm_compute. reflexivity. Qed.

Lemma C35_counterexample :
  ~ (forall (s : section pynum) a qs c position mp, default_as4100 None (Some s) = Ok a -> any_argsort qs ->
     get_tension qs a c position mp = Err SectionOnlyError).
Proof.
  intros H. specialize (H bar20 lone_check stable_argsort 1%Z PosNone (Some 2%Z) lone_made stable_argsort_ok).
  rewrite (C35_tension _ _ _ _ _ lone_made) in H. discriminate H.
Qed.

(** ** C77 *)
Lemma bar_floated : lengths_floated (bar_beam (PInt 3) (fl 10000 1)) (bar_beam (fl 3 1) (fl 10000 1)).
Proof.
  split; [|split; [|reflexivity]].
  - constructor; [|constructor]. split; [|split; reflexivity]. right. exists 3%Z. split; [reflexivity|].
    vm_compute. reflexivity.
  - constructor; [|constructor]. cbn. discriminate.
Qed.

Lemma C77_counterexample :
  ~ (forall b b' s a a', lengths_floated b b' -> plain_beam b' -> default_as4100 (Some b) s = Ok a ->
     default_as4100 (Some b') s = Ok a' ->
     tension_utilisation stable_argsort a LCNone PosNone = tension_utilisation stable_argsort a' LCNone PosNone).
Proof.
  intros H. set (n := fl 10000 1).
  assert (E : tension_utilisation stable_argsort (bar_check (PInt 3) n) LCNone PosNone
            = tension_utilisation stable_argsort (bar_check (fl 3 1) n) LCNone PosNone).
  { apply (H (bar_beam (PInt 3) n) (bar_beam (fl 3 1) n) None); try apply bar_made.
    - apply bar_floated.
    - apply bar_beam_plain; [apply three_positive|reflexivity]. }
  vm_compute in E. discriminate E.
Qed.
