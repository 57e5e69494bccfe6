(** [s6_1_1_Nc] after any session, and what later calls leave alone. *)

From Coq Require Import ZArith Reals List Bool String Lia Lra.
From Verif Require Import Base Num RNum PyReal Symmetry S6 S6Cache S6CacheFacts S6CacheProofs.
Import ListNotations.
Open Scope R_scope.
Open Scope string_scope.

(** * Two-level results *)

Inductive item : Type := Leaf (x : R) | Sub (E : dict).
Definition tree : Type := list (string * item).
Fixpoint tget (k : string) (t : tree) : option item :=
  match t with
  | [] => None
  | (k', i) :: r => if String.eqb k' k then Some i else tget k r
  end.

(** The heap holds the tree at [v], up to the string under "Axis of Symmetry". *)
Definition item_ok (h : heap) (v : val) (i : item) : Prop :=
  match i with
  | Leaf x => v = VNum x
  | Sub E => exists b d, v = VRef b /\ nth_error h b = Some d
      /\ (forall k, k <> "Axis of Symmetry" -> dget k d = dget k E)
      /\ str_or_none (dget "Axis of Symmetry" d) /\ flat E
      /\ str_or_none (dget "Axis of Symmetry" E)
  end.
Definition entry_ok (h : heap) (kv : string * val) (ki : string * item) : Prop :=
  fst kv = fst ki /\ item_ok h (snd kv) (snd ki).
Definition shows (h : heap) (a : nat) (t : tree) : Prop :=
  exists d, nth_error h a = Some d /\ Forall2 (entry_ok h) d t.

(** Numbers of a tree, by path. *)
Definition tnum (t : tree) (p : list string) : option val :=
  match p with
  | [k] => match tget k t with Some (Leaf x) => Some (VNum x) | _ => None end
  | [k; k'] => match tget k t with Some (Sub E) => numeric (dget k' E) | _ => None end
  | _ => None
  end.

Lemma numeric_str v : str_or_none v -> numeric v = None.
Proof. intros [->|(s & ->)]; reflexivity. Qed.

Lemma shows_num h a t p :
  shows h a t -> numeric (at_path h (VRef a) p) = tnum t p.
Proof.
  intros (d & E & F). destruct p as [|k p]; [reflexivity|]. cbn [at_path]. rewrite E.
  clear E. induction F as [|[k1 v] [k2 i] d t [EK EI] F IH].
  - cbn. destruct p as [|k' [|]]; reflexivity.
  - cbn [fst snd] in EK, EI. subst k2. cbn [dget].
    destruct (String.eqb k1 k) eqn:EK.
    2:{ rewrite IH. destruct p as [|k' [|]]; cbn [tnum tget]; rewrite ?EK; reflexivity. }
    clear IH F. destruct i as [x|Em]; cbn [item_ok] in EI.
    + subst v. destruct p as [|k' p]; cbn [at_path tnum tget]; rewrite EK; [reflexivity|].
      now destruct p.
    + destruct EI as (b & e & -> & Eb & C & S1 & FL & S2).
      destruct p as [|k' p]; cbn [at_path tnum tget]; rewrite ?EK; [reflexivity|].
      rewrite Eb.
      destruct (string_dec k' "Axis of Symmetry") as [->|N].
      * destruct S1 as [->|(s & ->)]; [now destruct p; [rewrite (numeric_str _ S2)|]|].
        destruct p; cbn [at_path]; [now rewrite (numeric_str _ S2)|reflexivity].
      * rewrite (C k' N). destruct (dget k' Em) as [w|] eqn:EW; [|now destruct p].
        destruct p; [reflexivity|]. specialize (FL _ _ EW). destruct w; try reflexivity.
        discriminate FL.
Qed.

(** * [s6_1_1_Nc] *)

Definition section_inter (q : sect6) : dict :=
  [("A_e", VNum (s6_2_A_e (q_A_n q) (q_k_f q))); ("A_n", VNum (q_A_n q));
   ("k_f", VNum (q_k_f q)); ("f_y", VNum (q_f_y q))].

Definition nc_tree (roots : roots_oracle) (g : nc_args) : res tree :=
  let q := n_q g in
  let N_s := s6_2_N_s (s6_2_A_e (q_A_n q) (q_k_f q)) (q_f_y q) in
  let phi := n_phi g in
  let top := [("N_s", Leaf N_s); ("φN_s", Leaf (phi * N_s)%R);
              ("N_s Intermediate", Sub (section_inter q))] in
  if n_buckling g then
    let l_ex := s6_3_2_l_e (n_l g) (n_k_ex g) in
    let l_ey := s6_3_2_l_e (n_l g) (n_k_ey g) in
    let! bx := s6_3_3_N_c (q_A_n q) (q_k_f q) l_ex (q_r_x q) (q_f_y q) (n_f_ref g)
                 (n_alpha_b g) in
    let! by_ := s6_3_3_N_c (q_A_n q) (q_k_f q) l_ey (q_r_y q) (q_f_y q) (n_f_ref g)
                 (n_alpha_b g) in
    let N_cx := pymin (nc_N_c bx) N_s in
    let N_cy := pymin (nc_N_c by_) N_s in
    let N_c := pymin (pymin N_s N_cx) N_cy in
    let flex := [("N_cx", Leaf N_cx); ("N_cy", Leaf N_cy); ("φN_cx", Leaf (phi * N_cx)%R);
                 ("φN_cy", Leaf (phi * N_cy)%R);
                 ("N_c Intermediate", Sub [("f_ref", VNum (n_f_ref g));
                                           ("α_b", VNum (n_alpha_b g))]);
                 ("N_cx Intermediate", Sub (flex_inter l_ex (q_r_x q) bx));
                 ("N_cy Intermediate", Sub (flex_inter l_ey (q_r_y q) by_))] in
    if n_torsion g then
      let l_ez := s6_3_2_l_e (n_l g) (n_k_ez g) in
      let! ze := ncz_tree roots q l_ex l_ey l_ez (n_sym g) (n_uncertainty g) in
      let N_cz := pymin N_s (cz_N_cz (fst ze)) in
      let N_c' := pymin N_c N_cz in
      Ok (app top (app flex
        [("N_cz Intermediate",
          Sub (app (snd ze) [("N_cz_buckling", VNum (cz_N_cz (fst ze)))]));
         ("N_cz", Leaf N_cz); ("φN_cz", Leaf (phi * N_cz)%R); ("N_c", Leaf N_c');
         ("φN_c", Leaf (phi * N_c')%R)]))
    else Ok (app top (app flex
           [("N_c", Leaf N_c);
            ("φN_c", Leaf (pymin (pymin (phi * N_s) (phi * N_cx)) (phi * N_cy))%R)]))
  else Ok (app top [("N_c", Leaf N_s); ("φN_c", Leaf (phi * N_s)%R)]).

Ltac flat_list := let k := fresh "k" in let v := fresh "v" in
  intros k v; cbn [dget];
  repeat (match goal with |- context [String.eqb ?a k] => destruct (String.eqb a k) end;
          [let X := fresh in intros X; injection X as <-; reflexivity|]); discriminate.

Lemma flat_app d d' : flat d -> flat d' -> flat (app d d').
Proof.
  intros F F' k v. rewrite dget_app. destruct (dget k d) eqn:E; [|apply F'].
  intros X. injection X as <-. eauto.
Qed.
Lemma flat_base rx ry xo yo r : flat (fx_base rx ry xo yo r).
Proof. unfold fx_base. flat_list. Qed.

Lemma oc_tree_flat roots q lx ly lz sym f E :
  oc_tree roots q lx ly lz sym = Ok (f, E) ->
  flat E /\ str_or_none (dget "Axis of Symmetry" E).
Proof.
  intros H.
  unfold oc_tree in H. destruct (symmetry sym) as [sc|]; cbn [bind] in H; [|discriminate H].
  destruct sc.
  - unfold unsym_tree, unsym_coeffs in H.
    destruct (f_euler _ lx _); cbn [bind] in H; [|discriminate H].
    destruct (f_euler _ ly _); cbn [bind] in H; [|discriminate H].
    destruct (f_euler_torsion _ _ _ _ _ _ _ _ _ _); cbn [bind] in H; [|discriminate H].
    destruct (fold_left _ _ _) as [[re im]|];
      [destruct (Reqb im 0)|]; cbn [bind] in H; try discriminate H.
    injection H as _ <-. split; [flat_list|now left].
  - unfold double_tree in H.
    destruct (f_oxz _ _ _ _ _ _ _ _ _ _ _); cbn [bind] in H; [|discriminate H].
    destruct (f_euler_torsion _ _ _ _ _ _ _ _ _ _); cbn [bind] in H; [|discriminate H].
    destruct (symmetry sym); cbn [bind] in H; [|discriminate H].
    injection H as _ <-. split; [|now left]. flat_list.
  - unfold point_tree in H.
    destruct (f_euler_torsion _ _ _ _ _ _ _ _ _ _); cbn [bind] in H; [|discriminate H].
    injection H as _ <-. split; [flat_list|now left].
  - unfold single_tree in H. destruct sym as [[|ax [|]]|]; try discriminate H. cbv zeta in H.
    destruct (axis_is "x" ax);
      (destruct (f_oxz _ _ _ _ _ _ _ _ _ _ _); cbn [bind] in H; [|discriminate H]);
      (destruct (symmetry _); cbn [bind] in H; [|discriminate H]);
      injection H as _ <-; (split; [flat_list|right; eexists; reflexivity]).
Qed.

Lemma ncz_tree_flat roots q lx ly lz sym u z E :
  ncz_tree roots q lx ly lz sym u = Ok (z, E) ->
  flat E /\ str_or_none (dget "Axis of Symmetry" E) /\ dget "N_cz_buckling" E = None.
Proof.
  unfold ncz_tree. destruct (oc_tree roots q lx ly lz sym) as [[f E0]|] eqn:EO;
    cbn [bind fst snd]; [|discriminate].
  destruct (n_cz_of _ _ _ _) as [z'|]; cbn [bind]; [|discriminate].
  intros H. assert (E = app E0 [("f_oc", VNum f); ("λ_c", VNum (cz_lambda_c z'));
     ("f_n", VNum (cz_f_n z'))]) as -> by congruence.
  destruct (oc_tree_flat _ _ _ _ _ _ _ _ EO) as [F S]. split; [|split].
  - apply flat_app; auto. flat_list.
  - rewrite dget_app. destruct S as [->|(s & ->)]; [now left|right; eauto].
  - rewrite dget_app. rewrite (oc_tree_late _ _ _ _ _ _ _ _ "N_cz_buckling" EO);
      [reflexivity|cbn; tauto].
Qed.

Lemma item_sub h b E :
  nth_error h b = Some E -> flat E -> dget "Axis of Symmetry" E = None ->
  item_ok h (VRef b) (Sub E).
Proof.
  intros Eb F A. exists b, E. repeat split; auto; left; exact A.
Qed.

Lemma entry_num h k x : entry_ok h (k, VNum x) (k, Leaf x).
Proof. split; reflexivity. Qed.
Lemma entry_sub h k b E :
  nth_error h b = Some E -> flat E -> dget "Axis of Symmetry" E = None ->
  entry_ok h (k, VRef b) (k, Sub E).
Proof. split; [reflexivity|]. now apply item_sub. Qed.

Lemma flat_section q : flat (section_inter q).
Proof. unfold section_inter. flat_list. Qed.
Lemma flat_flex l r n : flat (flex_inter l r n).
Proof. unfold flex_inter. flat_list. Qed.

Definition nc_post (t : res tree) (out : res nat) (h : heap) : Prop :=
  match t with
  | Ok t => exists a, out = Ok a /\ shows h a t
  | Err e => out = Err e
  end.

Ltac plain H E := apply (hrel_plain _ _ _ _ H E); reflexivity.

Lemma m_nc_ran roots g s :
  inv s -> ran (st_heap s) (m_s6_1_1_Nc roots g) s (nc_post (nc_tree roots g)).
Proof.
  intros I. unfold m_s6_1_1_Nc, nc_tree, nc_post. cbv zeta. apply ran_bind.
  apply ran_alloc; auto using hrel_refl; [cbn; congruence|].
  intros s1 I1 H1 E1.
  assert (nth_error (st_heap s1) (List.length (st_heap s)) = Some (section_inter (n_q g)))
    as PA by (rewrite E1; apply nth_alloc).
  destruct (n_buckling g).
  2:{ apply ran_alloc; auto; [cbn; congruence|]. eexists. split; [reflexivity|].
      eexists. split; [apply nth_alloc|].
      repeat (apply Forall2_cons; [first [apply entry_num
        | apply entry_sub; [apply nth_old, PA|apply flat_section|reflexivity]]|]).
      apply Forall2_nil. }
  apply ran_bind.
  eapply ran_mono; [apply ran_base; [exact H1|now apply m_s6_3_3_N_c_ran]|].
  cbn beta. intros o h [HR Q]. destruct (s6_3_3_N_c _ _ (s6_3_2_l_e _ (n_k_ex g)) _ _ _ _) as [bx|e];
    cbn [bind]; [|now subst o].
  destruct Q as (ax & ix & -> & PX & PIX).
  apply (hrel_plain _ _ _ _ HR) in PA; [|reflexivity].
  intros s2 I2 H2 E2. rewrite <- E2 in PA, PX, PIX. clear HR.
  apply ran_bind.
  eapply ran_mono; [apply ran_base; [exact H2|now apply m_s6_3_3_N_c_ran]|].
  cbn beta. intros o h' [HR Q]. destruct (s6_3_3_N_c _ _ (s6_3_2_l_e _ (n_k_ey g)) _ _ _ _) as [by_|e];
    cbn [bind]; [|now subst o].
  destruct Q as (ay & iy & -> & PY & PIY).
  apply (hrel_plain _ _ _ _ HR) in PA; [|reflexivity].
  apply (hrel_plain _ _ _ _ HR) in PX; [|reflexivity].
  apply (hrel_plain _ _ _ _ HR) in PIX; [|reflexivity].
  intros s3 I3 H3 E3. rewrite <- E3 in PA, PX, PIX, PY, PIY. clear HR.
  apply ran_bind. eapply ran_get_num; eauto; [reflexivity|].
  intros s4 I4 H4 E4. rewrite <- E4 in PA, PX, PIX, PY, PIY.
  apply ran_bind. eapply ran_get_num; eauto; [reflexivity|].
  intros s5 I5 H5 E5. rewrite <- E5 in PA, PX, PIX, PY, PIY.
  apply ran_bind. apply ran_alloc; auto; [cbn; congruence|].
  intros s6 I6 H6 E6.
  assert (nth_error (st_heap s6) (List.length (st_heap s5)) = Some [("f_ref", VNum (n_f_ref g));
     ("α_b", VNum (n_alpha_b g))]) as PC by (rewrite E6; apply nth_alloc).
  set (ci := List.length (st_heap s5)) in *.
  assert (forall a x, nth_error (st_heap s5) a = Some x -> nth_error (st_heap s6) a = Some x)
    as UP by (intros a x Ea; rewrite E6; now apply nth_old).
  apply UP in PA, PX, PIX, PY, PIY. clear UP E6.
  apply ran_bind. eapply ran_get_ref; eauto; [reflexivity|].
  intros s7 I7 H7 E7. rewrite <- E7 in PA, PX, PIX, PY, PIY, PC.
  apply ran_bind. eapply ran_get_ref; eauto; [reflexivity|].
  intros s8 I8 H8 E8. rewrite <- E8 in PA, PX, PIX, PY, PIY, PC.
  assert (flat [("f_ref", VNum (n_f_ref g)); ("α_b", VNum (n_alpha_b g))]) as FC
    by flat_list.
  destruct (n_torsion g).
  2:{ apply ran_alloc; auto; [cbn; congruence|]. eexists. split; [reflexivity|].
      eexists. split; [apply nth_alloc|].
      repeat (apply Forall2_cons; [first [apply entry_num
        | apply entry_sub; [apply nth_old; eassumption
            |first [apply flat_section|apply flat_flex|exact FC]|reflexivity]]|]).
      apply Forall2_nil. }
  assert (forall c x, nth_error (st_heap s8) c = Some x -> (c < List.length (st_heap s8))%nat)
    as LT8 by (intros c x Ec; apply nth_error_Some; congruence).
  pose proof (LT8 _ _ PA) as LA. pose proof (LT8 _ _ PIX) as LX.
  pose proof (LT8 _ _ PIY) as LY. pose proof (LT8 _ _ PC) as LC. clear LT8.
  apply ran_bind.
  eapply ran_mono; [apply ran_base; [exact H8|now apply m_ncz_ran]|].
  unfold ncz_post. intros o hz [HR Q].
  pose proof (ncz_tree_flat roots (n_q g) (s6_3_2_l_e (n_l g) (n_k_ex g))
     (s6_3_2_l_e (n_l g) (n_k_ey g)) (s6_3_2_l_e (n_l g) (n_k_ez g)) (n_sym g)
     (n_uncertainty g)) as FT.
  destruct (ncz_tree roots (n_q g) _ _ _ (n_sym g) (n_uncertainty g)) as [[z Ez]|e];
    cbn [bind fst snd]; [|now subst o].
  destruct (FT z Ez eq_refl) as (FZ & AZ & NZ). clear FT.
  destruct Q as (az & iz & d & -> & PZ & PIZ & (C1 & C2) & AX & W).
  apply (hrel_plain _ _ _ _ HR) in PA; [|reflexivity].
  apply (hrel_plain _ _ _ _ HR) in PIX; [|reflexivity].
  apply (hrel_plain _ _ _ _ HR) in PIY; [|reflexivity].
  apply (hrel_plain _ _ _ _ HR) in PC; [|reflexivity].
  intros s9 I9 H9 E9. rewrite <- E9 in PA, PIX, PIY, PC, PZ, PIZ.
  apply ran_bind. eapply ran_get_ref; eauto; [reflexivity|].
  intros s10 I10 H10 E10. rewrite <- E10 in PA, PIX, PIY, PC, PZ, PIZ.
  apply ran_bind. eapply ran_get_num; eauto; [reflexivity|].
  intros s11 I11 H11 E11. rewrite <- E11 in PA, PIX, PIY, PC, PZ, PIZ.
  apply ran_bind.
  set (kvs := [("N_cz_buckling", VNum (cz_N_cz z))]).
  assert (forall k, k <> "Axis of Symmetry" -> dget k (dupdate d kvs) = dget k (app Ez kvs)) as CF.
  { intros k N. unfold kvs. cbn [dupdate fold_left fst snd]. rewrite dget_dset, dget_app.
    destruct (String.eqb_spec "N_cz_buckling" k) as [<-|N2].
    - rewrite NZ. reflexivity.
    - rewrite C1 by auto. destruct (dget k Ez); [reflexivity|]. cbn [dget].
      destruct (String.eqb_spec "N_cz_buckling" k); [congruence|reflexivity]. }
  assert (str_or_none (dget "Axis of Symmetry" (dupdate d kvs))) as SD.
  { unfold kvs. cbn [dupdate fold_left fst snd]. rewrite dget_dset. exact C2. }
  assert (str_or_none (dget "Axis of Symmetry" (app Ez kvs))) as SE.
  { rewrite dget_app. destruct AZ as [->|(sx & ->)]; [now left|right; eauto]. }
  assert (flat (app Ez kvs)) as FE by (apply flat_app; [exact FZ|unfold kvs; flat_list]).
  (* the plain dictionaries are not the one updated *)
  assert (forall c x, nth_error (st_heap s11) c = Some x -> dget "β" x = None ->
            (c < List.length (st_heap s8))%nat ->
            nth_error (replace iz (dupdate d kvs) (st_heap s11)) c = Some x) as KEEP.
  { intros c x Ec NB LT. rewrite nth_replace. destruct (Nat.eqb_spec iz c) as [->|]; auto.
    exfalso. destruct W as [(rx & ry & xo & yo & r & _ & B & _)|(W1 & _)]; [|lia].
    rewrite PIZ in Ec. injection Ec as ->. rewrite B in NB by apply beta_stable.
    discriminate NB. }
  assert (ran (st_heap s) (update iz kvs) s11 (fun u h => u = Ok tt
            /\ h = replace iz (dupdate d kvs) (st_heap s11))) as UPD.
  { destruct W as [(rx & ry & xo & yo & r & GD)|(W1 & W2 & W3)].
    - eapply ran_update; eauto. unfold kvs. repeat (apply Forall_cons; [kv|]). apply Forall_nil.
    - eapply ran_update_new; eauto.
      + apply hrel_length in H8. lia.
      + cbn. intuition discriminate. }
  eapply ran_mono; [exact UPD|]. cbn beta. intros u hu [-> ->].
  intros s12 I12 H12 E12. apply ran_alloc; auto; [cbn; congruence|].
  assert (nth_error (st_heap s12) iz = Some (dupdate d kvs)) as PIZ'.
  { rewrite E12, nth_replace, Nat.eqb_refl, PIZ. reflexivity. }
  apply KEEP in PA; [|reflexivity|exact LA]. apply KEEP in PIX; [|reflexivity|exact LX].
  apply KEEP in PIY; [|reflexivity|exact LY]. apply KEEP in PC; [|reflexivity|exact LC].
  rewrite <- E12 in PA, PIX, PIY, PC.
  eexists. split; [reflexivity|]. eexists. split; [apply nth_alloc|].
  repeat (apply Forall2_cons; [first [apply entry_num
    | apply entry_sub; [apply nth_old; eassumption
        |first [apply flat_section|apply flat_flex|exact FC]|reflexivity]
    | split; [reflexivity|]; exists iz, (dupdate d kvs); split; [reflexivity|];
      split; [apply nth_old; exact PIZ'|]; split; [exact CF|]; split; [exact SD|];
      split; [exact FE|exact SE] ]|]).
  apply Forall2_nil.
Qed.
