(** Sections without a symmetry: when a real result is returned, and how it changes with
    the member length. *)

From Coq Require Import Reals Lra Psatz List Bool String.
From Verif Require Import Base Num RNum PyReal Symmetry S6 S6Facts S6Torsion S6Unsym S6Length.
Import ListNotations.
Open Scope R_scope.

(** * Complex roots *)

Lemma vieta a b c d x re im : im <> 0 ->
  a * x ^ 3 + b * x ^ 2 + c * x + d = 0 -> cpoly a b c d (re, im) = (0, 0) ->
  a * (2 * re + x) + b = 0.
Proof.
  intros Hi Hx H. unfold cpoly, cadd, cmul, creal in H. cbn [fst snd] in H.
  injection H as H1 H2.
  assert (Him : a * (3 * re ^ 2 - im ^ 2) + 2 * b * re + c = 0).
  { apply Rmult_eq_reg_l with im; auto. rewrite Rmult_0_r, <- H2. ring. }
  assert (Hre : a * (re ^ 3 - 3 * re * im ^ 2) + b * (re ^ 2 - im ^ 2) + c * re + d = 0).
  { rewrite <- H1. ring. }
  assert (Q : (a * (2 * re + x) + b) * ((x - re) ^ 2 + im ^ 2) = 0).
  { replace ((a * (2 * re + x) + b) * ((x - re) ^ 2 + im ^ 2))
      with ((a * x ^ 3 + b * x ^ 2 + c * x + d)
            - (a * (re ^ 3 - 3 * re * im ^ 2) + b * (re ^ 2 - im ^ 2) + c * re + d)
            - (x - re) * (a * (3 * re ^ 2 - im ^ 2) + 2 * b * re + c)) by ring.
    rewrite Hx, Hre, Him. ring. }
  apply Rmult_integral in Q as [Q|Q]; auto. exfalso.
  assert (0 < im ^ 2) by (rewrite <- Rsqr_pow2; now apply Rlt_0_sqr).
  pose proof (pow2_ge_0 (x - re)). lra.
Qed.

(** * The code's cubic falls with the three stresses *)

Lemma cubic_growth fx fy fz gx gy gz ro2 x2 y2 f :
  0 <= x2 -> 0 <= y2 -> x2 * y2 <= x2 + y2 -> 0 < ro2 -> 0 < f ->
  f < gx <= fx -> f < gy <= fy -> f < gz <= fz ->
  code_cubic fx fy fz ro2 x2 y2 f = 0 -> 0 <= code_cubic gx gy gz ro2 x2 y2 f.
Proof.
  intros X Y K Ro Hf Lx Ly Lz. rewrite !code_cubic_form. intros H.
  set (ax := fx - f). set (ay := fy - f). set (az := fz - f).
  set (bx := gx - f). set (by_ := gy - f). set (bz := gz - f).
  assert (0 < bx <= ax) by (unfold bx, ax; lra). assert (0 < by_ <= ay) by (unfold by_, ay; lra).
  assert (0 < bz <= az) by (unfold bz, az; lra).
  set (k := x2 + y2 - x2 * y2). assert (0 <= k) by (unfold k; lra).
  assert (H' : ro2 * (ax * ay * az) = f ^ 2 * (ay * x2 + ax * y2 + k * f)).
  { unfold ax, ay, az, k.
    replace (ro2 * ((fx - f) * (fy - f) * (fz - f)))
      with (- (ro2 * ((f - fx) * (f - fy) * (f - fz)))) by ring.
    replace (ro2 * ((f - fx) * (f - fy) * (f - fz)))
      with (- (f ^ 2 * (fy * x2 + fx * y2 - x2 * y2 * f))) by lra. ring. }
  replace (ro2 * ((f - gx) * (f - gy) * (f - gz))) with (- (ro2 * (bx * by_ * bz)))
    by (unfold bx, by_, bz; ring).
  replace (gy * x2 + gx * y2 - x2 * y2 * f) with (by_ * x2 + bx * y2 + k * f)
    by (unfold bx, by_, k; ring).
  clearbody ax ay az bx by_ bz k. clear H K.
  set (D := ay * x2 + ax * y2 + k * f) in *. set (D' := by_ * x2 + bx * y2 + k * f).
  assert (Z : bx * by_ * bz * D <= ax * ay * az * D').
  { assert (Pd : 0 <= D).
    { unfold D. assert (0 <= ay * x2) by (apply Rmult_le_pos; lra).
      assert (0 <= ax * y2) by (apply Rmult_le_pos; lra).
      assert (0 <= k * f) by (apply Rmult_le_pos; lra). lra. }
    assert (M : bx * by_ * D <= ax * ay * D').
    { unfold D, D'.
      assert (bx * by_ * (ay * x2) <= ax * ay * (by_ * x2)).
      { replace (bx * by_ * (ay * x2)) with (bx * (by_ * ay * x2)) by ring.
        replace (ax * ay * (by_ * x2)) with (ax * (by_ * ay * x2)) by ring.
        apply Rmult_le_compat_r; [|lra]. repeat apply Rmult_le_pos; lra. }
      assert (bx * by_ * (ax * y2) <= ax * ay * (bx * y2)).
      { replace (bx * by_ * (ax * y2)) with (by_ * (bx * ax * y2)) by ring.
        replace (ax * ay * (bx * y2)) with (ay * (bx * ax * y2)) by ring.
        apply Rmult_le_compat_r; [|lra]. repeat apply Rmult_le_pos; lra. }
      assert (bx * by_ * (k * f) <= ax * ay * (k * f)).
      { apply Rmult_le_compat_r; [apply Rmult_le_pos; lra|]. apply Rmult_le_compat; lra. }
      lra. }
    assert (0 <= bx * by_ * D) by (apply Rmult_le_pos; auto; apply Rmult_le_pos; lra).
    replace (bx * by_ * bz * D) with (bx * by_ * D * bz) by ring.
    replace (ax * ay * az * D') with (ax * ay * D' * az) by ring.
    apply Rmult_le_compat; lra. }
  (* multiply by ro2 and divide by ax ay az *)
  assert (Pa : 0 < ax * ay * az) by (repeat apply Rmult_lt_0_compat; lra).
  apply Rmult_le_reg_r with (ax * ay * az); auto. rewrite Rmult_0_l.
  replace ((- (ro2 * (bx * by_ * bz)) + f ^ 2 * D') * (ax * ay * az))
    with (- (bx * by_ * bz * (ro2 * (ax * ay * az))) + f ^ 2 * (ax * ay * az * D')) by ring.
  rewrite H'. replace (bx * by_ * bz * (f ^ 2 * D)) with (f ^ 2 * (bx * by_ * bz * D)) by ring.
  assert (0 < f ^ 2) by (apply pow_lt; auto). nra.
Qed.

Definition correct_roots (roots : roots_oracle) : Prop :=
  forall a b c d, d <> 0 -> all_roots a b c d (roots a b c d).

Section Anti.
Variables (A l_ex l_ey l_ez r_x r_y x_o y_o J I_w E G : R).
Hypotheses (HA : 0 < A) (Hlx : 0 < l_ex) (Hly : 0 < l_ey) (Hlz : 0 < l_ez)
  (Hrx : 0 < r_x) (Hry : 0 < r_y) (HJ : 0 < J) (HIw : 0 <= I_w) (HE : 0 < E) (HG : 0 < G).
Variable roots : roots_oracle.
Hypothesis HR : correct_roots roots.
Let ro2 := r_x ^ 2 + r_y ^ 2 + x_o ^ 2 + y_o ^ 2.

Lemma roots_here : all_roots
  (coef_a r_x r_y x_o y_o) (coef_b A l_ex l_ey l_ez r_x r_y x_o y_o J I_w E G)
  (coef_c A l_ex l_ey l_ez r_x r_y x_o y_o J I_w E G)
  (coef_d A l_ex l_ey l_ez r_x r_y x_o y_o J I_w E G)
  (roots (coef_a r_x r_y x_o y_o) (coef_b A l_ex l_ey l_ez r_x r_y x_o y_o J I_w E G)
  (coef_c A l_ex l_ey l_ez r_x r_y x_o y_o J I_w E G)
  (coef_d A l_ex l_ey l_ez r_x r_y x_o y_o J I_w E G)).
Proof.
  apply HR. apply Rlt_not_eq. now apply coef_d_neg.
Qed.

(** A real result, when the cubic has a real root up to F and complex ones are excluded. *)
Lemma unsym_real F :
  let f_x := fe E l_ex r_x in let f_y := fe E l_ey r_y in let f_z := ft A l_ez ro2 J I_w E G in
  let a := ro2 - x_o ^ 2 * y_o ^ 2 in
  let B := ro2 * (f_x + f_y + f_z) - (f_y * x_o ^ 2 + f_x * y_o ^ 2) in
  0 <= F -> 0 <= code_cubic f_x f_y f_z ro2 (x_o ^ 2) (y_o ^ 2) F ->
  (0 < a /\ 3 * a * F < B) \/ (a < 0 /\ 0 < B) ->
  exists f, f_oc_unsymmetric roots A l_ex l_ey l_ez r_x r_y x_o y_o J I_w E G = Ok f
   /\ 0 < f <= F.
Proof.
  intros f_x f_y f_z a B HF HP HC.
  pose proof roots_here as Hall.
  assert (Res : exists f, f_oc_unsymmetric roots A l_ex l_ey l_ez r_x r_y x_o y_o J I_w E G = Ok f).
  { rewrite unsym_run by auto.
    set (ca := coef_a _ _ _ _) in *. set (cb := coef_b _ _ _ _ _ _ _ _ _ _ _ _) in *.
    set (cc := coef_c _ _ _ _ _ _ _ _ _ _ _ _) in *. set (cd := coef_d _ _ _ _ _ _ _ _ _ _ _ _) in *.
    destruct (root_between ca cb cc cd 0 F) as (x & Hx & Ex); auto.
    - assert (cd < 0) by (unfold cd; now apply coef_d_neg). lra.
    - replace (ca * F ^ 3 + cb * F ^ 2 + cc * F + cd)
        with (code_cubic f_x f_y f_z ro2 (x_o ^ 2) (y_o ^ 2) F); auto.
      unfold code_cubic, ca, cb, cc, cd, coef_a, coef_b, coef_c, coef_d.
      fold ro2. fold f_x f_y f_z. ring.
    - pose proof (min_stress_fold (roots ca cb cc cd) None) as M.
      assert (Ix : In (x, 0) (roots ca cb cc cd)) by (apply Hall; now apply cpoly_real).
      assert (Nx : lex_ltb (x, 0) (0, 0) = false) by (apply lex_ltb_false; cbn; lra).
      destruct (fold_left min_stress (roots ca cb cc cd) None) as [[re im]|].
      + destruct M as ([M|[M1 M2]] & _ & M3); [discriminate|].
        specialize (M3 _ Ix Nx). apply lex_ltb_false in M3. apply lex_ltb_false in M2.
        cbn [fst snd] in M2, M3. apply Hall in M1.
        destruct (Reqb im 0) eqn:Ei; [eauto|]. exfalso.
        assert (Hi : im <> 0) by (intros ->; apply (not_true_iff_false _) in Ei; apply Ei; now apply Reqb_true).
        pose proof (vieta _ _ _ _ _ _ _ Hi Ex M1) as V.
        change ca with a in V. change cb with (- B) in V.
        destruct HC as [[Ha HC]|[Ha HC]]; nra.
      + exfalso. destruct M as [_ M]. specialize (M _ Ix). congruence. }
  destruct Res as [f Hf]. exists f. split; auto.
  destruct (unsym_ok A l_ex l_ey l_ez r_x r_y x_o y_o J I_w E G HA Hlx Hly Hlz Hrx Hry HJ HIw HE HG
              roots Hall f Hf) as [P _].
  split; auto.
  exact (unsym_le A l_ex l_ey l_ez r_x r_y x_o y_o J I_w E G HA Hlx Hly Hlz Hrx Hry HJ HIw HE HG
           roots Hall f F Hf HF HP).
Qed.
End Anti.

Lemma unsym_anti roots A lx ly lz lx' ly' lz' r_x r_y x_o y_o J I_w E G f f' :
  correct_roots roots -> x_o ^ 2 * y_o ^ 2 <= x_o ^ 2 + y_o ^ 2 ->
  0 < A -> 0 < r_x -> 0 < r_y -> 0 < J -> 0 <= I_w -> 0 < E -> 0 < G ->
  0 < lx -> lx <= lx' -> 0 < ly -> ly <= ly' -> 0 < lz -> lz <= lz' ->
  f_oc_unsymmetric roots A lx ly lz r_x r_y x_o y_o J I_w E G = Ok f ->
  f_oc_unsymmetric roots A lx' ly' lz' r_x r_y x_o y_o J I_w E G = Ok f' ->
  0 < f' <= f.
Proof.
  intros HR K HA Hrx Hry HJ HIw HE HG Px Lx Py Ly Pz Lz H H'.
  assert (Px' : 0 < lx') by lra. assert (Py' : 0 < ly') by lra. assert (Pz' : 0 < lz') by lra.
  pose proof (roots_here A lx ly lz r_x r_y x_o y_o J I_w E G HA Px Py Pz Hrx Hry HJ HIw HE HG roots HR) as R1.
  pose proof (roots_here A lx' ly' lz' r_x r_y x_o y_o J I_w E G HA Px' Py' Pz' Hrx Hry HJ HIw HE HG roots HR) as R2.
  destruct (unsym_ok A lx ly lz r_x r_y x_o y_o J I_w E G HA Px Py Pz Hrx Hry HJ HIw HE HG roots R1 f H)
    as (P & Z & _).
  destruct (unsym_ok A lx' ly' lz' r_x r_y x_o y_o J I_w E G HA Px' Py' Pz' Hrx Hry HJ HIw HE HG roots R2 f' H')
    as (P' & Z' & _).
  destruct (unsym_conservative A lx' ly' lz' r_x r_y x_o y_o J I_w E G HA Px' Py' Pz' Hrx Hry HJ HIw HE HG roots R2 f' K H')
    as (B1 & B2 & B3 & _).
  split; auto.
  set (ro2 := r_x ^ 2 + r_y ^ 2 + x_o ^ 2 + y_o ^ 2) in *.
  assert (Hro : 0 < ro2) by (unfold ro2; nra).
  pose proof (fe_anti E lx lx' r_x HE Hrx Px Lx). pose proof (fe_anti E ly ly' r_y HE Hry Py Ly).
  pose proof (ft_anti A lz lz' ro2 J I_w E G HA Hro HJ HIw HE HG Pz Lz).
  destruct (Rle_lt_dec (fe E lx' r_x) f) as [|Cx]; [lra|].
  destruct (Rle_lt_dec (fe E ly' r_y) f) as [|Cy]; [lra|].
  destruct (Rle_lt_dec (ft A lz' ro2 J I_w E G) f) as [|Cz]; [lra|].
  apply (unsym_le A lx' ly' lz' r_x r_y x_o y_o J I_w E G HA Px' Py' Pz' Hrx Hry HJ HIw HE HG
           roots R2 f' f H'); [lra|].
  apply (cubic_growth (fe E lx r_x) (fe E ly r_y) (ft A lz ro2 J I_w E G));
    auto using pow2_ge_0; lra.
Qed.

(** * The member capacity, all sections *)

Lemma f_oc_anti_all roots q lx ly lz lx' ly' lz' sym f f' :
  sect_ok q ->
  (symmetry sym = Ok SymNone ->
   correct_roots roots /\ q_x_o q ^ 2 * q_y_o q ^ 2 <= q_x_o q ^ 2 + q_y_o q ^ 2) ->
  0 < lx -> lx <= lx' -> 0 < ly -> ly <= ly' -> 0 < lz -> lz <= lz' ->
  f_oc roots q lx ly lz sym = Ok f -> f_oc roots q lx' ly' lz' sym = Ok f' ->
  0 < f' <= f.
Proof.
  intros Hq Hs Px Lx Py Ly Pz Lz H H'.
  assert (D : symmetry sym = Ok SymNone \/ symmetry sym <> Ok SymNone).
  { destruct (symmetry sym) as [[]|]; auto; right; discriminate. }
  destruct D as [D|D].
  - destruct (Hs D) as [HR K]. destruct Hq as (HA & Hk & Hx & Hy & HJ & Hw & Hf & HE & HG).
    unfold f_oc in *. rewrite D in *. cbn [bind] in *.
    eapply unsym_anti; [exact HR|exact K|..|exact H|exact H']; auto.
  - eapply f_oc_anti; [exact Hq|exact D|..|exact H|exact H']; auto.
Qed.

(** The capacities compare as those of the two flexural modes do. *)
Lemma Nc_length_by K roots q l l' kx ky kz sym f_ref ab u phi cb ct o o' :
  1 <= K -> sect_ok q ->
  (symmetry sym = Ok SymNone ->
   correct_roots roots /\ q_x_o q ^ 2 * q_y_o q ^ 2 <= q_x_o q ^ 2 + q_y_o q ^ 2) ->
  0 < l -> l <= l' -> 0 < kx -> 0 < ky -> 0 < kz -> 0 < u -> 0 <= phi ->
  (forall k r b b', (k, r) = (kx, q_r_x q) \/ (k, r) = (ky, q_r_y q) ->
     0 < k -> 0 < r -> 0 < l * k -> l * k <= l' * k ->
     s6_3_3_N_c (q_A_n q) (q_k_f q) (l * k) r (q_f_y q) f_ref ab = Ok b ->
     s6_3_3_N_c (q_A_n q) (q_k_f q) (l' * k) r (q_f_y q) f_ref ab = Ok b' ->
     nc_N_c b' <= K * nc_N_c b) ->
  s6_1_1_Nc roots q l kx ky kz sym f_ref ab u phi cb ct = Ok o ->
  s6_1_1_Nc roots q l' kx ky kz sym f_ref ab u phi cb ct = Ok o' ->
  o_N_c o' <= K * o_N_c o /\ o_phiN_c o' <= K * o_phiN_c o.
Proof.
  intros HK Hq Hs Hl L Kx Ky Kz Hu Hphi MX H H'.
  assert (Lx : l * kx <= l' * kx) by (apply Rmult_le_compat_r; lra).
  assert (Ly : l * ky <= l' * ky) by (apply Rmult_le_compat_r; lra).
  assert (Lz : l * kz <= l' * kz) by (apply Rmult_le_compat_r; lra).
  assert (Px : 0 < l * kx) by pos. assert (Py : 0 < l * ky) by pos. assert (Pz : 0 < l * kz) by pos.
  assert (N : o_N_c o' <= K * o_N_c o).
  { pose proof Hq as (HA & Hk & Hx & Hy & HJ & Hw & Hf & HE & HG).
    unfold s6_1_1_Nc in H, H'. unfold s6_3_2_l_e in H, H'.
    assert (NP : 0 < s6_2_N_s (s6_2_A_e (q_A_n q) (q_k_f q)) (q_f_y q)) by (unfold s6_2_N_s, s6_2_A_e; pos).
    assert (NK : s6_2_N_s (s6_2_A_e (q_A_n q) (q_k_f q)) (q_f_y q)
                 <= K * s6_2_N_s (s6_2_A_e (q_A_n q) (q_k_f q)) (q_f_y q)) by nra.
    destruct cb.
    - inv_bind H. inv_bind H. inv_bind H'. inv_bind H'.
      pose proof (MX kx (q_r_x q) _ _ ltac:(auto) Kx Hx Px Lx E E1) as Mx.
      pose proof (MX ky (q_r_y q) _ _ ltac:(auto) Ky Hy Py Ly E0 E2) as My.
      set (Ns := s6_2_N_s _ _) in *.
      assert (Q : pymin (pymin Ns (pymin (nc_N_c a1) Ns)) (pymin (nc_N_c a2) Ns)
                  <= K * pymin (pymin Ns (pymin (nc_N_c a) Ns)) (pymin (nc_N_c a0) Ns)).
      { rewrite !pymin_R. unfold Rmin. repeat destruct (Rle_dec _ _); lra. }
      destruct ct.
      + inv_bind H. inv_bind H'. injection H as <-. injection H' as <-. cbn [o_N_c].
        unfold s6_3_3_N_c_torsion in E3, E4. inv_bind E3. inv_bind E4.
        pose proof (f_oc_anti_all _ _ _ _ _ _ _ _ _ _ _ Hq Hs Px Lx Py Ly Pz Lz E5 E6) as [F0 F].
        assert (T : cz_N_cz a4 <= cz_N_cz a3).
        { eapply n_cz_mono; [..|exact E4|exact E3]; auto. unfold s6_2_A_e. pos. }
        assert (T0 : 0 < cz_N_cz a3).
        { destruct (n_cz_facts (s6_2_A_e (q_A_n q) (q_k_f q)) (q_f_y q) a5 u) as (z & Ez & Zp); auto; [unfold s6_2_A_e; pos|lra|].
          rewrite E3 in Ez. injection Ez as <-. lra. }
        assert (TK : cz_N_cz a4 <= K * cz_N_cz a3) by nra.
        set (m := pymin (pymin Ns (pymin (nc_N_c a1) Ns)) (pymin (nc_N_c a2) Ns)) in *.
        set (m' := pymin (pymin Ns (pymin (nc_N_c a) Ns)) (pymin (nc_N_c a0) Ns)) in *.
        rewrite !pymin_R. unfold Rmin. repeat destruct (Rle_dec _ _); lra.
      + injection H as <-. injection H' as <-. cbn [o_N_c]. exact Q.
    - injection H as <-. injection H' as <-. cbn. exact NK. }
  split; auto.
  destruct (Nc_facts _ _ _ _ _ _ _ _ _ _ _ _ _ _ Hphi H) as (_ & _ & _ & _ & -> & _).
  destruct (Nc_facts _ _ _ _ _ _ _ _ _ _ _ _ _ _ Hphi H') as (_ & _ & _ & _ & -> & _).
  replace (K * (phi * o_N_c o)) with (phi * (K * o_N_c o)) by ring.
  apply Rmult_le_compat_l; auto.
Qed.

Lemma Nc_length_all roots q l l' kx ky kz sym f_ref ab u phi cb ct o o' :
  sect_ok q ->
  (symmetry sym = Ok SymNone ->
   correct_roots roots /\ q_x_o q ^ 2 * q_y_o q ^ 2 <= q_x_o q ^ 2 + q_y_o q ^ 2) ->
  0 < l -> l <= l' -> 0 < kx -> 0 < ky -> 0 < kz ->
  0 < f_ref -> -9 / 10 <= ab <= 1 -> 0 < u -> 0 <= phi ->
  s6_1_1_Nc roots q l kx ky kz sym f_ref ab u phi cb ct = Ok o ->
  s6_1_1_Nc roots q l' kx ky kz sym f_ref ab u phi cb ct = Ok o' ->
  o_N_c o' <= o_N_c o /\ o_phiN_c o' <= o_phiN_c o.
Proof.
  intros Hq Hs Hl L Kx Ky Kz Hrf Hab Hu Hphi H H'.
  destruct (Nc_length_by 1 roots q l l' kx ky kz sym f_ref ab u phi cb ct o o') as [A B]; auto; try lra.
  pose proof Hq as (HA & Hk & Hx & Hy & HJ & Hw & Hf & HE & HG).
  intros k r b b' _ Hkk Hr P LL E E'. rewrite Rmult_1_l. eapply N_c_mono; [..|exact E|exact E']; lra.
Qed.
