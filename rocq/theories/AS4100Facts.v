(** Proofs about the AS4100 object: construction, sections, tension loads, capacities. *)

From Coq Require Import ZArith Reals List Bool String Lra Lia.
From Verif Require Import Base Num RNum PyNum Numpy LoadCase LoadSpec LoadFacts LoadProofs
  Beam BeamSpec BeamFacts BeamPositions BeamProofs BeamLoads BeamMisc BeamFloat
  Material AS4100 AS4100Spec.
Import ListNotations.
Open Scope R_scope.

(** ** Any numbers *)
Section Generic.
Context {T : Type} {NT : Num T}.
Implicit Types a : as4100 T.

Lemma as_factory_ok (s : option (section T)) w : as_factory s = Ok w <-> wraps s w.
Proof.
  split.
  - intros H. destruct s as [[r [m|]|]|]; try discriminate H. cbn in H.
    destruct (mtype m) as [[]|] eqn:E; try discriminate H. injection H as <-. now constructor.
  - intros []. cbn. now rewrite H.
Qed.

Lemma as_factory_err (s : option (section T)) e : as_factory s = Err e <-> offence s e.
Proof.
  split.
  - intros H. destruct s as [[r [m|]|]|]; cbn in H;
      [|injection H as <-; constructor..].
    destruct (mtype m) as [[]|] eqn:E; try discriminate H; injection H as <-; constructor; congruence.
  - intros []; cbn; auto. destruct (mtype m) as [[]|]; congruence.
Qed.

Lemma mapM_err {A B} (f : A -> res B) l e : mapM f l = Err e <->
  exists pre x post, l = pre ++ x :: post /\ (forall y, In y pre -> exists z, f y = Ok z) /\ f x = Err e.
Proof.
  induction l as [|x l IH].
  - split; [discriminate|]. intros (pre & x & post & H & _). destruct pre; discriminate.
  - cbn [mapM]. destruct (f x) as [z|e'] eqn:Ex; cbn [bind].
    + destruct (mapM f l) as [zs|e''] eqn:El; cbn [bind].
      * split; [discriminate|]. intros (pre & y & post & H & Hp & Hy). exfalso.
        destruct pre as [|x0 pre]; injection H as -> ->; [congruence|].
        assert (E : Ok zs = Err (A := list B) e).
        { apply IH. exists pre, y, post. split; auto. split; auto. intros. apply Hp. now right. }
        discriminate E.
      * split.
        -- intros [= ->]. destruct (proj1 IH eq_refl) as (pre & y & post & -> & Hp & Hy).
           exists (x :: pre), y, post. split; auto. split; auto. intros y0 [<-|Hy0]; eauto.
        -- intros (pre & y & post & H & Hp & Hy). destruct pre as [|x0 pre]; injection H as -> ->; [congruence|].
           f_equal. assert (E : Err (A := list B) e'' = Err e); [|congruence].
           apply IH. exists pre, y, post. split; auto. split; auto. intros. apply Hp. now right.
    + split.
      * intros [= ->]. exists [], x, l. split; auto. split; auto. intros y [].
      * intros (pre & y & post & H & Hp & Hy). destruct pre as [|x0 pre]; injection H as -> ->; [congruence|].
        destruct (Hp x0) as (z & Hz); [now left|congruence].
Qed.

Lemma sections_checked (b : option (beam_t T (section T))) s : sections_of b s = checked_sections b s.
Proof. destruct b; reflexivity. Qed.

(** C27. *)
Lemma make_ok phi au kt (b : option (beam_t T (section T))) s a : make_as4100 phi au kt b s = Ok a <->
  ~ (b = None /\ s = None) /\
  exists ws, Forall2 wraps (checked_sections b s) ws /\ a = mk_as4100 b s 20 ws phi au kt.
Proof.
  assert (K : (let! ss := mapM as_factory (sections_of b s) in Ok (mk_as4100 b s 20 ss phi au kt)) = Ok a <->
    exists ws, Forall2 wraps (checked_sections b s) ws /\ a = mk_as4100 b s 20 ws phi au kt).
  { rewrite sections_checked. split.
    - intros H. destruct (mapM as_factory (checked_sections b s)) as [ws|] eqn:E; [|discriminate].
      cbn [bind] in H. injection H as <-. exists ws. split; auto. apply mapM_inv in E.
      clear - E. induction E; constructor; auto. now apply as_factory_ok.
    - intros (ws & F & ->). rewrite (mapM_Forall2 as_factory _ ws); [reflexivity|].
      clear - F. induction F; constructor; auto. now apply as_factory_ok. }
  unfold make_as4100. destruct b as [b|]; [|destruct s as [s|]].
  - rewrite K. split; [|tauto]. intros H. split; [intros [X _]; discriminate X|exact H].
  - rewrite K. split; [|tauto]. intros H. split; [intros [_ X]; discriminate X|exact H].
  - split; [discriminate|tauto].
Qed.

Lemma make_err phi au kt (b : option (beam_t T (section T))) s e : make_as4100 phi au kt b s = Err e <->
  b = None /\ s = None /\ e = CodeCheckError \/
  ~ (b = None /\ s = None) /\
  exists pre x post, checked_sections b s = pre ++ x :: post /\
    (forall y, In y pre -> exists w, wraps y w) /\ offence x e.
Proof.
  assert (K : (let! ss := mapM as_factory (sections_of b s) in Ok (mk_as4100 b s 20 ss phi au kt)) = Err e <->
    exists pre x post, checked_sections b s = pre ++ x :: post /\
    (forall y, In y pre -> exists w, wraps y w) /\ offence x e).
  { rewrite sections_checked. transitivity (mapM as_factory (checked_sections b s) = Err e).
    - destruct (mapM as_factory (checked_sections b s)); cbn [bind]; split; congruence.
    - rewrite mapM_err. split; intros (pre & x & post & E & Hp & Hx); exists pre, x, post; (split; [auto|]); split.
      + intros y Hy. destruct (Hp y Hy) as (w & Hw). exists w. now apply as_factory_ok.
      + now apply as_factory_err.
      + intros y Hy. destruct (Hp y Hy) as (w & Hw). exists w. now apply as_factory_ok.
      + now apply as_factory_err. }
  unfold make_as4100. destruct b as [b|]; [|destruct s as [s|]].
  - rewrite K. split.
    + intros H. right. split; [intros [X _]; discriminate X|exact H].
    + intros [(X & _)|H]; [discriminate X|tauto].
  - rewrite K. split.
    + intros H. right. split; [intros [_ X]; discriminate X|exact H].
    + intros [(_ & X & _)|H]; [discriminate X|tauto].
  - split.
    + intros [= <-]. now left.
    + intros [(_ & _ & ->)|[X _]]; [reflexivity|tauto].
Qed.

Lemma py_index_Forall2 {A B} (P : A -> B -> Prop) l r i : Forall2 P l r ->
  match py_index l i, py_index r i with Ok x, Ok y => P x y | Err e, Err e' => e = e' | _, _ => False end.
Proof.
  intros F. unfold py_index.
  assert (L : List.length l = List.length r) by (clear - F; induction F; cbn; auto).
  rewrite <- L. destruct (_ || _); [reflexivity|]. generalize (Z.to_nat (if i <? 0 then i + Z.of_nat (List.length l) else i)%Z).
  clear L i. induction F; intros [|n]; cbn; auto. apply IHF.
Qed.

(** C25: same positions, wrapped sections, same errors as Beam.get_section. *)
Lemma as_section_of_beam phi au kt b s a position mp lc : make_as4100 phi au kt (Some b) s = Ok a ->
  match beam_get_section b position mp lc, get_as4100_section a position mp lc with
  | Ok (ps, ss), Ok (ps', ws) => ps' = ps /\ Forall2 wraps ss ws
  | Err e, Err e' => e' = e
  | _, _ => False
  end.
Proof.
  intros H. apply make_ok in H. destruct H as (_ & ws & F & ->).
  unfold get_as4100_section, beam_get_section. cbn [cc_beam cc_as_sections].
  destruct (beam_list_positions b position mp lc) as [locs|e]; cbn [bind]; [|reflexivity].
  cbn [checked_sections] in F.
  assert (K : match mapM (fun l : location T => let! e := py_index b (snd (fst l)) in Ok (esection e)) locs,
                    mapM (fun l : location T => py_index ws (snd (fst l))) locs with
              | Ok ss, Ok ws => Forall2 wraps ss ws | Err e, Err e' => e' = e | _, _ => False end).
  { induction locs as [|[[p z] l] locs IH]; cbn [mapM]; [constructor|]. cbn [fst snd].
    assert (X := py_index_Forall2 wraps (map esection b) ws z F).
    assert (Y : py_index (map esection b) z = let! e := py_index b z in Ok (esection e)).
    { unfold py_index. rewrite map_length. destruct (_ || _); [reflexivity|]. rewrite nth_error_map.
      destruct (nth_error b _); reflexivity. }
    rewrite Y in X. destruct (py_index b z) as [e|x]; cbn [bind] in X |- *.
    - destruct (py_index ws z) as [w|]; [|destruct X]. cbn [bind].
      destruct (mapM _ locs) as [ss|], (mapM _ locs) as [ws'|]; cbn [bind]; try (destruct IH; fail); auto.
    - destruct (py_index ws z); [destruct X|]. cbn [bind]. auto. }
  unfold location in *.
  destruct (mapM _ locs) as [ss|], (mapM _ locs) as [ws'|]; cbn [bind]; try contradiction; auto.
Qed.

Lemma C25_as4100_ok phi au kt b s a position mp lc ps ws : make_as4100 phi au kt (Some b) s = Ok a ->
  get_as4100_section a position mp lc = Ok (ps, ws) <->
  exists ss, beam_get_section b position mp lc = Ok (ps, ss) /\ Forall2 wraps ss ws.
Proof.
  intros H. pose proof (as_section_of_beam phi au kt b s a position mp lc H) as K.
  assert (Inj : forall s w w', @wraps T s w -> wraps s w' -> w = w').
  { intros s0 w w' H1 H2. destruct H1. now inversion H2. }
  destruct (beam_get_section b position mp lc) as [[ps0 ss0]|e], (get_as4100_section a position mp lc) as [[ps1 ws1]|e'];
    try (destruct K; fail).
  - destruct K as [-> F]. split.
    + intros [= -> ->]. eauto.
    + intros (ss & [= -> ->] & F'). f_equal. f_equal.
      clear - F F' Inj. revert ws F'. induction F as [|x y l r Hx F IH]; intros ws F'; inversion F'; subst; auto.
      f_equal; [eapply Inj; eauto|auto].
  - split; [discriminate|]. intros (ss & X & _). discriminate X.
Qed.

Lemma C25_as4100_err phi au kt b s a position mp lc e : make_as4100 phi au kt (Some b) s = Ok a ->
  get_as4100_section a position mp lc = Err e <-> beam_get_section b position mp lc = Err e.
Proof.
  intros H. pose proof (as_section_of_beam phi au kt b s a position mp lc H) as K.
  destruct (beam_get_section b position mp lc) as [[ps0 ss0]|e0], (get_as4100_section a position mp lc) as [[ps1 ws1]|e'];
    try (destruct K; fail).
  - split; discriminate.
  - subst e'. split; congruence.
Qed.
End Generic.

(** ** C26 *)
Lemma make_beam {T} {NT : Num T} phi au kt (b : beam_t T (section T)) s a :
  make_as4100 phi au kt (Some b) s = Ok a -> cc_beam a = Some b.
Proof. intros H. apply make_ok in H. destruct H as (_ & ws & _ & ->). reflexivity. Qed.

Lemma clip_R f (r o : orow R) : clip_row f r = Ok o <->
  fst o = fst r /\ exists n, snd r = [Some n] /\ snd o = [Some (Rmax n 0)].
Proof.
  unfold clip_row. destruct r as [x [|[n|] [|]]]; cbn [snd fst]; try (split; [discriminate|]; intros (_ & m & H & _); discriminate H).
  cbn [nltb nint nfloat RNum].
  assert (E : (if Rltb n 0 then if f then 0 else 0 else n) = Rmax n 0).
  { destruct (Rltb n 0) eqn:L.
    - apply Rltb_true in L. rewrite Rmax_right by lra. now destruct f.
    - apply Rltb_false in L. now rewrite Rmax_left by lra. }
  rewrite E. split.
  - intros [= <-]. cbn. eauto.
  - destruct o as [y c]. cbn. intros (-> & m & [= <-] & ->). reflexivity.
Qed.

Lemma C26_real qs phi au kt b s a c position mp out : make_as4100 phi au kt (Some b) s = Ok a ->
  get_tension qs a c position mp = Ok out <->
  exists rows, beam_get_loads qs b c position mp (CStr "N") = Ok (Some rows) /\
    Forall2 (fun r o : orow R => fst o = fst r /\ exists n, snd r = [Some n] /\ snd o = [Some (Rmax n 0)]) rows out.
Proof.
  intros H. unfold get_tension. rewrite (make_beam _ _ _ _ _ _ H).
  destruct (beam_get_loads qs b c position mp (CStr "N")) as [[rows|]|e]; cbn [bind].
  - generalize (existsb row_has_float rows). intros f. split.
    + intros E. exists rows. split; auto. apply mapM_inv in E. clear - E. induction E; constructor; auto.
      eapply clip_R; eauto.
    + intros (rows' & [= <-] & F). apply mapM_Forall2. clear - F. induction F; constructor; auto. now apply clip_R.
  - split; [discriminate|]. intros (rows & E & _). discriminate E.
  - split; [discriminate|]. intros (rows & E & _). discriminate E.
Qed.

Lemma C26_error {T} {NT : Num T} qs phi au kt (b : beam_t T (section T)) s a c position mp e :
  make_as4100 phi au kt (Some b) s = Ok a ->
  beam_get_loads qs b c position mp (CStr "N") = Err e -> get_tension qs a c position mp = Err e.
Proof. intros H E. unfold get_tension. rewrite (make_beam _ _ _ _ _ _ H), E. reflexivity. Qed.

(** On Python numbers: the positions are kept, negative loads become a zero, the others
    are kept as they are. *)
Lemma C26_py qs phi au kt (b : beam_t pynum (section pynum)) s a c position mp out :
  make_as4100 phi au kt (Some b) s = Ok a -> get_tension qs a c position mp = Ok out ->
  exists rows, beam_get_loads qs b c position mp (CStr "N") = Ok (Some rows) /\
    Forall2 (fun r o : orow pynum => fst o = fst r /\ exists n m, snd r = [Some n] /\ snd o = [Some m] /\
       (nltb n (PInt 0) = true -> m = PInt 0 \/ m = fl 0 1) /\ (nltb n (PInt 0) = false -> m = n)) rows out.
Proof.
  intros H. unfold get_tension. rewrite (make_beam _ _ _ _ _ _ H).
  destruct (beam_get_loads qs b c position mp (CStr "N")) as [[rows|]|e]; cbn [bind]; try discriminate.
  intros E. exists rows. split; auto. apply mapM_inv in E. generalize dependent (existsb row_has_float rows).
  intros f E. clear - E. induction E as [|r o rows out Hr F IH]; constructor; auto.
  unfold clip_row in Hr. destruct r as [x [|[n|] [|]]]; cbn [snd fst] in *; try discriminate Hr.
  injection Hr as <-. cbn [fst snd]. split; auto. exists n. eexists. split; [reflexivity|]. split; [reflexivity|].
  change (nint 0) with (PInt 0). change (@nltb pynum PNum) with py_ltb.
  destruct (py_ltb n (PInt 0)); split; intros; try discriminate; auto.
  destruct f; [right|left]; reflexivity.
Qed.

(** ** C28 *)
Lemma fold_min_R (l : list R) x : least (fold_left pymin l x) (fun y => In y (x :: l)).
Proof.
  revert x. induction l as [|y l IH]; intros x; cbn [fold_left].
  - split; [now left|]. intros z [<-|[]]. lra.
  - destruct (IH (pymin x y)) as [H1 H2]. unfold pymin in *. cbn [nltb RNum] in *.
    destruct (Rltb y x) eqn:E; [apply Rltb_true in E|apply Rltb_false in E]; split.
    + destruct H1 as [H1|H1]; [right; left; exact H1|right; right; exact H1].
    + intros z [<-|[<-|Hz]]; [|apply H2; now left|apply H2; now right].
      specialize (H2 y (or_introl eq_refl)). lra.
    + destruct H1 as [H1|H1]; [left; exact H1|right; right; exact H1].
    + intros z [<-|[<-|Hz]]; [apply H2; now left| |apply H2; now right].
      specialize (H2 x (or_introl eq_refl)). lra.
Qed.
Lemma fold_max_R (l : list R) x : greatest (fold_left pymax l x) (fun y => In y (x :: l)).
Proof.
  revert x. induction l as [|y l IH]; intros x; cbn [fold_left].
  - split; [now left|]. intros z [<-|[]]. lra.
  - destruct (IH (pymax x y)) as [H1 H2]. unfold pymax in *. cbn [nltb RNum] in *.
    destruct (Rltb x y) eqn:E; [apply Rltb_true in E|apply Rltb_false in E]; split.
    + destruct H1 as [H1|H1]; [right; left; exact H1|right; right; exact H1].
    + intros z [<-|[<-|Hz]]; [|apply H2; now left|apply H2; now right].
      specialize (H2 y (or_introl eq_refl)). lra.
    + destruct H1 as [H1|H1]; [left; exact H1|right; right; exact H1].
    + intros z [<-|[<-|Hz]]; [apply H2; now left| |apply H2; now right].
      specialize (H2 x (or_introl eq_refl)). lra.
Qed.

Lemma least_unique n m P : least n P -> least m P -> n = m.
Proof. intros [H1 H2] [H3 H4]. specialize (H2 m H3). specialize (H4 n H1). lra. Qed.
Lemma greatest_unique n m P : greatest n P -> greatest m P -> n = m.
Proof. intros [H1 H2] [H3 H4]. specialize (H2 m H3). specialize (H4 n H1). lra. Qed.
Lemma least_ext n P Q : (forall x, P x <-> Q x) -> least n P <-> least n Q.
Proof.
  intros H. unfold least. rewrite H. split; intros [A B]; (split; [exact A|]); intros x Hx; apply B, H, Hx.
Qed.
Lemma greatest_ext n P Q : (forall x, P x <-> Q x) -> greatest n P <-> greatest n Q.
Proof.
  intros H. unfold greatest. rewrite H. split; intros [A B]; (split; [exact A|]); intros x Hx; apply B, H, Hx.
Qed.

Lemma list_min_R (l : list R) m : list_min l = Ok m <-> least m (fun x => In x l).
Proof.
  destruct l as [|x l]; cbn [list_min].
  - split; [discriminate|]. intros [[] _].
  - split.
    + intros [= <-]. apply fold_min_R.
    + intros H. f_equal. eapply least_unique; [apply fold_min_R|exact H].
Qed.
Lemma list_max_R (l : list R) m : list_max l = Ok m <-> greatest m (fun x => In x l).
Proof.
  destruct l as [|x l]; cbn [list_max].
  - split; [discriminate|]. intros [[] _].
  - split.
    + intros [= <-]. apply fold_max_R.
    + intros H. f_equal. eapply greatest_unique; [apply fold_max_R|exact H].
Qed.

Definition view_capacity (kt au : R) (w : as_section R) (c : R) : Prop :=
  bar_capacity kt au (as_radius w) (as_material w) c.

Definition Nt_of (kt au : R) (ws : list (as_section R)) : res R :=
  let! y := let! ns := mapM (fun s => let! fy := min_fy s in Ok (s7_2_Nty (Ag s) fy)) ws in list_min ns in
  let! u := let! ns := mapM (fun s => let! fu := min_fu s in Ok (s7_2_Ntu (An s) fu kt au)) ws in list_min ns in
  Ok (pymin y u).

Lemma Nt_sections a position ws : sections_at a position = Ok ws -> Nt a position = Nt_of (k_t a) (alpha_u a) ws.
Proof. intros H. unfold Nt, Nty, Ntu, Nt_of. rewrite H. reflexivity. Qed.
Lemma Nt_err (a : as4100 R) position e : sections_at a position = Err e -> Nt a position = Err e.
Proof. intros H. unfold Nt, Nty. rewrite H. reflexivity. Qed.

Lemma as_eta (w : as_section R) : mk_as (as_radius w) (as_material w) = w.
Proof. now destruct w. Qed.

Lemma pymin_R (x y : R) : pymin x y = Rmin x y.
Proof.
  unfold pymin. cbn [nltb RNum]. destruct (Rltb y x) eqn:E; [apply Rltb_true in E|apply Rltb_false in E].
  - now rewrite Rmin_right by lra.
  - now rewrite Rmin_left by lra.
Qed.

Lemma Nt_of_inv kt au ws n : Nt_of kt au ws = Ok n ->
  (forall w, In w ws -> exists c, view_capacity kt au w c) /\
  least n (fun c => exists w, In w ws /\ view_capacity kt au w c).
Proof.
  unfold Nt_of. intros H.
    destruct (mapM (fun s => let! fy := min_fy s in Ok (s7_2_Nty (Ag s) fy)) ws) as [ys|] eqn:Ey; [|discriminate]. cbn [bind] in H.
    destruct (list_min ys) as [y|] eqn:My; [|discriminate]. cbn [bind] in H.
    destruct (mapM (fun s => let! fu := min_fu s in Ok (s7_2_Ntu (An s) fu kt au)) ws) as [us|] eqn:Eu; [|discriminate]. cbn [bind] in H.
    destruct (list_min us) as [u|] eqn:Mu; [|discriminate]. cbn [bind] in H.
    injection H as <-. apply mapM_inv in Ey, Eu. apply list_min_R in My, Mu. destruct My as [Iy Ly], Mu as [Iu Lu].
    assert (K : forall w, In w ws -> exists fy fu, min_fy w = Ok fy /\ min_fu w = Ok fu /\
       In (s7_2_Nty (Ag w) fy) ys /\ In (s7_2_Ntu (An w) fu kt au) us).
    { intros w Hw. destruct (Forall2_In_l _ _ _ _ Ey Hw) as (y' & Hy' & E1).
      destruct (Forall2_In_l _ _ _ _ Eu Hw) as (u' & Hu' & E2).
      destruct (min_fy w) as [fy|] eqn:Fy; [|discriminate]. destruct (min_fu w) as [fu|] eqn:Fu; [|discriminate].
      cbn [bind] in E1, E2. exists fy, fu.
      assert (X1 : s7_2_Nty (Ag w) fy = y') by congruence. assert (X2 : s7_2_Ntu (An w) fu kt au = u') by congruence.
      rewrite X1, X2. auto. }
    assert (Kc : forall w fy fu, min_fy w = Ok fy -> min_fu w = Ok fu ->
        view_capacity kt au w (Rmin (s7_2_Nty (Ag w) fy) (s7_2_Ntu (An w) fu kt au))).
    { intros w fy fu F1 F2. exists fy, fu. rewrite as_eta. split; auto. split; auto.
      unfold s7_2_Nty, s7_2_Ntu, Ag, An, circle_area. cbn [nmul npi RNum]. f_equal; ring. }
    assert (Kv : forall w c fy fu, view_capacity kt au w c -> min_fy w = Ok fy -> min_fu w = Ok fu ->
        c = Rmin (s7_2_Nty (Ag w) fy) (s7_2_Ntu (An w) fu kt au)).
    { intros w c fy fu (fy' & fu' & F1 & F2 & ->) E1 E2. rewrite as_eta in *.
      assert (fy' = fy) by congruence. assert (fu' = fu) by congruence. subst.
      unfold s7_2_Nty, s7_2_Ntu, Ag, An, circle_area. cbn [nmul npi RNum]. f_equal; ring. }
    split.
    + intros w Hw. destruct (K w Hw) as (fy & fu & F1 & F2 & _). eauto.
    + rewrite pymin_R. split.
      * destruct (Rle_lt_dec y u).
        -- rewrite Rmin_left by auto. destruct (Forall2_In_r _ _ _ _ Ey Iy) as (w & Hw & E).
           exists w. split; auto. destruct (K w Hw) as (fy & fu & F1 & F2 & _ & I2).
           rewrite F1 in E. cbn [bind] in E. assert (E' : s7_2_Nty (Ag w) fy = y) by congruence.
           replace y with (Rmin (s7_2_Nty (Ag w) fy) (s7_2_Ntu (An w) fu kt au)); auto.
           rewrite E'. apply Rmin_left. apply Rle_trans with u; auto.
        -- rewrite Rmin_right by lra. destruct (Forall2_In_r _ _ _ _ Eu Iu) as (w & Hw & E).
           exists w. split; auto. destruct (K w Hw) as (fy & fu & F1 & F2 & I1 & _).
           rewrite F2 in E. cbn [bind] in E. assert (E' : s7_2_Ntu (An w) fu kt au = u) by congruence.
           replace u with (Rmin (s7_2_Nty (Ag w) fy) (s7_2_Ntu (An w) fu kt au)); auto.
           rewrite E'. apply Rmin_right. apply Rle_trans with y; auto. lra.
      * intros c (w & Hw & V). destruct (K w Hw) as (fy & fu & F1 & F2 & I1 & I2).
        rewrite (Kv w c fy fu V F1 F2). apply Rmin_glb.
        -- apply Rle_trans with y; [apply Rmin_l|auto].
        -- apply Rle_trans with u; [apply Rmin_r|auto].
Qed.

Lemma Nt_of_total kt au ws : ws <> [] -> (forall w, In w ws -> exists c, view_capacity kt au w c) ->
  exists n, Nt_of kt au ws = Ok n.
Proof.
  intros N K.
  assert (X : forall f : as_section R -> res R, (forall w, In w ws -> exists z, f w = Ok z) ->
     exists m, (let! ns := mapM f ws in list_min ns) = Ok m).
  { intros f Hf. destruct (mapM_total f ws Hf) as (ns & E). rewrite E. cbn [bind].
    destruct ws as [|w ws]; [congruence|]. destruct ns as [|z ns].
    - exfalso. cbn in E. destruct (f w); [|discriminate]. cbn in E. destruct (mapM f ws); discriminate.
    - cbn. eauto. }
  unfold Nt_of.
  destruct (X (fun s => let! fy := min_fy s in Ok (s7_2_Nty (Ag s) fy))) as (y & Ey).
  { intros w Hw. destruct (K w Hw) as (c & fy & fu & F1 & _). rewrite as_eta in F1. rewrite F1. cbn. eauto. }
  destruct (X (fun s => let! fu := min_fu s in Ok (s7_2_Ntu (An s) fu kt au))) as (u & Eu).
  { intros w Hw. destruct (K w Hw) as (c & fy & fu & _ & F2 & _). rewrite as_eta in F2. rewrite F2. cbn. eauto. }
  rewrite Ey, Eu. cbn [bind]. eauto.
Qed.

Lemma Nt_of_iff kt au ws n : Nt_of kt au ws = Ok n <->
  (forall w, In w ws -> exists c, view_capacity kt au w c) /\
  least n (fun c => exists w, In w ws /\ view_capacity kt au w c).
Proof.
  split; [apply Nt_of_inv|]. intros [K L].
  destruct (Nt_of_total kt au ws) as (m & H); auto.
  { intros ->. destruct L as [(w & [] & _) _]. }
  rewrite H. f_equal. destruct (Nt_of_inv _ _ _ _ H) as [_ L']. eapply least_unique; eauto.
Qed.

(** The sections at explicit positions: those of the elements containing one of them. *)
Lemma sections_at_explicit phi au kt b s a ls position ps ws : make_as4100 phi au kt (Some b) s = Ok a ->
  has_lengths b ls -> b <> [] -> requested position ps -> sections_at a position = Ok ws ->
  Forall (fun p => 0 <= p <= span ls) ps /\
  (forall w, In w ws <-> exists p i e, In p ps /\ covers ls i p /\ nth_error b i = Some e /\ wraps (esection e) w).
Proof.
  intros Hm Hl Nb Rq E.
  assert (E' : exists pos, get_as4100_section a position None None = Ok (pos, ws)).
  { unfold sections_at in E. destruct Rq; (destruct (get_as4100_section a _ None None) as [[pos ws']|];
      [cbn [bind snd] in E; injection E as ->; eauto|discriminate]). }
  clear E. destruct E' as (pos & E).
  apply (C25_as4100_ok phi au kt b s a position None None pos ws Hm) in E. destruct E as (ss & E & F).
  destruct (beam_list_positions b position None None) as [locs|x] eqn:El;
    [|unfold beam_get_section in E; rewrite El in E; discriminate].
  split.
  - apply Forall_forall. intros p Hp.
    destruct (list_positions_triples b ls position None None locs Hl El) as (H1 & _ & _ & H4).
    apply (H4 Nb ps Rq) in Hp. unfold positions_of in Hp. apply in_map_iff in Hp.
    destruct Hp as ([[q z] l] & Eq & Hin). cbn in Eq. subst q. destruct (H1 _ _ _ Hin) as (i & _ & C & _).
    eapply covers_on_beam; eauto. eapply lengths_nonneg; eauto.
  - destruct (get_section_R b ls position None None locs Hl El) as (secs & Es & Fs).
    assert (secs = ss) by congruence. subst secs.
    destruct (list_positions_triples b ls position None None locs Hl El) as (H1 & _ & H3 & H4). intros w. split.
    + intros Hw. destruct (Forall2_In_r _ _ _ _ F Hw) as (sec & Hs & Wr).
      destruct (Forall2_In_r _ _ _ _ Fs Hs) as ([[p z] l] & Ht & el & Hel & ->). cbn [fst snd] in Hel.
      destruct (H1 _ _ _ Ht) as (i & -> & C & _). rewrite Nat2Z.id in Hel.
      exists p, i, el. split; [|auto]. apply (H4 Nb ps Rq). unfold positions_of. apply in_map_iff.
      exists (p, Z.of_nat i, l). auto.
    + intros (p & i & e & Hp & C & He & Wr). apply (H4 Nb ps Rq) in Hp.
      destruct (H3 p i Hp C) as (l & Hin). destruct (Forall2_In_l _ _ _ _ Fs Hin) as (sec & Hsec & el & Hel & ->).
      cbn [fst snd] in Hel. rewrite Nat2Z.id in Hel. assert (el = e) by congruence. subst el.
      destruct (Forall2_In_l _ _ _ _ F Hsec) as (w' & Hw' & Wr').
      assert (w' = w); [|congruence]. destruct Wr. now inversion Wr'.
Qed.

Lemma sections_at_total phi au kt b s a ls position ps : make_as4100 phi au kt (Some b) s = Ok a ->
  has_lengths b ls -> requested position ps -> Forall (fun p => 0 <= p <= span ls) ps ->
  exists ws, sections_at a position = Ok ws.
Proof.
  intros Hm Hl Rq Hp.
  assert (X : exists locs, beam_list_positions b position None None = Ok locs).
  { rewrite (explicit_R b position ps None Rq).
    destruct (check_on_beam_R b ls ps Hl) as [[-> _]|[-> (p & Hin & Off)]]; cbn [bind].
    - apply (locations_total b ls); auto.
    - rewrite Forall_forall in Hp. specialize (Hp p Hin). lra. }
  destruct X as (locs & El). destruct (get_section_R b ls position None None locs Hl El) as (ss & E & _).
  pose proof (as_section_of_beam phi au kt b s a position None None Hm) as K. rewrite E in K.
  unfold sections_at. destruct (get_as4100_section a position None None) as [[p ws]|] eqn:Eg; [|destruct K].
  exists ws. destruct Rq; reflexivity.
Qed.

Lemma make_fields phi au kt (b : option (beam_t R (section R))) s a : make_as4100 phi au kt b s = Ok a ->
  k_t a = kt /\ alpha_u a = au /\ phi_steel a = phi.
Proof. intros H. apply make_ok in H. destruct H as (_ & ws & _ & ->). auto. Qed.

Lemma wraps_capacity kt au b i e w c : nth_error b i = Some e -> wraps (esection e) w ->
  view_capacity kt au w c <-> element_capacity kt au b i c.
Proof.
  intros He W. unfold view_capacity. inversion W as [r m St E1 E2]. subst w. cbn [as_radius as_material]. split.
  - intros V. exists e, r, m. auto.
  - intros (e' & r' & m' & He' & Es & V). assert (e' = e) by congruence. subst e'.
    rewrite Es in E1. injection E1 as -> ->. exact V.
Qed.

(** Every section of the beam is wrapped. *)
Lemma make_wraps phi au kt (b : beam_t R (section R)) s a i e : make_as4100 phi au kt (Some b) s = Ok a ->
  nth_error b i = Some e -> exists w, wraps (esection e) w /\ In w (cc_as_sections a).
Proof.
  intros H He. apply make_ok in H. destruct H as (_ & ws & F & ->). cbn [checked_sections cc_as_sections] in *.
  apply nth_error_In in He. apply (in_map esection) in He.
  destruct (Forall2_In_l _ _ _ _ F He) as (w & Hw & Wr). eauto.
Qed.

Lemma C28_explicit phi au kt b s a ls position ps n : make_as4100 phi au kt (Some b) s = Ok a ->
  has_lengths b ls -> b <> [] -> requested position ps ->
  Nt a position = Ok n <->
  Forall (fun p => 0 <= p <= span ls) ps /\
  (forall p i, In p ps -> covers ls i p -> exists c, element_capacity kt au b i c) /\
  least n (capacities_at kt au b ls ps).
Proof.
  intros Hm Hl Nb Rq. destruct (make_fields _ _ _ _ _ _ Hm) as (<- & <- & _).
  set (kt := k_t a). set (au := alpha_u a).
  assert (K : forall ws, sections_at a position = Ok ws ->
    Nt a position = Ok n <->
    (forall p i, In p ps -> covers ls i p -> exists c, element_capacity kt au b i c) /\
    least n (capacities_at kt au b ls ps)).
  { intros ws E. rewrite (Nt_sections a position ws E), Nt_of_iff. fold kt au.
    destruct (sections_at_explicit _ _ _ b s a ls position ps ws Hm Hl Nb Rq E) as [_ Iw].
    assert (P1 : (forall w, In w ws -> exists c, view_capacity kt au w c) <->
                 (forall p i, In p ps -> covers ls i p -> exists c, element_capacity kt au b i c)).
    { split.
      - intros H p i Hp C.
        destruct (nth_error b i) as [e|] eqn:He.
        2:{ apply nth_error_None in He. rewrite (lengths_len b ls Hl) in He. destruct C. lia. }
        destruct (make_wraps _ _ _ b s a i e Hm He) as (w & Wr & _).
        destruct (H w) as (c & V); [apply Iw; exists p, i, e; auto|].
        exists c. eapply wraps_capacity; eauto.
      - intros H w Hw. apply Iw in Hw. destruct Hw as (p & i & e & Hp & C & He & Wr).
        destruct (H p i Hp C) as (c & V). exists c. eapply wraps_capacity; eauto. }
    rewrite P1, (least_ext n _ (capacities_at kt au b ls ps)); [reflexivity|].
    intros c. split.
    - intros (w & Hw & V). apply Iw in Hw. destruct Hw as (p & i & e & Hp & C & He & Wr).
      exists p, i. split; auto. split; auto. eapply wraps_capacity; eauto.
    - intros (p & i & Hp & C & V). pose proof V as (e & r & m & He & Es & _).
      destruct (make_wraps _ _ _ b s a i e Hm He) as (w & Wr & _).
      exists w. split; [apply Iw; exists p, i, e; auto|]. eapply wraps_capacity; eauto. }
  split.
  - intros H. destruct (sections_at a position) as [ws|e] eqn:E; [|rewrite (Nt_err a position e E) in H; discriminate].
    split; [|now apply (K ws)].
    eapply sections_at_explicit; eauto.
  - intros (H1 & H2). destruct (sections_at_total _ _ _ b s a ls position ps Hm Hl Rq H1) as (ws & E).
    now apply (K ws).
Qed.

Lemma C28_all phi au kt b s a n : make_as4100 phi au kt (Some b) s = Ok a ->
  Nt a PosNone = Ok n <->
  (forall i, (i < List.length b)%nat -> exists c, element_capacity kt au b i c) /\
  least n (fun c => exists i, element_capacity kt au b i c).
Proof.
  intros Hm. destruct (make_fields _ _ _ _ _ _ Hm) as (<- & <- & _).
  set (kt := k_t a). set (au := alpha_u a).
  rewrite (Nt_sections a PosNone (cc_as_sections a) eq_refl), Nt_of_iff. fold kt au.
  assert (Iw : forall w, In w (cc_as_sections a) <-> exists i e, nth_error b i = Some e /\ wraps (esection e) w).
  { intros w. apply make_ok in Hm. destruct Hm as (_ & ws & F & ->). cbn [cc_as_sections checked_sections] in *. split.
    - intros Hw. destruct (Forall2_In_r _ _ _ _ F Hw) as (sec & Hs & Wr). apply in_map_iff in Hs.
      destruct Hs as (e & <- & He). apply In_nth_error in He. destruct He as (i & He). eauto.
    - intros (i & e & He & Wr). apply nth_error_In in He. apply (in_map esection) in He.
      destruct (Forall2_In_l _ _ _ _ F He) as (w' & Hw' & Wr').
      assert (w' = w); [|congruence]. destruct Wr. now inversion Wr'. }
  assert (P1 : (forall w, In w (cc_as_sections a) -> exists c, view_capacity kt au w c) <->
               (forall i, (i < List.length b)%nat -> exists c, element_capacity kt au b i c)).
  { split.
    - intros H i Hi. destruct (nth_error b i) as [e|] eqn:He; [|apply nth_error_None in He; lia].
      destruct (make_wraps _ _ _ b s a i e Hm He) as (w & Wr & Hw). destruct (H w Hw) as (c & V).
      exists c. eapply wraps_capacity; eauto.
    - intros H w Hw. apply Iw in Hw. destruct Hw as (i & e & He & Wr).
      destruct (H i) as (c & V); [apply nth_error_Some; congruence|]. exists c. eapply wraps_capacity; eauto. }
  rewrite P1, (least_ext n _ (fun c => exists i, element_capacity kt au b i c)); [reflexivity|].
  intros c. split.
  - intros (w & Hw & V). apply Iw in Hw. destruct Hw as (i & e & He & Wr). exists i. eapply wraps_capacity; eauto.
  - intros (i & V). pose proof V as (e & r & m & He & Es & _).
    destruct (make_wraps _ _ _ b s a i e Hm He) as (w & Wr & Hw). exists w. split; auto. eapply wraps_capacity; eauto.
Qed.

(** With only a section. *)
Lemma C28_section phi au kt r m a n : make_as4100 phi au kt None (Some (SCircle r (Some m))) = Ok a ->
  Nt a PosNone = Ok n <-> bar_capacity kt au r m n.
Proof.
  intros Hm. destruct (make_fields _ _ _ _ _ _ Hm) as (<- & <- & _).
  apply make_ok in Hm. destruct Hm as (_ & ws & F & Ea). cbn [checked_sections] in F.
  inversion F as [|x w l l' Wr Fn]. subst. inversion Fn. subst. inversion Wr. subst.
  rewrite (Nt_sections _ PosNone (cc_as_sections a) eq_refl), Nt_of_iff. rewrite Ea. cbn [cc_as_sections k_t alpha_u].
  split.
  - intros [_ [(w & [<-|[]] & V) _]]. exact V.
  - intros V. split.
    + intros w [<-|[]]. exists n. exact V.
    + split; [exists (mk_as r m); split; [now left|exact V]|].
      intros x (w & [<-|[]] & (fy & fu & F1 & F2 & ->)). destruct V as (fy' & fu' & G1 & G2 & ->).
      cbn [as_radius as_material] in *. assert (fy = fy') by congruence. assert (fu = fu') by congruence. subst. lra.
Qed.

Lemma C28_phi phi au kt (b : option (beam_t R (section R))) s a position x : make_as4100 phi au kt b s = Ok a ->
  (phiNt a position = Ok x <-> exists n, Nt a position = Ok n /\ x = phi * n) /\
  tension_capacity a position = phiNt a position.
Proof.
  intros Hm. destruct (make_fields _ _ _ _ _ _ Hm) as (_ & _ & <-). split; [|reflexivity].
  unfold phiNt. destruct (Nt a position) as [n|]; cbn [bind].
  - split; [intros [= <-]; eauto|]. intros (n' & [= <-] & ->). reflexivity.
  - split; [discriminate|]. intros (n & H & _). discriminate H.
Qed.

Lemma C28_default_bar r m a x : default_as4100 None (Some (SCircle r (Some m))) = Ok a ->
  tension_capacity a PosNone = Ok x <->
  exists fy fu, min_fy (mk_as r m) = Ok fy /\ min_fu (mk_as r m) = Ok fu /\
    x = 9 / 10 * Rmin (PI * r ^ 2 * fy) (85 / 100 * (PI * r ^ 2 * fu)).
Proof.
  intros Hm. unfold default_as4100 in Hm. destruct (C28_phi _ _ _ _ _ _ PosNone x Hm) as [P1 P2]. rewrite P2, P1.
  assert (V : forall fy fu, Rmin (PI * r ^ 2 * fy) (PI * r ^ 2 * fu * (100 / 100) * (85 / 100)) = Rmin (PI * r ^ 2 * fy) (85 / 100 * (PI * r ^ 2 * fu))).
  { intros. f_equal. field. }
  split.
  - intros (n & E & ->). apply (C28_section _ _ _ _ _ _ n Hm) in E. destruct E as (fy & fu & E1 & E2 & ->).
    exists fy, fu. split; auto. split; auto. cbn [nflt RNum]. rewrite V. lra.
  - intros (fy & fu & E1 & E2 & ->). exists (Rmin (PI * r ^ 2 * fy) (85 / 100 * (PI * r ^ 2 * fu))). split.
    + apply (C28_section _ _ _ _ _ _ _ Hm). exists fy, fu. split; [exact E1|]. split; [exact E2|]. cbn [nflt RNum]. now rewrite V.
    + cbn [nflt RNum]. lra.
Qed.


Lemma Nt_total phi au kt b s a ls position ps : make_as4100 phi au kt (Some b) s = Ok a ->
  has_lengths b ls -> b <> [] -> requested position ps -> ps <> [] -> Forall (fun p => 0 <= p <= span ls) ps ->
  (forall p i, In p ps -> covers ls i p -> exists c, element_capacity kt au b i c) ->
  exists n, Nt a position = Ok n.
Proof.
  intros Hm Hl Nb Rq Np Hp E.
  destruct (sections_at_total _ _ _ b s a ls position ps Hm Hl Rq Hp) as (ws & Es).
  destruct (sections_at_explicit _ _ _ b s a ls position ps ws Hm Hl Nb Rq Es) as [_ Iw].
  destruct (make_fields _ _ _ _ _ _ Hm) as (Ek & Ea & _). rewrite (Nt_sections a position ws Es), Ek, Ea.
  apply Nt_of_total.
  - destruct ps as [|p ps]; [congruence|]. apply Forall_inv in Hp.
    assert (Ln : List.length b = List.length ls) by (eapply lengths_len; eauto).
    destruct (some_cover ls p) as (i & C); auto.
    { intros ->. destruct b; [congruence|discriminate Ln]. }
    { eapply lengths_nonneg; eauto. }
    destruct (nth_error b i) as [e|] eqn:He; [|apply nth_error_None in He; destruct C; lia].
    destruct (make_wraps _ _ _ b s a i e Hm He) as (w & Wr & _). intros ->.
    apply (Iw w). exists p, i, e. split; [now left|auto].
  - intros w Hw. apply Iw in Hw. destruct Hw as (p & i & e & Hin & C & He & Wr).
    destruct (E p i Hin C) as (c & V). exists c. eapply wraps_capacity; eauto.
Qed.

Lemma C28_order phi au kt b s a ls position ps n : make_as4100 phi au kt (Some b) s = Ok a ->
  has_lengths b ls -> b <> [] -> requested position ps -> ps <> [] -> Forall (fun p => 0 <= p <= span ls) ps ->
  Nt a PosNone = Ok n -> exists n', Nt a position = Ok n' /\ n <= n'.
Proof.
  intros Hm Hl Nb Rq Np Hp E. apply (C28_all _ _ _ b s a n Hm) in E. destruct E as [E [_ L]].
  destruct (Nt_total _ _ _ b s a ls position ps Hm Hl Nb Rq Np Hp) as (n' & G).
  { intros p i _ [C _]. apply E. now rewrite (lengths_len b ls Hl). }
  exists n'. split; auto. apply (C28_explicit _ _ _ b s a ls position ps n' Hm Hl Nb Rq) in G.
  destruct G as (_ & _ & (p & i & _ & _ & V) & _). apply L. eauto.
Qed.

Lemma C28_list phi au kt b s a ls ps n : make_as4100 phi au kt (Some b) s = Ok a ->
  has_lengths b ls -> b <> [] ->
  Nt a (PosList ps) = Ok n <->
  exists ns, Forall2 (fun p m => Nt a (PosNum p) = Ok m) ps ns /\ least n (fun m => In m ns).
Proof.
  intros Hm Hl Nb.
  assert (Q : forall p m, Nt a (PosNum p) = Ok m <->
     0 <= p <= span ls /\ (forall i, covers ls i p -> exists c, element_capacity kt au b i c) /\
     least m (fun c => exists i, covers ls i p /\ element_capacity kt au b i c)).
  { intros p m. rewrite (C28_explicit _ _ _ b s a ls (PosNum p) [p] m Hm Hl Nb) by constructor.
    split; intros (H1 & H2 & H3).
    - split; [now apply Forall_inv in H1|]. split; [intros; apply (H2 p); [now left|auto]|].
      eapply least_ext; [|exact H3]. intros c. split.
      + intros (i & C & V). exists p, i. split; [now left|auto].
      + intros (p' & i & [<-|[]] & C & V). eauto.
    - split; [now constructor|]. split; [intros p' i [<-|[]]; auto|].
      eapply least_ext; [|exact H3]. intros c. split.
      + intros (p' & i & [<-|[]] & C & V). eauto.
      + intros (i & C & V). exists p, i. split; [now left|auto]. }
  rewrite (C28_explicit _ _ _ b s a ls (PosList ps) ps n Hm Hl Nb) by constructor.
  split.
  - intros (H1 & H2 & H3). rewrite Forall_forall in H1.
    assert (X : forall p, In p ps -> exists m, Nt a (PosNum p) = Ok m).
    { intros p Hp. apply (Nt_total _ _ _ b s a ls (PosNum p) [p] Hm Hl Nb); auto; try constructor; auto; try discriminate.
      intros q i [<-|[]] C. eauto. }
    assert (Y : exists ns, Forall2 (fun p m => Nt a (PosNum p) = Ok m) ps ns).
    { clear - X. induction ps as [|p ps IH]; [exists []; constructor|].
      destruct (X p) as (m & Em); [now left|]. destruct IH as (ns & F); [intros; apply X; now right|].
      exists (m :: ns). now constructor. }
    destruct Y as (ns & F). exists ns. split; auto. destruct H3 as [(p & i & Hp & C & V) L].
    destruct (Forall2_In_l _ _ _ _ F Hp) as (m & Im & Em). split.
    + replace n with m; auto. apply Q in Em. destruct Em as (_ & _ & (j & Cj & Vj) & Lm).
      apply Rle_antisym; [apply Lm; eauto|]. apply L. exists p, j. auto.
    + intros m' Im'. destruct (Forall2_In_r _ _ _ _ F Im') as (p' & Hp' & E').
      apply Q in E'. destruct E' as (_ & _ & (j & Cj & Vj) & _). apply L. exists p', j. auto.
  - intros (ns & F & L). split; [|split].
    + clear L. induction F; constructor; auto. apply Q in H. apply H.
    + intros p i Hp C. destruct (Forall2_In_l _ _ _ _ F Hp) as (m & _ & E). apply Q in E. now apply E.
    + destruct L as [Ln L]. split.
      * destruct (Forall2_In_r _ _ _ _ F Ln) as (p & Hp & E). apply Q in E.
        destruct E as (_ & _ & (i & C & V) & _). exists p, i. auto.
      * intros c (p & i & Hp & C & V). destruct (Forall2_In_l _ _ _ _ F Hp) as (m & Hm' & E). apply Q in E.
        destruct E as (_ & _ & _ & Lm). apply Rle_trans with m; auto. apply Lm. eauto.
Qed.
