(** A tension check over several load cases and positions and the separate checks of each. *)

From Coq Require Import ZArith Reals List Bool Lia Floats.SpecFloat.
From Verif Require Import Base Num RNum PyNum LoadCase Beam Material AS4100 AS4100Facts AS4100Util.
Import ListNotations.

(** The order of the numbers other than NaN, which compares as less than nothing and more than nothing. *)
Record nan_order (T : Type) `{Num T} : Prop := {
  o_total : forall x y : T, nisnan x = false -> nisnan y = false -> nleb x y = true \/ nleb y x = true;
  o_trans : forall x y z : T, nisnan x = false -> nisnan y = false -> nisnan z = false ->
    nleb x y = true -> nleb y z = true -> nleb x z = true;
  o_lt : forall x y : T, nisnan x = false -> nisnan y = false -> nltb x y = negb (nleb y x);
  o_nan : forall x y : T, nisnan x = true -> nltb x y = false /\ nltb y x = false }.

Lemma real_order : nan_order R.
Proof.
  constructor.
  - intros x y _ _. now apply (ord_total (ok := Rok)).
  - intros x y z _ _ _. now apply (ord_trans (ok := Rok)).
  - intros x y _ _. now apply (ord_lt (ok := Rok)).
  - discriminate.
Qed.

Lemma py_nan x : py_isnan x = false -> to_ext x <> ENaN.
Proof. destruct x as [z|[s|[]| |s m e]]; cbn; congruence. Qed.

Lemma py_order : nan_order pynum.
Proof.
  constructor.
  - intros x y Hx Hy. apply ext_total; now apply py_nan.
  - intros x y z _ _ _. apply ext_trans.
  - intros x y Hx Hy. cbn [nltb nleb PNum]. unfold py_ltb.
    destruct (ext_total _ _ (py_nan _ Hx) (py_nan _ Hy)) as [H|H];
      fold (py_leb x y) in H; fold (py_leb y x) in H; rewrite H; cbn.
    + now destruct (py_leb y x).
    + now rewrite andb_false_r.
  - intros x y Hx. destruct x as [z|[s|s| |s m e]]; try discriminate Hx. cbn [nltb PNum]. unfold py_ltb, py_leb. cbn [to_ext].
    split; [reflexivity|]. destruct (to_ext y); reflexivity.
Qed.

Section Any.
Context {T : Type} {NT : Num T}.
Hypothesis O : nan_order T.
Definition fine (x : T) : Prop := nisnan x = false.

Lemma fine_dec x : fine x \/ nisnan x = true.
Proof. unfold fine. destruct (nisnan x); auto. Qed.
Lemma max_bad_r x y : nisnan y = true -> pymax x y = x.
Proof. intros B. unfold pymax. destruct (o_nan T O y x B) as (_ & ->). reflexivity. Qed.
Lemma max_bad_l x y : nisnan x = true -> pymax x y = x.
Proof. intros B. unfold pymax. destruct (o_nan T O x y B) as (-> & _). reflexivity. Qed.
Lemma max_fine x y : fine x -> fine (pymax x y).
Proof.
  intros Ox. destruct (fine_dec y) as [Oy|By]; [|now rewrite max_bad_r]. unfold pymax. destruct (nltb x y); auto.
Qed.

Lemma max_assoc x y z : fine x -> fine y -> fine z -> pymax (pymax x y) z = pymax x (pymax y z).
Proof.
  intros Ox Oy Oz. unfold pymax. rewrite (o_lt T O x y), (o_lt T O y z) by auto.
  destruct (nleb y x) eqn:A; destruct (nleb z y) eqn:B; cbn [negb].
  - rewrite !(o_lt T O) by auto. rewrite A. rewrite (o_trans T O z y x) by auto. reflexivity.
  - rewrite (o_lt T O) by auto. reflexivity.
  - rewrite !(o_lt T O) by auto. now rewrite A, B.
  - rewrite !(o_lt T O) by auto. rewrite B. cbn [negb]. destruct (nleb z x) eqn:C; auto. exfalso.
    destruct (o_total T O y z Oy Oz) as [D|D]; [|congruence]. pose proof (o_trans T O y z x Oy Oz Ox D C). congruence.
Qed.

Lemma fold_max_fine (l : list T) : forall x, fine x -> fine (fold_left pymax l x).
Proof. induction l as [|y l IH]; intros x Ox; cbn [fold_left]; auto using max_fine. Qed.
Lemma fold_max_bad (l : list T) : forall x, nisnan x = true -> fold_left pymax l x = x.
Proof. induction l as [|y l IH]; intros x Bx; cbn [fold_left]; auto. rewrite max_bad_l by auto. auto. Qed.
Lemma fold_max_start (l : list T) x : fine (fold_left pymax l x) -> fine x.
Proof. intros F. destruct (fine_dec x) as [|B]; auto. now rewrite fold_max_bad in F. Qed.

Lemma fold_max_assoc (l : list T) : forall x y, fine x -> fine y ->
  fold_left pymax l (pymax x y) = pymax x (fold_left pymax l y).
Proof.
  induction l as [|z l IH]; intros x y Ox Oy; cbn [fold_left]; auto.
  destruct (fine_dec z) as [Oz|Bz].
  - rewrite max_assoc by auto. apply IH; auto using max_fine.
  - rewrite (max_bad_r (pymax x y) z), (max_bad_r y z) by auto. now apply IH.
Qed.

Lemma list_max_app (l1 l2 : list T) m1 m2 :
  list_max l1 = Ok m1 -> list_max l2 = Ok m2 -> fine m1 -> fine m2 -> list_max (l1 ++ l2) = Ok (pymax m1 m2).
Proof.
  destruct l1 as [|x l1]; [discriminate|]. destruct l2 as [|y l2]; [discriminate|]. cbn [list_max app].
  intros [= <-] [= <-] O1 O2. rewrite fold_left_app. cbn [fold_left]. rewrite fold_max_assoc; auto.
  now apply fold_max_start in O2.
Qed.

(** Blocks of numbers and their maxima. *)
Lemma list_max_concat (vss : list (list T)) : forall ms, Forall2 (fun vs m => list_max vs = Ok m) vss ms ->
  Forall fine ms -> list_max (concat vss) = list_max ms.
Proof.
  induction vss as [|vs vss IH]; intros ms F Om; inversion F as [|a m b ms' Em F']; subst; auto.
  inversion Om as [|m' ms0 O1 O2]; subst. cbn [concat]. specialize (IH ms' F' O2).
  destruct vss as [|ws vss].
  - inversion F'; subst. cbn [concat]. now rewrite app_nil_r.
  - inversion F' as [|a k b ms'' Ek F'']; subst. cbn [list_max] in IH. inversion O2; subst.
    rewrite (list_max_app vs (concat (ws :: vss)) m (fold_left pymax ms'' k)); auto using fold_max_fine.
    cbn [list_max fold_left]. now rewrite fold_max_assoc.
Qed.

Lemma fold_max_in (l : list T) : forall x, In (fold_left pymax l x) (x :: l).
Proof.
  induction l as [|y l IH]; intros x; cbn [fold_left]; [now left|]. destruct (IH (pymax x y)) as [E|E].
  - unfold pymax in *. destruct (nltb x y); [right; left|left]; exact E.
  - right. now right.
Qed.


Lemma max_top x y : fine x -> fine y -> nleb x (pymax x y) = true /\ nleb y (pymax x y) = true.
Proof.
  intros Ox Oy. unfold pymax. rewrite (o_lt T O x y) by auto. destruct (nleb y x) eqn:E; cbn [negb].
  - split; auto. destruct (o_total T O x x Ox Ox); auto.
  - split; [destruct (o_total T O x y Ox Oy); auto; congruence|]. destruct (o_total T O y y Oy Oy); auto.
Qed.

Lemma fold_max_top (l : list T) : forall x, fine x -> Forall fine l -> forall y, In y (x :: l) -> nleb y (fold_left pymax l x) = true.
Proof.
  induction l as [|z l IH]; intros x Ox Ol y Hy; cbn [fold_left].
  - destruct Hy as [<-|[]]. destruct (o_total T O x x Ox Ox); auto.
  - inversion Ol as [|z' l' Oz Ol']; subst. pose proof (max_fine x z Ox) as Om.
    pose proof (fold_max_fine l _ Om) as Of. destruct (max_top x z Ox Oz) as (K1 & K2).
    assert (Top : nleb (pymax x z) (fold_left pymax l (pymax x z)) = true) by (apply IH; auto; now left).
    destruct Hy as [<-|[<-|Hy]].
    + exact (o_trans T O _ _ _ Ox Om Of K1 Top).
    + exact (o_trans T O _ _ _ Oz Om Of K2 Top).
    + apply IH; auto. now right.
Qed.

Lemma list_max_in (l : list T) m : list_max l = Ok m -> In m l.
Proof. destruct l as [|x l]; cbn [list_max]; [discriminate|]. intros [= <-]. apply fold_max_in. Qed.
Lemma list_max_top (l : list T) m : list_max l = Ok m -> Forall fine l -> forall y, In y l -> nleb y m = true.
Proof.
  destruct l as [|x l]; cbn [list_max]; [discriminate|]. intros [= <-] H y Hy. inversion H; subst. now apply fold_max_top.
Qed.
End Any.

Section Parts.
Context {T : Type} {NT : Num T}.
Hypothesis O : nan_order T.
Variables (qs : argsort_oracle T) (a : as4100 T).

Definition joint (cs : list Z) (ps : list T) : res T := tension_utilisation qs a (LCList cs) (PosList ps).
Definition single (c : Z) (p : T) : res T := tension_utilisation qs a (LCInt c) (PosList [p]).

Section Beam.
Variable b : beam_t T (section T).
Hypothesis Hb : cc_beam a = Some b.

Lemma joint_eq cs ps : joint cs ps = (let! us := util_loop qs a b (Some ps) cs in list_max us).
Proof. unfold joint, tension_utilisation. cbn [bind]. now rewrite Hb. Qed.
Lemma single_eq c p : single c p = (let! vs := utils_at qs a c p in list_max vs).
Proof.
  unfold single, tension_utilisation. cbn [bind]. rewrite Hb. cbn [util_loop bind mapM].
  destruct (utils_at qs a c p) as [vs|]; cbn [bind concat]; [|reflexivity]. now rewrite !app_nil_r.
Qed.
Lemma single_ok c p v : single c p = Ok v -> exists vs, utils_at qs a c p = Ok vs /\ list_max vs = Ok v.
Proof. rewrite single_eq. destruct (utils_at qs a c p) as [vs|]; cbn [bind]; [eauto|discriminate]. Qed.

(** The list of the separate answers, in the order of the two loops. *)
Lemma loop_blocks ps cs : (forall c p, In c cs -> In p ps -> exists v, single c p = Ok v /\ fine v) ->
  exists vss ms, util_loop qs a b (Some ps) cs = Ok (concat vss) /\ Forall2 (fun vs m => list_max vs = Ok m) vss ms /\
    Forall fine ms /\ forall m, In m ms <-> exists c p, In c cs /\ In p ps /\ single c p = Ok m.
Proof.
  induction cs as [|c cs IH]; intros H; cbn [util_loop bind].
  - exists [], []. split; auto. split; [constructor|]. split; [constructor|]. intros m. split; [intros []|]. intros (c & p & [] & _).
  - destruct IH as (vss & ms & E & F & Om & I); [intros; apply H; auto; now right|]. rewrite E.
    assert (K : exists us ks, mapM (utils_at qs a c) ps = Ok us /\ Forall2 (fun vs m => list_max vs = Ok m) us ks /\
      Forall fine ks /\ forall m, In m ks <-> exists p, In p ps /\ single c p = Ok m).
    { assert (Hc : forall p, In p ps -> exists v, single c p = Ok v /\ fine v) by (intros; apply H; auto; now left).
      clear H E I. induction ps as [|p ps IH].
      - exists [], []. split; auto. split; [constructor|]. split; [constructor|]. intros m. split; [intros []|]. intros (p & [] & _).
      - destruct IH as (us & ks & Eu & Fu & Ok' & Iu); [intros; apply Hc; now right|].
        destruct (Hc p (or_introl eq_refl)) as (v & Ev & Ov). pose proof Ev as Es. apply single_ok in Ev. destruct Ev as (vs & Ev & Mv).
        exists (vs :: us), (v :: ks). cbn [mapM]. rewrite Ev. cbn [bind]. rewrite Eu. cbn [bind]. split; auto.
        split; [now constructor|]. split; [now constructor|]. intros m. split.
        + intros [<-|Hm]; [exists p; split; [now left|auto]|]. apply Iu in Hm. destruct Hm as (q & Hq & Eq). exists q. split; [now right|auto].
        + intros (q & [<-|Hq] & Eq); [left; congruence|]. right. apply Iu. eauto. }
    destruct K as (us & ks & Eu & Fu & Ou & Iu). rewrite Eu. cbn [bind]. exists (us ++ vss), (ks ++ ms).
    split; [now rewrite concat_app|]. split; [now apply Forall2_app|]. split; [apply Forall_app; auto|].
    intros m. rewrite in_app_iff, Iu, I. split.
    + intros [(p & Hp & Em)|(c' & p & Hc & Hp & Em)]; [exists c, p|exists c', p]; repeat split; auto; [now left|now right].
    + intros (c' & p & [<-|Hc] & Hp & Em); [left; eauto|right; eauto].
Qed.

Lemma joint_worst_b cs ps : cs <> [] -> ps <> [] -> (forall c p, In c cs -> In p ps -> exists v, single c p = Ok v /\ fine v) ->
  exists u, joint cs ps = Ok u /\ (exists c p, In c cs /\ In p ps /\ single c p = Ok u) /\
    forall c p v, In c cs -> In p ps -> single c p = Ok v -> nleb v u = true.
Proof.
  intros Nc Np H. rewrite joint_eq. destruct (loop_blocks ps cs H) as (vss & ms & E & F & Om & I). rewrite E. cbn [bind].
  rewrite (list_max_concat O vss ms F Om). destruct cs as [|c cs]; [congruence|]. destruct ps as [|p ps]; [congruence|].
  destruct (H c p (or_introl eq_refl) (or_introl eq_refl)) as (v & Ev & _).
  assert (Hm : In v ms) by (apply I; exists c, p; repeat split; auto; now left).
  destruct ms as [|m ms]; [destruct Hm|]. exists (fold_left pymax ms m). split; [reflexivity|].
  assert (L : list_max (m :: ms) = Ok (fold_left pymax ms m)) by reflexivity. split.
  - apply I. now apply list_max_in.
  - intros c' p' v' Hc Hp Ev'. apply (list_max_top O _ _ L Om). apply I. eauto.
Qed.

Lemma joint_error_b cs ps e : cs <> [] -> ps <> [] -> joint cs ps = Err e ->
  exists c p, In c cs /\ In p ps /\ single c p = Err e.
Proof.
  intros Nc Np. rewrite joint_eq. destruct (util_loop qs a b (Some ps) cs) as [us|e'] eqn:E; cbn [bind].
  - intros M. destruct us as [|x us]; [|discriminate]. cbn [list_max] in M.
    destruct (util_loop_ok _ _ _ _ _ _ E) as (I1 & I2).
    destruct cs as [|c cs]; [congruence|]. destruct ps as [|p ps]; [congruence|]. exists c, p.
    split; [now left|]. split; [now left|]. destruct (I1 c p (or_introl eq_refl) (or_introl eq_refl)) as (vs & Ev).
    rewrite single_eq, Ev. cbn [bind]. destruct vs as [|v vs]; [exact M|]. exfalso.
    apply (proj2 (I2 v)). exists c, p, (v :: vs). split; [now left|]. split; [now left|]. split; auto. now left.
  - intros [= ->]. destruct (util_loop_err _ _ _ _ _ _ E) as (c & p & Hc & Hp & Ev). exists c, p. split; auto. split; auto.
    rewrite single_eq, Ev. reflexivity.
Qed.

End Beam.

(** Without a beam everything is refused. *)
Lemma no_beam_joint cs ps : cc_beam a = None -> cs <> [] -> ps <> [] -> joint cs ps = Err SectionOnlyError.
Proof. intros Hb Nc Np. unfold joint, tension_utilisation. rewrite Hb. destruct cs; [congruence|]. now destruct ps. Qed.
Lemma no_beam_single c p : cc_beam a = None -> single c p = Err SectionOnlyError.
Proof. intros Hb. unfold single, tension_utilisation. now rewrite Hb. Qed.

Lemma joint_worst cs ps : cs <> [] -> ps <> [] -> (forall c p, In c cs -> In p ps -> exists v, single c p = Ok v /\ fine v) ->
  exists u, joint cs ps = Ok u /\ (exists c p, In c cs /\ In p ps /\ single c p = Ok u) /\
    forall c p v, In c cs -> In p ps -> single c p = Ok v -> nleb v u = true.
Proof.
  destruct (cc_beam a) as [b|] eqn:Hb; [now apply (joint_worst_b b)|]. intros Nc Np H.
  destruct cs as [|c cs]; [congruence|]. destruct ps as [|p ps]; [congruence|].
  destruct (H c p (or_introl eq_refl) (or_introl eq_refl)) as (v & Ev & _). rewrite no_beam_single in Ev by auto. discriminate.
Qed.

Lemma joint_error cs ps e : cs <> [] -> ps <> [] -> joint cs ps = Err e ->
  exists c p, In c cs /\ In p ps /\ single c p = Err e.
Proof.
  destruct (cc_beam a) as [b|] eqn:Hb; [now apply (joint_error_b b)|]. intros Nc Np.
  rewrite no_beam_joint by auto. intros <-. destruct cs as [|c cs]; [congruence|]. destruct ps as [|p ps]; [congruence|].
  exists c, p. split; [now left|]. split; [now left|]. now apply no_beam_single.
Qed.

(** More load cases and more positions: no smaller. *)
Lemma joint_more cs ps cs' ps' u' : cs <> [] -> ps <> [] -> incl cs cs' -> incl ps ps' ->
  (forall c p, In c cs' -> In p ps' -> exists v, single c p = Ok v /\ fine v) -> joint cs' ps' = Ok u' ->
  exists u, joint cs ps = Ok u /\ nleb u u' = true.
Proof.
  intros Nc Np Ic Ip H E. destruct (joint_worst cs ps Nc Np) as (u & Eu & (c & p & Hc & Hp & Es) & _); [auto|].
  exists u. split; auto.
  assert (Nc' : cs' <> []) by (intros ->; now apply (Ic c)). assert (Np' : ps' <> []) by (intros ->; now apply (Ip p)).
  destruct (joint_worst cs' ps' Nc' Np' H) as (u2 & Eu2 & _ & T2). assert (u2 = u') by congruence. subst.
  apply (T2 c p); auto.
Qed.
End Parts.

Lemma worst_exact (qs : argsort_oracle R) (a : as4100 R) cs ps : cs <> [] -> ps <> [] ->
  (forall c p, In c cs -> In p ps -> exists v, single qs a c p = Ok v) ->
  exists u, joint qs a cs ps = Ok u /\ (exists c p, In c cs /\ In p ps /\ single qs a c p = Ok u) /\
    forall c p v, In c cs -> In p ps -> single qs a c p = Ok v -> (v <= u)%R.
Proof.
  intros Nc Np H. destruct (joint_worst real_order qs a cs ps Nc Np) as (u & Eu & Ex & Top).
  { intros c p Hc Hp. destruct (H c p Hc Hp) as (v & Ev). exists v. split; auto. reflexivity. }
  exists u. split; auto. split; auto. intros c p v Hc Hp Ev. apply Rleb_true. apply (Top c p); auto.
Qed.
