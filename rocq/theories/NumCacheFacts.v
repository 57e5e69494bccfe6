(** The caches of NumCache.v do not change results, if equal keys have equal results. *)

From Coq Require Import ZArith List Bool Lia.
From Verif Require Import Base Num Symmetry NumFormulas NumS6 NumCache.
Import ListNotations.

Section Facts.
Context {T : Type} {NT : Num T}.
Variable pw : T -> T -> res T.
Variable same : T -> T -> bool.
Notation ncall := (@ncall T).

Definition ckind (c : ncall) : nat := match c with NRol _ _ _ _ _ => 0 | NFet _ _ _ _ _ _ _ _ _ _ _ => 1 | _ => 2 end.
Definition ckey (c : ncall) : nkey :=
  match c with
  | NRol o r_x r_y x_o y_o => (o, [r_x; r_y; x_o; y_o])
  | NFet o A l_ez r_x r_y x_o y_o J I_w E G => (o, [A; l_ez; r_x; r_y; x_o; y_o; J; I_w; E; G])
  | NFox o A_n l_ex l_ez r_x r_y x_o y_o J I_w E G => (o, [A_n; l_ex; l_ez; r_x; r_y; x_o; y_o; J; I_w; E; G])
  end.

(** The calls considered. *)
Variable K : ncall -> Prop.
Hypothesis K_fet : forall o A l_ez r_x r_y x_o y_o J I_w E G,
  K (NFet o A l_ez r_x r_y x_o y_o J I_w E G) -> K (NRol 0 r_x r_y x_o y_o).
Hypothesis K_fox : forall o A l_ex l_ez r_x r_y x_o y_o J I_w E G,
  K (NFox o A l_ex l_ez r_x r_y x_o y_o J I_w E G) ->
  K (NRol 0 r_x r_y x_o y_o) /\ K (NFet 0 A l_ez r_x r_y x_o y_o J I_w E G).
Hypothesis respects : forall c c', K c -> K c' -> ckind c = ckind c' ->
  nkey_eqb same (ckey c) (ckey c') = true -> uncached pw c = uncached pw c'.

Definition entry {V} (kind : nat) (wrap : V -> list T) (kv : nkey * V) : Prop :=
  exists c, K c /\ ckind c = kind /\ ckey c = fst kv /\ uncached pw c = Ok (wrap (snd kv)).
Definition single (v : T) : list T := [v].
Definition inv (s : ncaches) : Prop :=
  (forall kv, In kv (nc_rol s) -> entry 0 single kv) /\
  (forall kv, In kv (nc_fet s) -> entry 1 single kv) /\
  (forall kv, In kv (nc_fox s) -> entry 2 (fun v => v) kv).

Lemma inv_fresh : inv nfresh.
Proof. repeat split; intros kv []. Qed.

Lemma nfind_In {V} k (c : list (nkey * V)) v : nfind same k c = Some v ->
  exists k', In (k', v) c /\ nkey_eqb same k' k = true.
Proof.
  induction c as [|[k' v'] c IH]; [discriminate|]. cbn. destruct (nkey_eqb same k' k) eqn:E.
  - intros [= <-]. eauto.
  - intros H. destruct (IH H) as (k2 & I & E2). eauto.
Qed.

Lemma lru_ok {V} sel put wrap c (pure : res V) body :
  K c -> (forall v w : V, wrap v = wrap w -> v = w) ->
  (forall s kv, inv s -> In kv (sel s) -> entry (ckind c) wrap kv) ->
  (forall s cs, inv s -> (forall kv, In kv cs -> entry (ckind c) wrap kv) -> inv (put cs s)) ->
  uncached pw c = (let! v := pure in Ok (wrap v)) ->
  (forall s, inv s -> fst (body s) = pure /\ inv (snd (body s))) ->
  forall s, inv s -> fst (nlru same sel put (ckey c) body s) = pure /\ inv (snd (nlru same sel put (ckey c) body s)).
Proof.
  intros Kc Inj Hs Hp Hu Hb s Is. unfold nlru.
  destruct (nfind same (ckey c) (sel s)) as [v|] eqn:F.
  - destruct (nfind_In _ _ _ F) as (k' & I & Ek). cbn [fst snd].
    destruct (Hs s _ Is I) as (c' & Kc' & Kd & Ky & U). cbn [fst snd] in *.
    assert (E : uncached pw c = Ok (wrap v)).
    { rewrite <- U. symmetry. apply respects; auto. now rewrite Ky. }
    split.
    + rewrite Hu in E. destruct pure as [w|e]; cbn in E; [|discriminate]. f_equal. injection E as E. symmetry. now apply Inj.
    + apply Hp; [exact Is|]. intros kv [<-|J].
      * exists c. cbn [fst snd]. auto.
      * apply (Hs s); auto. unfold nwithout in J. apply filter_In in J. tauto.
  - destruct (Hb s Is) as (B1 & B2). destruct (body s) as [[v|e] s']; cbn [fst snd] in *.
    + split; [exact B1|]. apply Hp; [exact B2|]. intros kv J.
      assert (J' : In kv ((ckey c, v) :: sel s')).
      { rewrite <- (firstn_skipn 128). apply in_or_app. now left. }
      destruct J' as [<-|J']; [|now apply (Hs s')]. exists c. cbn [fst snd]. rewrite Hu, <- B1. auto.
    + auto.
Qed.

Lemma put_rol s cs : inv s -> (forall kv, In kv cs -> entry 0 single kv) -> inv (nput_rol cs s).
Proof. intros (A & B & C) H. repeat split; auto. Qed.
Lemma put_fet s cs : inv s -> (forall kv, In kv cs -> entry 1 single kv) -> inv (nput_fet cs s).
Proof. intros (A & B & C) H. repeat split; auto. Qed.
Lemma put_fox s cs : inv s -> (forall kv, In kv cs -> entry 2 (fun v => v) kv) -> inv (nput_fox cs s).
Proof. intros (A & B & C) H. repeat split; auto. Qed.
Lemma single_inj v w : single v = single w -> v = w.
Proof. now intros [=]. Qed.

Lemma rol_ok o r_x r_y x_o y_o s : K (NRol o r_x r_y x_o y_o) -> inv s ->
  fst (c_r_ol pw same o r_x r_y x_o y_o s) = nr_ol pw r_x r_y x_o y_o /\ inv (snd (c_r_ol pw same o r_x r_y x_o y_o s)).
Proof.
  intros Kc Is. apply (lru_ok nc_rol nput_rol single (NRol o r_x r_y x_o y_o)); auto using single_inj, put_rol.
  intros s0 kv (A & _) I. now apply A.
Qed.

Lemma nbind_ok {A B} (m : NM A) (f : A -> NM B) (r : res A) (g : A -> res B) s :
  fst (m s) = r /\ inv (snd (m s)) -> (forall a s', r = Ok a -> inv s' -> fst (f a s') = g a /\ inv (snd (f a s'))) ->
  fst (nbind m f s) = (let! a := r in g a) /\ inv (snd (nbind m f s)).
Proof.
  unfold nbind. intros (M1 & M2) F. destruct (m s) as [[a|e] s']; cbn [fst snd] in *; subst r; cbn [bind]; auto.
Qed.
Lemma nlift_ok {A} (r : res A) s : inv s -> fst (nlift r s) = r /\ inv (snd (nlift r s)).
Proof. now split. Qed.

Lemma fet_ok o A l_ez r_x r_y x_o y_o J I_w E G s : K (NFet o A l_ez r_x r_y x_o y_o J I_w E G) -> inv s ->
  fst (c_f_euler_torsion pw same o A l_ez r_x r_y x_o y_o J I_w E G s) = nf_euler_torsion pw A l_ez r_x r_y x_o y_o J I_w E G
  /\ inv (snd (c_f_euler_torsion pw same o A l_ez r_x r_y x_o y_o J I_w E G s)).
Proof.
  intros Kc Is. apply (lru_ok nc_fet nput_fet single (NFet o A l_ez r_x r_y x_o y_o J I_w E G)); auto using single_inj, put_fet.
  - intros s0 kv (_ & B & _) I. now apply B.
  - intros s0 I0. unfold nf_euler_torsion. apply nbind_ok; [apply rol_ok; eauto|]. intros r_o s' _ I'. now apply nlift_ok.
Qed.

Lemma fox_ok o A l_ex l_ez r_x r_y x_o y_o J I_w E G s : K (NFox o A l_ex l_ez r_x r_y x_o y_o J I_w E G) -> inv s ->
  fst (c_f_oxz pw same o A l_ex l_ez r_x r_y x_o y_o J I_w E G s) = nf_oxz pw A l_ex l_ez r_x r_y x_o y_o J I_w E G
  /\ inv (snd (c_f_oxz pw same o A l_ex l_ez r_x r_y x_o y_o J I_w E G s)).
Proof.
  intros Kc Is. apply (lru_ok nc_fox nput_fox (fun v => v) (NFox o A l_ex l_ez r_x r_y x_o y_o J I_w E G)); auto using put_fox.
  - intros s0 kv (_ & _ & C) I. now apply C.
  - cbn [uncached]. now destruct (nf_oxz _ _ _ _ _ _ _ _ _ _ _ _).
  - intros s0 I0. destruct (K_fox _ _ _ _ _ _ _ _ _ _ _ _ Kc) as [K1 K2]. unfold nf_oxz.
    apply nbind_ok; [apply rol_ok; auto|]. intros r_o s1 _ I1.
    match goal with |- _ = ?rhs /\ _ => replace rhs with
      (let! bf := (let! q := pydiv x_o r_o in let! q2 := pw q (nint 2) in
                   let! f_ox := nf_euler E l_ex r_x in Ok (nsub (nint 1) q2, f_ox)) in
       let! f_oz := nf_euler_torsion pw A l_ez r_x r_y x_o y_o J I_w E G in
       let '(beta, f_ox) := bf in
       let! h := pydiv (nint 1) (nmul (nint 2) beta) in
       let! s2 := pw (nadd f_ox f_oz) (nint 2) in
       let! rt := pw (nsub s2 (nmul (nmul (nmul (nint 4) beta) f_ox) f_oz)) (nflt 1 2) in
       Ok [beta; f_ox; f_oz; r_o; nmul h (nsub (nadd f_ox f_oz) rt)]) end.
    + apply nbind_ok; [now apply nlift_ok|]. intros bf s2 _ I2. apply nbind_ok; [now apply fet_ok|].
      intros f_oz s3 _ I3. now apply nlift_ok.
    + destruct (pydiv x_o r_o) as [q|]; [|reflexivity]. cbn [bind]. destruct (pw q (nint 2)) as [q2|]; [|reflexivity]. cbn [bind].
      destruct (nf_euler E l_ex r_x) as [f_ox|]; reflexivity.
Qed.

Lemma cached_ok c s : K c -> inv s -> fst (cached pw same c s) = uncached pw c /\ inv (snd (cached pw same c s)).
Proof.
  intros Kc Is. destruct c; cbn [cached uncached].
  - apply nbind_ok; [now apply rol_ok|]. intros a s' _ I'. now apply nlift_ok.
  - apply nbind_ok; [now apply fet_ok|]. intros a s' _ I'. now apply nlift_ok.
  - now apply fox_ok.
Qed.

(** Programs that make only such calls, whatever they are answered. *)
Inductive asks {A} : client A -> Prop :=
| asks_ret r : asks (CRet r)
| asks_call c k : K c -> (forall r, asks (k r)) -> asks (CAsk c k).

Lemma exec_ok {A} (p : client A) : asks p -> forall s, inv s ->
  fst (exec pw same p s) = plain pw p /\ inv (snd (exec pw same p s)).
Proof.
  induction 1 as [r|c k Kc _ IH]; intros s Is; cbn [exec plain]; [auto|].
  destruct (cached_ok c s Kc Is) as (E & I'). destruct (cached pw same c s) as [r s']; cbn [fst snd] in *. subst r. auto.
Qed.

(** The caches after a history of programs. *)
Definition after {A} (h : list (client A)) : ncaches := fold_left (fun s p => snd (exec pw same p s)) h nfresh.

Lemma after_inv {A} (h : list (client A)) : Forall asks h -> inv (after h).
Proof.
  intros F. unfold after. assert (I : inv nfresh) by apply inv_fresh. revert I. generalize (@nfresh T) as s.
  induction F as [|p h P F IH]; intros s I; cbn [fold_left]; [exact I|]. apply IH. now apply exec_ok.
Qed.

Theorem history_free {A B} (h : list (client A)) (p : client B) : Forall asks h -> asks p ->
  fst (exec pw same p (after h)) = plain pw p.
Proof. intros F P. apply exec_ok; [exact P|]. now apply after_inv. Qed.

Lemma asks_bind {A B} (p : client A) (f : A -> client B) : asks p -> (forall a, asks (f a)) -> asks (cbind p f).
Proof.
  intros P F. induction P as [[a|e]|c k Kc _ IH]; cbn [cbind]; [apply F|constructor|]. now constructor.
Qed.
Lemma asks_ask c : K c -> asks (ask c).
Proof. intros Kc. constructor; [exact Kc|]. constructor. Qed.
End Facts.

(** * Without caches these are the functions of NumS6.v *)
Section Plain.
Context {T : Type} {NT : Num T}.
Variable pw : T -> T -> res T.

Lemma plain_bind {A B} (p : client A) (f : A -> client B) : plain pw (cbind p f) = (let! a := plain pw p in plain pw (f a)).
Proof. induction p as [[a|e]|c k IH]; cbn [cbind plain bind]; auto. Qed.

Lemma plain_f_oc roots q l_ex l_ey l_ez sym : plain pw (q_f_oc pw roots q l_ex l_ey l_ez sym) = nf_oc pw roots q l_ex l_ey l_ez sym.
Proof.
  unfold q_f_oc, nf_oc. rewrite plain_bind. cbn [plain]. destruct (symmetry sym) as [[]|e]; [| | | |reflexivity]; cbn [bind].
  all: unfold q_f_oc_double, q_f_oc_single, q_f_oc_point, q_f_oc_unsym, nf_oc_double_symmetric, nf_oc_single_symmetric,
    nf_oc_point_symmetric, nf_oc_unsymmetric, ask, the.
  all: repeat (rewrite plain_bind; cbn [plain uncached bind]).
  all: repeat match goal with
    | |- (let! x := ?m in _) = (let! y := ?m in _) => destruct m; [cbn [bind nth]|reflexivity]
    | |- context [plain pw (cbind _ _)] => rewrite plain_bind; cbn [plain uncached bind]
    | |- context [let! x := (let! y := ?m in _) in _] => destruct m; [cbn [bind nth]|reflexivity]
    end; try reflexivity.
  all: repeat match goal with
    | |- context [match ?x with _ => _ end] => is_var x; destruct x; try reflexivity
    | |- context [if ?b then _ else _] => destruct b
    | |- context [plain pw (cbind _ _)] => rewrite plain_bind; cbn [plain uncached bind]
    end; try reflexivity.
Qed.

Lemma plain_Nc roots q l k_ex k_ey k_ez sym f_ref alpha_b uncertainty phi cb ct :
  plain pw (q_Nc pw roots q l k_ex k_ey k_ez sym f_ref alpha_b uncertainty phi cb ct)
  = ns6_1_1_Nc pw roots q l k_ex k_ey k_ez sym f_ref alpha_b uncertainty phi cb ct.
Proof.
  unfold q_Nc, ns6_1_1_Nc. destruct cb; [|reflexivity].
  rewrite plain_bind. cbn [plain]. destruct (ns6_3_3_N_c pw _ _ (ns6_3_2_l_e l k_ex) _ _ _ _) as [bx|e]; [|reflexivity].
  cbn [bind]. rewrite plain_bind. cbn [plain].
  destruct (ns6_3_3_N_c pw _ _ (ns6_3_2_l_e l k_ey) _ _ _ _) as [by_|e]; [|reflexivity].
  cbn [bind]. destruct ct; [|reflexivity]. rewrite plain_bind. unfold q_N_c_torsion, ns6_3_3_N_c_torsion.
  rewrite plain_bind, plain_f_oc. destruct (nf_oc pw _ _ _ _ _ _) as [f|e]; [|reflexivity]. cbn [bind plain].
  destruct (nn_cz_of pw _ _ _ _); reflexivity.
Qed.
End Plain.
