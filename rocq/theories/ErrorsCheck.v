(** The exceptions of code checks on Python numbers. *)

From Coq Require Import ZArith Reals List Bool String Lia Floats.SpecFloat.
From Verif Require Import Base Num PyNum Numpy LoadCase LoadSpec Beam Material Solvers AS4100 AS4100Spec OrdFacts
  Exceptions ErrorSpec Errors ErrorsSecant FloatLocs.
Import ListNotations.
Open Scope Z_scope.

Notation project_error := (caught_by CBeamDesignError).

Lemma subclass_trans c d e : subclass c d -> subclass d e -> subclass c e.
Proof. induction 1 as [|c b d E _ IH]; auto. intros H. eapply sub_base; eauto. Qed.
Lemma beam_project e : beam_error e -> project_error e.
Proof. intros H. eapply subclass_trans; [exact H|]. eapply sub_base; [reflexivity|apply sub_same]. Qed.
Lemma only_weaken {A} (P Q : exn -> Prop) (m : res A) : (forall e, P e -> Q e) -> refuses_only P m -> refuses_only Q m.
Proof. intros H Hm e E. apply H. now apply Hm. Qed.

Definition or_value (e : exn) : Prop := project_error e \/ e = ValueError.
Lemma pe_thickness : project_error InvalidThicknessError. Proof. is_caught. Qed.
Lemma pe_imaterial : project_error InvalidMaterialError. Proof. is_caught. Qed.
Lemma pe_material : project_error MaterialError. Proof. is_caught. Qed.

(** ** Strengths *)
Lemma find_band_bound (x : pynum) ts : forall i j, find_band x ts i = Some j -> (i <= j < i + List.length ts)%nat.
Proof.
  induction ts as [|t ts IH]; intros i j; cbn [find_band List.length]; [discriminate|].
  destruct (nleb x t); [intros [= <-]; lia|]. intros H. apply IH in H. lia.
Qed.

Lemma nth_some {A} (l : list A) i : (i < List.length l)%nat -> exists a, nth_res l i = Ok a.
Proof. intros H. unfold nth_res. destruct (nth_error l i) eqn:E; [eauto|]. apply nth_error_None in E. lia. Qed.

Lemma strength_only (x : pynum) y ts fy fu : ts <> [] -> List.length fy = List.length ts -> List.length fu = List.length ts ->
  (exists k, strength_index y = Ok k /\ (k = 1 \/ k = 2)%nat) -> refuses_only project_error (get_f x y [ts; fy; fu]).
Proof.
  intros N Ly Lu (k & Ek & Hk). unfold get_f. cbn [nth_res nth_error bind]. destruct (nltb x _); [apply only_err, pe_thickness|].
  destruct (negb _); [apply only_err, pe_imaterial|].
  destruct (nth_some (rev ts) 0) as (big & ->); [rewrite rev_length; destruct ts; [congruence|cbn; lia]|]. cbn [bind].
  destruct (nltb big x); [apply only_err, pe_thickness|]. rewrite Ek. cbn [bind].
  destruct (find_band x ts 0) as [i|] eqn:Ef; [|apply only_err, pe_material]. apply find_band_bound in Ef.
  destruct Hk as [-> | ->]; cbn [nth_res nth_error bind].
  - destruct (nth_some fy i) as (v & ->); [lia|apply only_ok].
  - destruct (nth_some fu i) as (v & ->); [lia|apply only_ok].
Qed.

Lemma fy_only (s : as_section pynum) : rated (as_material s) -> refuses_only project_error (min_fy s) /\ refuses_only project_error (min_fu s).
Proof.
  intros (ts & fy & fu & E & N & Ly & Lu). unfold min_fy, min_fu, as_strengths. rewrite E. cbn [bind].
  split; apply strength_only; auto; eexists; (split; [reflexivity|]); auto.
Qed.

(** ** Sections of a beam *)
Section Check.
Variables (qs : argsort_oracle pynum) (phi au kt : pynum) (b : beam_t pynum (section pynum)) (s0 : option (section pynum)) (a : as4100 pynum).
Hypothesis Hq : any_argsort qs.
Hypothesis Ha : make_as4100 phi au kt (Some b) s0 = Ok a.
Hypothesis Hb : rated_bars b.

Lemma factory_rated l ss : (forall x, In x l -> exists r m, x = Some (SCircle r (Some m)) /\ rated m) -> mapM as_factory l = Ok ss ->
  Forall (fun s : as_section pynum => rated (as_material s)) ss.
Proof.
  intros H E. eapply mapM_forall; [exact E|]. intros x y Hx. destruct (H x Hx) as (r & m & -> & Rm). cbn [as_factory].
  destruct (mtype m) as [[]|]; try discriminate. intros [= <-]. exact Rm.
Qed.

Lemma made : cc_beam a = Some b /\ assessment_points a = 20 /\ List.length (cc_as_sections a) = List.length b /\
  Forall (fun s : as_section pynum => rated (as_material s)) (cc_as_sections a).
Proof.
  unfold make_as4100 in Ha. cbn [sections_of] in Ha. destruct (mapM as_factory (beam_sections b)) as [ss|] eqn:E; [|discriminate].
  cbn [bind] in Ha. injection Ha as <-. cbn. split; auto. split; auto. split.
  - apply mapM_length in E. rewrite E. apply map_length.
  - eapply factory_rated; [|exact E]. intros x Hx. apply in_map_iff in Hx. destruct Hx as (e & <- & He). apply (Hb e He).
Qed.

Lemma lengths : known_lengths b.
Proof. intros e He. destruct (Hb e He) as ((l & E & _) & _). eauto. Qed.

Lemma div_flt : forall x y : pynum, nisfloat (ndiv x y) = true. Proof. reflexivity. Qed.
Lemma lit_flt : nisfloat (nflt 0 1 : pynum) = true /\ nisfloat (nflt 1 1 : pynum) = true. Proof. split; reflexivity. Qed.
Lemma add_flt : forall x y : pynum, nisfloat x = true \/ nisfloat y = true -> nisfloat (nadd x y) = true.
Proof. intros [x|x] [y|y] [H|H]; try discriminate; reflexivity. Qed.

Lemma one_asked p : nisfloat p = true -> well_asked (T := pynum) (PosNum p) None.
Proof. intros H. split; [intros x [= <-]; exact H|discriminate]. Qed.

Lemma at_sections p : nisfloat p = true -> refuses_only project_error (sections_at a (PosNum p)) /\
  forall ss, sections_at a (PosNum p) = Ok ss -> Forall (fun s => rated (as_material s)) ss.
Proof.
  intros Fp. destruct made as (Eb & _ & L & R). unfold sections_at, get_as4100_section. rewrite Eb.
  destruct (list_only div_flt lit_flt add_flt b None (PosNum p) None lengths Logic.I (one_asked p Fp)) as (O & P).
  split.
  - apply only_bind; [|intros; apply only_ok]. apply only_bind; [eapply only_weaken; [apply beam_project|exact O]|].
    intros ls El. apply P in El. apply only_bind; [|intros; apply only_ok]. apply only_mapM. intros l Hl.
    rewrite Forall_forall in El. destruct (El l Hl) as (Hi & _). rewrite <- L in Hi. destruct (index_ok _ _ Hi) as (x & -> & _). apply only_ok.
  - intros ss. destruct (beam_list_positions b (PosNum p) None None) as [ls|] eqn:El; cbn [bind]; [|discriminate].
    match goal with |- context [bind (mapM ?f ls) _] => destruct (mapM f ls) as [xs|] eqn:E end; cbn [bind snd]; [|discriminate]. intros [= <-]. eapply mapM_forall; [exact E|].
    intros l x Hl Ex. pose proof (P ls eq_refl) as Pl. rewrite Forall_forall in Pl. destruct (Pl l Hl) as (Hi & _). rewrite <- L in Hi.
    destruct (index_ok _ _ Hi) as (x' & Ex' & Ix). rewrite Ex in Ex'. injection Ex' as <-. rewrite Forall_forall in R. auto.
Qed.

Lemma least_only (l : list pynum) : refuses_only or_value (list_min l).
Proof. destruct l; [apply only_err; now right|apply only_ok]. Qed.

Lemma capacity_only p : nisfloat p = true -> refuses_only or_value (tension_capacity a (PosNum p)).
Proof.
  intros Fp. destruct (at_sections p Fp) as (O & P).
  assert (W : forall e, project_error e -> or_value e) by (intros; now left).
  assert (N : refuses_only or_value (Nty a (PosNum p)) /\ refuses_only or_value (Ntu a (PosNum p))).
  { split; (apply only_bind; [eapply only_weaken; [exact W|exact O]|]); intros ss Es; apply P in Es; rewrite Forall_forall in Es;
      (apply only_bind; [|intros; apply least_only]); apply only_mapM; intros s Hs; (apply only_bind; [|intros; apply only_ok]);
      eapply only_weaken; try exact W; apply fy_only; auto. }
  unfold tension_capacity, phiNt. apply only_bind; [|intros; apply only_ok]. unfold Nt. apply only_bind; [apply N|]. intros y _.
  apply only_bind; [apply N|]. intros. apply only_ok.
Qed.

(** ** Tension at a position *)
Lemma single_set (p : pynum) : py_sorted (py_set [p]) = [p].
Proof. reflexivity. Qed.

Lemma zero_some (e : elem pynum (section pynum)) lc ls : zero_length_positions e lc = Ok ls -> ls <> [].
Proof.
  unfold zero_length_positions. destruct lc as [c|]; [|intros [= <-]; discriminate].
  destruct (el_load_positions e c) as [lp|]; cbn [bind]; [|discriminate]. destruct lp as [|p0 lp]; [discriminate|].
  assert (K : forall l x : list pynum, Ok l = Ok x -> l <> [] -> x <> []) by (intros l x [= <-]; auto).
  cbv zeta. intros E. apply (K _ _ E). destruct (negb _), (negb _); discriminate.
Qed.

Lemma locations_empty lc p ls : locations b lc [p] = Ok ls -> (ls = [] <-> in_elements b p = Ok []).
Proof.
  intros E. unfold locations in E. cbn [mapM] in E. destruct (in_elements_known b p lengths) as (is & Ei & G). rewrite Ei in *. cbn [bind] in E.
  destruct (mapM (locations_at b lc p) is) as [lls|] eqn:Em; [|discriminate]. cbn [bind concat] in E.
  injection E as <-. rewrite app_nil_r. destruct is as [|i is]; [cbn in Em; injection Em as <-; tauto|]. split; [|discriminate]. intros H. exfalso.
  cbn [mapM] in Em. destruct (locations_at b lc p i) as [l|] eqn:El; [|discriminate]. cbn [bind] in Em.
  destruct (mapM _ is); [|discriminate]. cbn [bind] in Em. injection Em as <-. cbn [concat] in H. apply app_eq_nil in H. destruct H as (-> & _).
  unfold locations_at in El. inversion G as [|i' is' Gi _]; subst. destruct (index_ok b i Gi) as (e & Ee & Ie). rewrite Ee in El. cbn [bind] in El.
  destruct (Hb e Ie) as ((len & Elen & _) & _). rewrite Elen in El. destruct (neqb len (nint 0)).
  - destruct (zero_length_positions e lc) as [zs|] eqn:Ez; cbn [bind] in El; [|discriminate]. apply zero_some in Ez.
    injection El as El. apply map_eq_nil in El. contradiction.
  - destruct (beam_to_local b p i); discriminate.
Qed.

Lemma accumulate_some qs' c comp locs : forall x out, accumulate qs' b c comp (Some x) locs = Ok out -> out <> None.
Proof.
  induction locs as [|[[p z] l] locs IH]; intros x out; cbn [accumulate]; [intros [= <-]; discriminate|].
  destruct (py_index b z) as [el|]; cbn [bind]; [|discriminate]. destruct (el_get_loads _ _ _ _ _ _) as [[v|]|]; cbn [bind]; try discriminate.
  destruct (vstack x _) as [y|]; cbn [bind]; [|discriminate]. apply IH.
Qed.
Lemma accumulate_first qs' c comp l locs out : accumulate qs' b c comp None (l :: locs) = Ok out -> out <> None.
Proof.
  destruct l as [[p z] l]. cbn [accumulate]. destruct (py_index b z) as [el|]; cbn [bind]; [|discriminate].
  destruct (el_get_loads _ _ _ _ _ _) as [[v|]|]; cbn [bind]; try discriminate. apply accumulate_some.
Qed.

Lemma utils_only c p : stored_tables b c -> nisfloat p = true -> refuses_only or_value (utils_at qs a c p).
Proof.
  intros Ht Fp. destruct made as (Eb & _ & L & _). unfold utils_at. apply only_bind; [now apply capacity_only|]. intros cap Ecap.
  assert (Pos : in_elements b p <> Ok []).
  { intros Emp. unfold tension_capacity, phiNt, Nt, Nty, sections_at, get_as4100_section in Ecap. rewrite Eb in Ecap.
    unfold beam_list_positions in Ecap. rewrite Fp, single_set in Ecap.
    destruct (check_on_beam b [p]) as [u|]; cbn [bind] in Ecap; [|discriminate].
    destruct (locations b None [p]) as [ls|] eqn:El; [|discriminate].
    pose proof (proj2 (locations_empty None p ls El) Emp) as ->. cbn in Ecap. discriminate. }
  assert (D : designates (CStr "N") [N]) by apply (d_name N).
  destruct (list_only div_flt lit_flt add_flt b (Some c) (PosNum p) None lengths Ht (one_asked p Fp)) as (O & P).
  unfold get_tension. rewrite Eb. unfold beam_get_loads.
  destruct (beam_list_positions b (PosNum p) None (Some c)) as [ls|e] eqn:El; cbn [bind].
  2: { intros e' [= <-]. left. apply beam_project. now apply O. }
  destruct (accumulate_total qs b c (CStr "N") [N] Hq D ltac:(discriminate) Ht ls (P ls eq_refl) None (Forall_nil _)) as (out & Eo & Fo).
  rewrite Eo. cbn [bind].
  assert (Nl : ls <> []).
  { intros ->. unfold beam_list_positions in El. rewrite Fp, single_set in El. destruct (check_on_beam b [p]); cbn [bind] in El; [|discriminate].
    apply Pos. now apply (locations_empty (Some c) p [] El). }
  destruct ls as [|l ls]; [congruence|]. pose proof (accumulate_first _ _ _ _ _ _ Eo) as No. destruct out as [rows|]; [|congruence].
  assert (Rows : exists ts, mapM (clip_row (existsb row_has_float rows)) rows = Ok ts /\ Forall (fun r => exists t, snd r = [Some t]) ts).
  { clear - Fo. generalize (existsb row_has_float rows) as fl. intros fl. induction Fo as [|[q r] rows (Wr & Nr) _ IH]; [exists []; auto|].
    destruct IH as (ts & E & F). cbn [mapM]. cbn [snd List.length] in Wr, Nr. destruct r as [|x [|y r]]; try discriminate.
    inversion Nr as [|x' r' Nx _]; subst. destruct x as [x|]; [|congruence]. unfold clip_row at 1. cbn [snd bind]. rewrite E. cbn [bind].
    eexists. split; [reflexivity|]. constructor; auto. cbn. eauto. }
  destruct Rows as (ts & -> & Ft). cbn [bind]. apply only_mapM. intros r Hr. rewrite Forall_forall in Ft. destruct (Ft r Hr) as (t & ->).
  eapply only_weaken; [|apply utilisation_only]. intros e ->. now right.
Qed.

(** ** The default positions are floats *)
Lemma ends_floats ends : element_ends b = Ok ends -> Forall (fun x => nisfloat x = true) (flatten_ends ends) /\
  Forall (fun se => nisfloat (fst se) = true) ends.
Proof.
  assert (K : forall es : list (elem pynum (section pynum)), incl es b -> forall p ends, nisfloat p = true -> ends_from (Some p) es = Ok ends ->
    Forall (fun x => nisfloat x = true) (flatten_ends ends) /\ Forall (fun se => nisfloat (fst se) = true) ends).
  { induction es as [|e es IH]; intros Ie p xs Fp; cbn [ends_from]; [intros [= <-]; split; constructor|].
    destruct (Hb e (Ie e (or_introl eq_refl))) as ((l & El & Fl) & _). rewrite El. cbn [add_opt bind].
    destruct (ends_from (Some (nadd p l)) es) as [rest|] eqn:Er; cbn [bind]; [|discriminate]. intros [= <-].
    assert (Fq : nisfloat (nadd p l) = true) by (apply add_flt; now left).
    destruct (IH (fun x Hx => Ie x (or_intror Hx)) _ _ Fq Er) as (A & B). cbn [flatten_ends flat_map snd fst app]. split; [|now constructor].
    constructor; auto. }
  enough (M : forall b', incl b' b -> element_ends b' = Ok ends -> Forall (fun x => nisfloat x = true) (flatten_ends ends) /\
    Forall (fun se => nisfloat (fst se) = true) ends) by (apply M, incl_refl).
  intros b' I. destruct b' as [|e b']; cbn [element_ends]; [intros [= <-]; split; constructor|].
  destruct (Hb e (I e (or_introl eq_refl))) as ((l & El & Fl) & _). rewrite El.
  destruct (ends_from (Some l) b') as [rest|] eqn:Er; cbn [bind]; [|discriminate]. intros [= <-].
  destruct (K b' (fun x Hx => I x (or_intror Hx)) l rest Fl Er) as (A & B). cbn [flatten_ends flat_map snd fst app].
  split; [|constructor; auto]. constructor; [reflexivity|]. constructor; auto.
Qed.

Lemma real_floats lc : forall es i ps, real_positions b lc i es = Ok ps -> Forall (fun x => nisfloat x = true) ps.
Proof.
  induction es as [|e es IH]; intros i ps; cbn [real_positions]; [intros [= <-]; constructor|].
  destruct (match lc with Some c => _ | None => _ end) as [ep|]; cbn [bind]; [|discriminate].
  destruct (mapM _ ep) as [rp|] eqn:Em; cbn [bind]; [|discriminate]. destruct (real_positions b lc (i + 1) es) as [rest|] eqn:Er; cbn [bind]; [|discriminate].
  intros [= <-]. apply Forall_app. split; [|now apply (IH (i + 1))]. eapply mapM_forall; [exact Em|]. intros x y _.
  unfold local_to_beam. destruct (_ || _); [discriminate|]. unfold element_start_end. destruct (element_ends b) as [ends|] eqn:Ee; cbn [bind]; [|discriminate].
  destruct (py_index ends i) as [se|] eqn:Ei; cbn [bind]; [|discriminate]. destruct (py_index b i) as [el|]; cbn [bind]; [|discriminate].
  destruct (elength el) as [len|]; [|discriminate]. intros [= <-]. apply add_flt. left. destruct (ends_floats ends Ee) as (_ & F).
  rewrite Forall_forall in F. apply F. clear - Ei. unfold py_index in Ei. destruct (_ || _); [discriminate|].
  destruct (nth_error ends _) eqn:En; [|discriminate]. injection Ei as <-. eapply nth_error_In; eauto.
Qed.

Lemma lin_floats t n lin : linspace (nflt 0 1) t n = Ok lin -> Forall (fun x : pynum => nisfloat x = true) lin.
Proof.
  unfold linspace. destruct (n <? 0); [discriminate|]. intros [= <-].
  assert (K : forall d l, Forall (fun x : pynum => nisfloat x = true) (map (lin_entry (nfloat (nflt 0 1)) d n) l)).
  { intros d l. apply Forall_map, Forall_forall. intros i _. unfold lin_entry. destruct (1 <? n); [destruct (neqb _ _)|]; apply add_flt; now right. }
  destruct (1 <? n); [|apply K]. apply Forall_app. split; [apply K|]. constructor; [reflexivity|constructor].
Qed.

Lemma default_floats lc locs : beam_list_positions b PosNone (Some 20) lc = Ok locs -> Forall (fun x => nisfloat x = true) (map (fun x => fst (fst x)) locs).
Proof.
  unfold beam_list_positions. destruct (beam_length b) as [t|]; cbn [bind]; [|discriminate].
  destruct (linspace (nflt 0 1) t 20) as [lin|] eqn:Elin; cbn [bind]; [|discriminate]. destruct (element_ends b) as [ends|] eqn:Ee; cbn [bind]; [|discriminate].
  destruct (real_positions b lc 0 b) as [real|] eqn:Er; cbn [bind]; [|discriminate]. intros El.
  apply Forall_forall. intros p Hp. apply in_map_iff in Hp. destruct Hp as ([[p' e] x] & <- & Hp). cbn [fst].
  apply (proj1 (locations_in b lc _ _ El p' e x)) in Hp. destruct Hp as (is & ts & Hp & _).
  apply (Permutation.Permutation_in _ (sort_perm _ _)) in Hp. apply set_update_incl in Hp. destruct Hp as [Hp|Hp].
  - apply py_set_incl in Hp. apply in_app_or in Hp. destruct Hp as [Hp|Hp].
    + destruct (ends_floats ends Ee) as (F & _). rewrite Forall_forall in F. auto.
    + pose proof (real_floats lc b 0 real Er) as F. rewrite Forall_forall in F. auto.
  - pose proof (lin_floats _ _ _ Elin) as F. rewrite Forall_forall in F. auto.
Qed.

(** ** The utilisation *)
Lemma loop_only ps cs : Forall (fun x => nisfloat x = true) ps -> (forall c, In c cs -> stored_tables b c) ->
  refuses_only or_value (util_loop qs a b (Some ps) cs).
Proof.
  intros Fp. induction cs as [|c cs IH]; intros Ht; cbn [util_loop bind]; [apply only_ok|]. rewrite Forall_forall in Fp.
  apply only_bind; [apply only_mapM; intros p Hp; apply utils_only; auto; apply Ht; now left|]. intros us _.
  apply only_bind; [apply IH; intros; apply Ht; now right|]. intros. apply only_ok.
Qed.

Lemma tension_only lc cs position : wanted b lc cs -> (forall c, In c cs -> stored_tables b c) -> float_positions position ->
  refuses_only or_value (tension_utilisation qs a lc position).
Proof.
  intros W Ht Fp. destruct made as (Eb & E20 & _). unfold tension_utilisation.
  assert (Els : (match lc with LCInt z => Ok [z] | LCList l => Ok l | LCNone => match cc_beam a with None => Err AttributeError | Some b => beam_load_cases b end end) = Ok cs).
  { destruct W as [z|l|l E]; auto. now rewrite Eb. }
  rewrite Els. cbn [bind].
  assert (Max : forall l : list pynum, refuses_only or_value (list_max l)) by (intros [|x l]; [apply only_err; now right|apply only_ok]).
  destruct position as [|x|l]; cbn [bind float_positions] in *; rewrite ?Fp; cbn [bind]; rewrite Eb.
  - apply only_bind; [|intros; apply Max]. destruct cs as [|c cs]; cbn [util_loop]; [apply only_ok|].
    assert (W20 : well_asked (T := pynum) PosNone (Some 20)) by (split; [discriminate|intros n [= <-]; lia]).
    destruct (list_only div_flt lit_flt add_flt b (Some c) PosNone (Some 20) lengths (Ht c (or_introl eq_refl)) W20) as (O & _).
    rewrite E20. destruct (beam_list_positions b PosNone (Some 20) (Some c)) as [locs|e] eqn:El; cbn [bind].
    2: { intros e' [= <-]. left. apply beam_project. now apply O. }
    apply default_floats in El. apply (loop_only _ (c :: cs) El Ht).
  - apply only_bind; [|intros; apply Max]. apply loop_only; auto.
  - apply only_bind; [|intros; apply Max]. apply loop_only; auto.
Qed.
End Check.
