(** Examples and counterexamples for the exceptions of queries and checks. *)

From Coq Require Import ZArith Reals List Bool String Lia Floats.SpecFloat.
From Verif Require Import Base Num PyNum Numpy LoadCase LoadSpec Beam LoadProofs Material AS4100 AS4100Spec AS4100Cases
  Exceptions ErrorSpec Errors ErrorsSecant ErrorsCheck.
Import ListNotations.
Open Scope Z_scope.

(** Subclasses by computation: a chain of bases. *)
Lemma not_caught (c d : pyclass) : c <> d -> (forall b, base_class c = Some b -> ~ subclass b d) -> ~ subclass c d.
Proof. intros N H S. inversion S as [|c' b d' E S']; subst; [congruence|]. exact (H b E S'). Qed.
Ltac uncaught := unfold caught_by; cbn [class_of];
  repeat (apply not_caught; [discriminate|let b := fresh in let E := fresh in intros b E; cbn [base_class] in E; (discriminate E || injection E as <-)]).

Lemma type_uncaught : ~ caught_by CBeamDesignError TypeError. Proof. uncaught. Qed.
Lemma value_uncaught : ~ caught_by CBeamDesignError ValueError. Proof. uncaught. Qed.
Lemma assertion_uncaught : ~ caught_by CBeamDesignError AssertionError. Proof. uncaught. Qed.
Lemma key_uncaught : ~ caught_by CBeamDesignError KeyError. Proof. uncaught. Qed.
Lemma material_uncaught : ~ caught_by CBeamError InvalidMaterialError. Proof. uncaught. Qed.

(** ** Beams *)
Section Queries.
Context {Sec : Type}.

Lemma py_loads qs (b : beam_t pynum Sec) c a cs position n : any_argsort qs -> known_lengths b -> stored_tables b c -> designates a cs -> cs <> [] ->
  well_asked position n -> refuses_only beam_error (beam_get_loads qs b c position n a).
Proof. apply (loads_only div_flt lit_flt add_flt). Qed.
Lemma py_list (b : beam_t pynum Sec) lc position n : known_lengths b -> tables_if_any b lc -> well_asked position n ->
  refuses_only beam_error (beam_list_positions b position n lc).
Proof. intros H Ht W. exact (proj1 (list_only div_flt lit_flt add_flt b lc position n H Ht W)). Qed.
Lemma py_section (b : beam_t pynum Sec) lc position n : known_lengths b -> tables_if_any b lc -> well_asked position n ->
  refuses_only beam_error (beam_get_section b position n lc).
Proof. apply (section_only div_flt lit_flt add_flt). Qed.
Lemma py_local (b : beam_t pynum Sec) p i : known_lengths b -> 0 <= i < Z.of_nat (List.length b) ->
  refuses_only (fun e => e = PositionNotInElementError \/ e = ElementLengthError) (beam_to_local b p i).
Proof.
  intros H Hi e. unfold beam_to_local. destruct (start_end_ok b i H Hi) as (se & ->). cbn [bind]. cbv zeta.
  destruct (index_ok b i Hi) as (el & -> & Ie). cbn [bind]. destruct (H el Ie) as (l & ->).
  destruct (nltb _ (nint 0)); [intros [= <-]; auto|]. destruct (nltb l _); [intros [= <-]; auto|]. destruct (neqb _ _); [intros [= <-]; auto|discriminate].
Qed.
Lemma py_global (b : beam_t pynum Sec) p i : known_lengths b -> 0 <= i < Z.of_nat (List.length b) ->
  refuses_only (fun e => e = PositionNotInElementError) (local_to_beam b p i).
Proof.
  intros H Hi e. unfold local_to_beam. destruct (_ || _); [intros [= <-]; auto|].
  destruct (start_end_ok b i H Hi) as (se & ->). cbn [bind]. destruct (index_ok b i Hi) as (el & -> & Ie). cbn [bind].
  destruct (H el Ie) as (l & ->). discriminate.
Qed.

Lemma made_beam (inp : beam_input pynum Sec) : refuses_only (fun e => caught_by CElementError e) (beam inp).
Proof.
  assert (K : forall es : list (elem pynum Sec), refuses_only (caught_by CElementError) (check_elements es)).
  { intros [|e0 es]; unfold check_elements; [apply only_err; is_caught|]. destruct (negb _); [apply only_err; is_caught|].
    destruct (negb _); [apply only_err; is_caught|apply only_ok]. }
  destruct inp as [|e|l]; cbn [beam]; [apply only_err; is_caught|apply K|]. destruct (all_elements l); [apply K|apply only_err; is_caught].
Qed.
Lemma made_element (loads : list (Z * lcase pynum)) len (s : option Sec) : refuses_only (fun e => e = ElementLengthError) (element loads len s).
Proof. intros e. unfold element. destruct len as [l|]; [|discriminate]. destruct (nltb l _); [now intros [= <-]|discriminate]. Qed.
End Queries.

(** The bar of 3 m. *)
Definition good_bar := bar_beam (fl 3 1) (fl 10000 1).
Lemma bar_lengths n : known_lengths (bar_beam (fl 3 1) n).
Proof. intros e [<-|[]]. now exists (fl 3 1). Qed.
Lemma bar_tables n c : In c [1; 2] -> stored_tables (bar_beam (fl 3 1) n) c.
Proof.
  intros [<-|[<-|[]]] e [<-|[]].
  - exists calm. split; [reflexivity|]. split; [discriminate|]. repeat (constructor; [reflexivity|]). constructor.
  - exists (spike n). split; [reflexivity|]. split; [discriminate|]. repeat (constructor; [reflexivity|]). constructor.
Qed.
Lemma some_asked : well_asked (T := pynum) (PosNum (fl 4 1)) None /\ well_asked (T := pynum) PosNone (Some 5).
Proof. split; split; try discriminate; [intros x [= <-]; reflexivity|intros n [= <-]; lia]. Qed.
Lemma bar_queries :
  beam_list_positions good_bar (PosNum (fl 4 1)) None None = Err PositionNotInBeamError /\
  beam_list_positions good_bar PosNone None None = Err InvalidPositionError /\
  beam_to_local good_bar (fl 4 1) 0 = Err PositionNotInElementError /\
  local_to_beam good_bar (fl 2 1) 0 = Err PositionNotInElementError /\
  match beam_get_loads stable_argsort good_bar 2 PosNone (Some 5) (CStr "N") with Ok _ => True | Err _ => False end /\
  beam (S := section pynum) (BList [Some (mk_elem (Some (fl 3 1)) None [(1, None)]); Some (mk_elem (Some (fl 3 1)) None [(2, None)])]) = Err ElementCaseError.
Proof.
  do 4 (split; [vm_compute; reflexivity|]). split; [vm_compute; exact Logic.I|vm_compute; reflexivity].
Qed.

(** Refusals that no [except BeamDesignError] catches. *)
Lemma int_position : beam_list_positions good_bar (PosNum (PInt 1)) None None = Err TypeError. Proof. vm_compute. reflexivity. Qed.
Lemma negative_number : beam_list_positions good_bar PosNone (Some (-1)) None = Err ValueError. Proof. vm_compute. reflexivity. Qed.
Lemma unknown_case : beam_get_loads stable_argsort good_bar 3 (PosNum (fl 1 1)) None (CStr "N") = Err KeyError. Proof. vm_compute. reflexivity. Qed.
Lemma bar_is_beam n : beam (BElem (mk_elem (Some (fl 3 1)) (Some bar20) [(1, Some calm); (2, Some (spike n))])) = Ok (bar_beam (fl 3 1) n).
Proof. reflexivity. Qed.

Lemma queries_refuted :
  ~ (forall (inp : beam_input pynum (section pynum)) b position n lc, beam inp = Ok b ->
     refuses_only (fun e => caught_by CBeamDesignError e) (beam_list_positions b position n lc)).
Proof. intros H. apply type_uncaught. exact (H _ _ (PosNum (PInt 1)) None None (bar_is_beam (fl 10000 1)) _ int_position). Qed.
Lemma numbers_refuted :
  ~ (forall (inp : beam_input pynum (section pynum)) b n lc, beam inp = Ok b ->
     refuses_only (fun e => caught_by CBeamDesignError e) (beam_list_positions b PosNone (Some n) lc)).
Proof. intros H. apply value_uncaught. exact (H _ _ (-1) None (bar_is_beam (fl 10000 1)) _ negative_number). Qed.
Lemma cases_refuted :
  ~ (forall (inp : beam_input pynum (section pynum)) b c p, beam inp = Ok b -> nisfloat p = true ->
     refuses_only (fun e => caught_by CBeamDesignError e) (beam_get_loads stable_argsort b c (PosNum p) None (CStr "N"))).
Proof. intros H. apply key_uncaught. exact (H _ _ 3 (fl 1 1) (bar_is_beam (fl 10000 1)) eq_refl _ unknown_case). Qed.
Lemma tables_refuted :
  ~ (forall inp : load_input pynum, refuses_only (fun e => caught_by CBeamDesignError e) (load_case inp)).
Proof.
  intros H. apply assertion_uncaught.
  refine (H (InRows [map (fun z => fl z 1) [1; 0; 0; 0; 0; 0; 0]; map (fun z => fl z 1) [0; 0; 0; 0; 0; 0; 0]]) _ _). vm_compute. reflexivity.
Qed.

(** ** Checks *)
Definition round_section (s : option (section pynum)) : Prop := exists r m, s = Some (SCircle r (Some m)).
Lemma made_check phi au kt (b : option (beam_t pynum (section pynum))) s :
  (forall b', b = Some b' -> forall e, In e b' -> round_section (esection e)) -> (b = None -> s = None \/ round_section s) ->
  refuses_only (fun e => caught_by CCodeCheckError e) (make_as4100 phi au kt b s).
Proof.
  intros Hb Hs.
  assert (F : forall x, round_section x -> refuses_only (caught_by CCodeCheckError) (as_factory x)).
  { intros x (r & m & ->). cbn [as_factory]. destruct (mtype m) as [[]|]; first [apply only_ok|apply only_err; is_caught]. }
  assert (L : forall l, Forall round_section l -> refuses_only (caught_by CCodeCheckError) (let! ss := mapM as_factory l in Ok (mk_as4100 b s 20 ss phi au kt))).
  { intros l Hl. rewrite Forall_forall in Hl. apply only_bind; [|intros; apply only_ok]. apply only_mapM. intros x Hx. apply F. auto. }
  unfold make_as4100. destruct b as [b|].
  - apply L. cbn [sections_of]. apply Forall_forall. intros x Hx. apply in_map_iff in Hx. destruct Hx as (e & <- & He). now apply (Hb b).
  - destruct s as [s|]; [|apply only_err; is_caught]. apply L. destruct (Hs eq_refl) as [|R]; [discriminate|]. cbn [sections_of]. auto.
Qed.

Lemma rated_bar n : rated_bars (bar_beam (fl 3 1) n).
Proof.
  intros e [<-|[]]. split; [exists (fl 3 1); split; reflexivity|]. cbn [esection]. unfold bar20. destruct steel300 as [m|] eqn:E; [|vm_compute in E; discriminate E].
  exists (fl 1 100), m. split; [reflexivity|]. vm_compute in E. injection E as <-.
  eexists _, _, _. split; [vm_compute; reflexivity|]. split; [discriminate|]. split; reflexivity.
Qed.
Lemma tiny_refused : tension_utilisation stable_argsort (bar_check (fl 3 1) (fl 1 10000000000)) (LCInt 2) (PosNum (fl 3 2)) = Err ValueError.
Proof. vm_compute. reflexivity. Qed.
Lemma outside_refused : tension_utilisation stable_argsort (bar_check (fl 3 1) (fl 10000 1)) (LCList [1; 2]) (PosNum (fl 4 1)) = Err PositionNotInBeamError.
Proof. vm_compute. reflexivity. Qed.
Lemma check_refuted :
  ~ (forall (qs : argsort_oracle pynum) phi au kt b s a lc cs position, any_argsort qs -> make_as4100 phi au kt (Some b) s = Ok a -> b <> [] -> rated_bars b ->
     wanted b lc cs -> (forall c, In c cs -> stored_tables b c) -> float_positions position ->
     refuses_only (fun e => caught_by CBeamDesignError e) (tension_utilisation qs a lc position)).
Proof.
  intros H. apply value_uncaught.
  refine (H _ _ _ _ _ None _ (LCInt 2) [2] (PosNum (fl 3 2)) _ (bar_made (fl 3 1) (fl 1 10000000000)) _ (rated_bar _) _ _ _ _ tiny_refused).
  - apply stable_argsort_ok.
  - discriminate.
  - constructor.
  - intros c [<-|[]]. apply bar_tables. right; now left.
  - reflexivity.
Qed.
