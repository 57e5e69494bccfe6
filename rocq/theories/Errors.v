(** Which exceptions queries raise, for any arithmetic in which a quotient is a float. *)

From Coq Require Import ZArith List Bool Lia Permutation.
From Verif Require Import Base Num Numpy LoadCase LoadSpec Beam Material AS4100 OrdFacts Exceptions ErrorSpec.
Import ListNotations.
Open Scope Z_scope.

(** ** Combinators *)
Lemma only_ok {A} (P : exn -> Prop) (x : A) : refuses_only P (Ok x).
Proof. intros e H. discriminate. Qed.
Lemma only_err {A} (P : exn -> Prop) e : P e -> refuses_only P (Err (A := A) e).
Proof. intros H e' [= <-]. exact H. Qed.
Lemma only_bind {A B} (P : exn -> Prop) (m : res A) (f : A -> res B) : refuses_only P m ->
  (forall x, m = Ok x -> refuses_only P (f x)) -> refuses_only P (bind m f).
Proof. intros Hm Hf e. destruct m as [x|e']; cbn [bind]; [now apply Hf|]. intros [= ->]. now apply Hm. Qed.
Lemma only_mapM {A B} (P : exn -> Prop) (f : A -> res B) l : (forall x, In x l -> refuses_only P (f x)) -> refuses_only P (mapM f l).
Proof.
  induction l as [|x l IH]; intros H; cbn [mapM]; [apply only_ok|]. apply only_bind; [apply H; now left|]. intros y _.
  apply only_bind; [apply IH; intros; apply H; now right|]. intros. apply only_ok.
Qed.
Lemma mapM_forall {A B} (f : A -> res B) (Q : B -> Prop) l ys : mapM f l = Ok ys -> (forall x y, In x l -> f x = Ok y -> Q y) -> Forall Q ys.
Proof.
  revert ys. induction l as [|x l IH]; intros ys E H; cbn [mapM] in E; [injection E as <-; constructor|].
  destruct (f x) as [y|] eqn:Ex; [|discriminate]. cbn [bind] in E. destruct (mapM f l) as [ys'|]; [|discriminate]. injection E as <-.
  constructor; [apply (H x); auto; now left|]. apply IH; auto. intros; eapply H; eauto. now right.
Qed.
Lemma mapM_length {A B} (f : A -> res B) l ys : mapM f l = Ok ys -> List.length ys = List.length l.
Proof.
  revert ys. induction l as [|x l IH]; intros ys E; cbn [mapM] in E; [now injection E as <-|].
  destruct (f x); [|discriminate]. cbn [bind] in E. destruct (mapM f l) as [ys'|]; [|discriminate]. injection E as <-. cbn. now rewrite (IH ys').
Qed.
Lemma mapM_some {A B} (f : A -> res B) l : (forall x, In x l -> exists y, f x = Ok y) -> exists ys, mapM f l = Ok ys.
Proof.
  induction l as [|x l IH]; intros H; cbn [mapM]; [eauto|]. destruct (H x (or_introl eq_refl)) as (y & ->). cbn [bind].
  destruct IH as (ys & ->); [intros; apply H; now right|]. cbn. eauto.
Qed.

Lemma index_ok {A} (l : list A) i : 0 <= i < Z.of_nat (List.length l) -> exists a, py_index l i = Ok a /\ In a l.
Proof.
  intros H. unfold py_index. destruct (i <? 0) eqn:E; [apply Z.ltb_lt in E; lia|].
  replace ((i <? 0) || (Z.of_nat (List.length l) <=? i)) with false.
  - destruct (nth_error l (Z.to_nat i)) as [a|] eqn:En; [|apply nth_error_None in En; lia]. exists a. split; auto. eapply nth_error_In; eauto.
  - symmetry. apply orb_false_iff. split; auto. apply Z.leb_gt. lia.
Qed.

Notation beam_error := (caught_by CBeamError).
Ltac is_caught := unfold caught_by; cbn [class_of]; repeat (first [apply sub_same | eapply sub_base; [reflexivity|]]).

Lemma be_position : beam_error PositionNotInElementError. Proof. is_caught. Qed.
Lemma be_beam : beam_error PositionNotInBeamError. Proof. is_caught. Qed.
Lemma be_length : beam_error ElementLengthError. Proof. is_caught. Qed.
Lemma be_invalid : beam_error InvalidPositionError. Proof. is_caught. Qed.

Section Any.
Context {T : Type} {NT : Num T}.

(** ** Load tables *)
Lemma comps_ok a cs : designates a cs -> components a = Ok cs.
Proof.
  intros H. destruct H as [|c|c|c|cs]; cbn [components]; auto.
  - now destruct c.
  - now destruct c.
  - induction cs as [|c cs IH]; cbn [map mapM bind]; auto. now rewrite IH.
Qed.

Lemma interp1_ok x (samples : list (T * T)) l r : samples <> [] -> exists y, interp1 x samples l r = Ok y.
Proof.
  intros H. unfold interp1. destruct samples as [|[a b] s]; [congruence|]. cbn [map]. destruct (nltb _ _); eauto.
Qed.
Lemma np_interp_ok xs (xp fp : list T) l r : xp <> [] -> List.length xp = List.length fp ->
  exists ys, np_interp xs xp fp l r = Ok ys /\ List.length ys = List.length xs.
Proof.
  intros H E. unfold np_interp. rewrite E, Nat.eqb_refl.
  destruct (mapM_some (fun x => interp1 x (combine xp fp) l r) xs) as (ys & Ey).
  - intros x _. apply interp1_ok. destruct xp; [congruence|]. destruct fp; [discriminate|]. discriminate.
  - exists ys. split; auto. now apply mapM_length in Ey.
Qed.

Lemma transpose_width n (cols : list (list T)) : Forall (fun r => List.length r = List.length cols) (transpose n cols).
Proof.
  revert cols. induction n as [|n IH]; intros cols; cbn [transpose]; constructor; [now rewrite map_length|].
  eapply Forall_impl; [|apply IH]. intros r. cbn. now rewrite map_length.
Qed.

(** A row of as many cells as there are components, none of them None. *)
Definition full (cs : list comp) (o : orow T) : Prop := List.length (snd o) = List.length cs /\ Forall (fun c => c <> None) (snd o).
Lemma full_float cs o : full cs o -> full cs (orow_float o).
Proof.
  intros (L & F). unfold full, orow_float. cbn [snd]. rewrite map_length. split; auto. apply Forall_map.
  eapply Forall_impl; [|exact F]. intros [x|] H; [discriminate|congruence].
Qed.
Lemma full_some cs (p : T) vs : List.length vs = List.length cs -> full cs (p, map Some vs).
Proof. intros L. split; cbn [snd]; [now rewrite map_length|]. apply Forall_map, Forall_forall. intros. discriminate. Qed.

Lemma table_answer qs (rows : list (lrow T)) x a cs : any_argsort qs -> rows <> [] -> designates a cs -> cs <> [] -> nisfloat x = true ->
  exists out, get_load qs (Some rows) (PosNum x) None a = Ok (Some out) /\
    Forall (full cs) out.
Proof.
  intros Hq Nr Hd Nc Fx. unfold get_load. cbn [list_positions]. rewrite Fx. cbn [bind]. rewrite (comps_ok a cs Hd). cbn [bind].
  assert (W : forall l : list (lrow T), Forall (full cs) (map (pick cs) l)).
  { intros l. apply Forall_map, Forall_forall. intros r _. unfold pick.
    rewrite <- (map_map (fun c => lcomp c r) Some). apply full_some. now rewrite map_length. }
  destruct (array_equal _ _); [eexists; split; [reflexivity|apply W]|].
  set (ps := py_sorted (py_set [x])).
  assert (Np : ps <> []) by (unfold ps; cbn; destruct (nltb x x); discriminate).
  set (dir := filter (fun p => py_in p (map lpos rows)) ps). set (int := filter (fun p => negb (py_in p (map lpos rows))) ps).
  assert (Either : dir <> [] \/ int <> []).
  { destruct ps as [|p ps]; [congruence|]. unfold dir, int. cbn [filter]. destruct (py_in p (map lpos rows)); [left|right]; discriminate. }
  assert (Int : int = [] \/ exists out, multi_interp (XArr int) (map lpos rows) (Fp2 (map (fun c => map (lcomp c) rows) cs)) None None = Ok out /\
    Forall (full cs)
      (map (fun pv => (nfloat (fst pv), map Some (snd pv))) (combine int (transpose (List.length int) out)))).
  { destruct int as [|i int']; [now left|]. right. unfold multi_interp. destruct cs as [|c0 cs]; [congruence|].
    destruct (mapM_some (fun f => np_interp (i :: int') (map lpos rows) f None None) (map (fun c => map (lcomp c) rows) (c0 :: cs))) as (cols & E).
    { intros f Hf. apply in_map_iff in Hf. destruct Hf as (c & <- & _).
      destruct (np_interp_ok (i :: int') (map lpos rows) (map (lcomp c) rows) None None) as (ys & Ey & _); eauto.
      - destruct rows; [congruence|discriminate].
      - now rewrite !map_length. }
    exists cols. split; [exact E|]. apply mapM_length in E. rewrite map_length in E. apply Forall_map, Forall_forall. intros (p & v) Hv.
    cbn [fst snd]. apply full_some. apply in_combine_r in Hv. pose proof (transpose_width (List.length (i :: int')) cols) as Q.
    rewrite Forall_forall in Q. rewrite (Q v Hv). exact E. }
  destruct dir as [|d dir'].
  - destruct int as [|i int']; [destruct Either; congruence|]. destruct Int as [|(out & E & F)]; [discriminate|]. rewrite E. cbn [bind].
    eexists. split; [reflexivity|exact F].
  - destruct int as [|i int']; cbn [bind]; [eexists; split; [reflexivity|apply W]|].
    destruct Int as [|(out & E & F)]; [discriminate|]. rewrite E. cbn [bind]. eexists. split; [reflexivity|].
    apply Forall_map.
    set (dr := map orow_float (map (pick cs) (filter (fun r => py_in (lpos r) (d :: dir')) rows))).
    assert (Wd : Forall (full cs) dr).
    { apply Forall_map. eapply Forall_impl; [|apply W]. intros o Ho. now apply full_float. }
    apply Forall_forall. intros (k & o) Ho. cbn [snd]. apply (Permutation_in _ (OrdFacts.sort_perm _ _)) in Ho.
    apply (Permutation_in _ (proj1 (Hq _))) in Ho. apply in_app_or in Ho. destruct Ho as [Ho|Ho]; apply in_combine_r in Ho.
    + rewrite Forall_forall in Wd. apply (Wd o Ho).
    + rewrite Forall_forall in F. apply (F o Ho).
Qed.
End Any.

(** ** Beams *)
Section Beams.
Context {T : Type} {NT : Num T} {Sec : Type}.
Hypothesis div_float : forall x y : T, nisfloat (ndiv x y) = true.
Implicit Types (b : beam_t T Sec).

Lemma ends_from_known (es : list (elem T Sec)) : (forall e, In e es -> exists l, elength e = Some l) -> forall p,
  exists ends, ends_from (Some p) es = Ok ends /\ List.length ends = List.length es /\ Forall (fun se => snd se <> None) ends.
Proof.
  induction es as [|e es IH]; intros H p; cbn [ends_from]; [exists []; auto|].
  destruct (H e (or_introl eq_refl)) as (l & El). rewrite El. cbn [add_opt bind].
  destruct (IH (fun e' He => H e' (or_intror He)) (nadd p l)) as (ends & -> & L & F). cbn [bind].
  eexists. split; [reflexivity|]. split; [cbn; now rewrite L|]. constructor; auto. discriminate.
Qed.

Lemma ends_known b : known_lengths b -> exists ends, element_ends b = Ok ends /\ List.length ends = List.length b /\
  Forall (fun se => snd se <> None) ends.
Proof.
  intros H. destruct b as [|e b]; cbn [element_ends]; [exists []; auto|].
  destruct (H e (or_introl eq_refl)) as (l & El). rewrite El.
  destruct (ends_from_known b (fun e' He => H e' (or_intror He)) l) as (ends & -> & L & F). cbn [bind].
  eexists. split; [reflexivity|]. split; [cbn; now rewrite L|]. constructor; auto. discriminate.
Qed.

Lemma length_known b : known_lengths b -> exists t, beam_length b = Ok t.
Proof.
  unfold beam_length. generalize (nint 0 : T) as acc. induction b as [|e b IH]; intros acc H; cbn [sum_lengths]; [eauto|].
  destruct (H e (or_introl eq_refl)) as (l & El). rewrite El. cbn [add_opt bind]. apply IH. intros e' He. apply H. now right.
Qed.

Lemma in_ends_known p (ends : list (T * option T)) : Forall (fun se => snd se <> None) ends -> forall i,
  exists is, in_ends p i ends = Ok is /\ Forall (fun j => i <= j < i + Z.of_nat (List.length ends)) is.
Proof.
  induction ends as [|[s e] ends IH]; intros F i; cbn [in_ends]; [exists []; auto|].
  inversion F as [|x y N F']; subst. cbn [snd] in N. destruct e as [e|]; [|congruence].
  destruct (IH F' (i + 1)) as (is & -> & G).
  assert (G' : Forall (fun j => i <= j < i + Z.of_nat (S (List.length ends))) is) by (eapply Forall_impl; [|exact G]; cbn; intros; lia).
  destruct (nleb s p); cbn [bind]; [destruct (nleb p e)|]; eexists; (split; [reflexivity|]); cbn [List.length]; auto.
  constructor; auto. lia.
Qed.

Lemma in_elements_known b p : known_lengths b -> exists is, in_elements b p = Ok is /\ Forall (fun j => 0 <= j < Z.of_nat (List.length b)) is.
Proof.
  intros H. unfold in_elements. destruct (ends_known b H) as (ends & -> & L & F). cbn [bind].
  destruct (in_ends_known p ends F 0) as (is & -> & G). exists is. split; auto. now rewrite <- L.
Qed.

Lemma start_end_ok b i : known_lengths b -> 0 <= i < Z.of_nat (List.length b) -> exists se, element_start_end b i = Ok se.
Proof.
  intros H Hi. unfold element_start_end. destruct (ends_known b H) as (ends & -> & L & _). cbn [bind]. rewrite <- L in Hi.
  destruct (index_ok ends i Hi) as (se & E & _). eauto.
Qed.

Lemma local_only b p i : known_lengths b -> 0 <= i < Z.of_nat (List.length b) ->
  refuses_only beam_error (beam_to_local b p i) /\ forall x, beam_to_local b p i = Ok x -> nisfloat x = true.
Proof.
  intros H Hi. unfold beam_to_local. destruct (start_end_ok b i H Hi) as (se & ->). cbn [bind].
  destruct (index_ok b i Hi) as (e & -> & Ie). cbn [bind]. destruct (H e Ie) as (l & ->).
  destruct (nltb _ (nint 0)); [split; [apply only_err, be_position|discriminate]|].
  destruct (nltb l _); [split; [apply only_err, be_position|discriminate]|].
  destruct (neqb l _); [split; [apply only_err, be_length|discriminate]|].
  split; [apply only_ok|]. intros x [= <-]. apply div_float.
Qed.

Lemma global_only b p i : known_lengths b -> 0 <= i < Z.of_nat (List.length b) -> refuses_only beam_error (local_to_beam b p i).
Proof.
  intros H Hi. unfold local_to_beam. destruct (_ || _); [apply only_err, be_position|].
  destruct (start_end_ok b i H Hi) as (se & ->). cbn [bind]. destruct (index_ok b i Hi) as (e & -> & Ie). cbn [bind].
  destruct (H e Ie) as (l & ->). apply only_ok.
Qed.

Lemma stored_positions b c e : stored_tables b c -> In e b -> exists lp, el_load_positions e c = Ok lp /\ lp <> [] /\
  Forall (fun x => nisfloat x = true) lp.
Proof.
  intros H He. destruct (H e He) as (rows & E & N & F). unfold el_load_positions. rewrite E. cbn [bind load_positions].
  eexists. split; [reflexivity|]. split; [destruct rows; [congruence|discriminate]|]. now apply Forall_map.
Qed.

Lemma real_only b lc : known_lengths b -> tables_if_any b lc -> forall es i, incl es b -> 0 <= i ->
  i + Z.of_nat (List.length es) <= Z.of_nat (List.length b) -> refuses_only beam_error (real_positions b lc i es).
Proof.
  intros H Ht. induction es as [|e es IH]; intros i Hi P0 L; cbn [real_positions]; [apply only_ok|]. cbn [List.length] in L.
  apply only_bind.
  { destruct lc as [c|]; [|apply only_ok]. destruct (stored_positions b c e Ht (Hi e (or_introl eq_refl))) as (lp & -> & _). apply only_ok. }
  intros ep _. apply only_bind; [apply only_mapM; intros; apply global_only; auto; lia|]. intros rp _.
  apply only_bind; [apply IH; [intros x Hx; apply Hi; now right|lia|lia]|]. intros. apply only_ok.
Qed.

Hypothesis zero_float : nisfloat (nflt 0 1 : T) = true /\ nisfloat (nflt 1 1 : T) = true.
Hypothesis add_float : forall x y : T, nisfloat x = true \/ nisfloat y = true -> nisfloat (nadd x y) = true.

Lemma zero_length_only b lc e : tables_if_any b lc -> In e b -> exists ls, zero_length_positions e lc = Ok ls /\ Forall (fun x => nisfloat x = true) ls.
Proof.
  intros Ht He. unfold zero_length_positions. destruct lc as [c|]; [|eexists; split; [reflexivity|]; repeat constructor; apply zero_float].
  destruct (stored_positions b c e Ht He) as (lp & -> & N & F). cbn [bind]. destruct lp as [|p0 lp]; [congruence|].
  eexists. split; [reflexivity|].
  assert (F1 : Forall (fun x : T => nisfloat x = true) (if negb (neqb p0 (nint 0)) then map (nadd (nflt 0 1)) (p0 :: lp) else p0 :: lp)).
  { destruct (negb _); auto. apply Forall_map. eapply Forall_impl; [|exact F]. intros x Hx. apply add_float. now right. }
  destruct (negb (neqb (last _ _) _)); auto. apply Forall_map. eapply Forall_impl; [|exact F1]. intros x Hx. apply add_float. now left.
Qed.

Definition placed b (l : location T) : Prop := 0 <= snd (fst l) < Z.of_nat (List.length b) /\ nisfloat (snd l) = true.

Lemma at_only b lc p i : known_lengths b -> tables_if_any b lc -> 0 <= i < Z.of_nat (List.length b) ->
  refuses_only beam_error (locations_at b lc p i) /\ forall ls, locations_at b lc p i = Ok ls -> Forall (placed b) ls.
Proof.
  intros H Ht Hi. unfold locations_at. destruct (index_ok b i Hi) as (e & -> & Ie). cbn [bind]. destruct (H e Ie) as (l & ->).
  destruct (neqb l (nint 0)).
  - destruct (zero_length_only b lc e Ht Ie) as (ls & -> & F). cbn [bind]. split; [apply only_ok|]. intros ? [= <-].
    apply Forall_map. eapply Forall_impl; [|exact F]. intros x Hx. split; auto.
  - destruct (local_only b p i H Hi) as (O & V). split; [apply only_bind; auto; intros; apply only_ok|].
    intros ls. destruct (beam_to_local b p i) as [x|]; cbn [bind]; [|discriminate]. intros [= <-]. constructor; auto. split; cbn; auto.
Qed.

Lemma locations_only b lc ps : known_lengths b -> tables_if_any b lc ->
  refuses_only beam_error (locations b lc ps) /\ forall ls, locations b lc ps = Ok ls -> Forall (placed b) ls.
Proof.
  intros H Ht. unfold locations.
  assert (K : forall p, refuses_only beam_error (let! es := in_elements b p in let! ls := mapM (locations_at b lc p) es in Ok (concat ls)) /\
    forall ls, (let! es := in_elements b p in let! ls := mapM (locations_at b lc p) es in Ok (concat ls)) = Ok ls -> Forall (placed b) ls).
  { intros p. destruct (in_elements_known b p H) as (is & -> & G). cbn [bind]. rewrite Forall_forall in G. split.
    - apply only_bind; [|intros; apply only_ok]. apply only_mapM. intros i Hi. apply at_only; auto.
    - intros ls. destruct (mapM _ is) as [lls|] eqn:E; cbn [bind]; [|discriminate]. intros [= <-].
      apply Forall_concat. eapply mapM_forall; [exact E|]. intros i l Hi. apply at_only; auto. }
  split.
  - apply only_bind; [|intros; apply only_ok]. apply only_mapM. intros p _. apply K.
  - intros ls. destruct (mapM _ ps) as [lls|] eqn:E; cbn [bind]; [|discriminate]. intros [= <-].
    apply Forall_concat. eapply mapM_forall; [exact E|]. intros p l _. apply K.
Qed.

Lemma check_only b ps : known_lengths b -> refuses_only beam_error (check_on_beam b ps).
Proof.
  intros H. induction ps as [|p ps IH]; cbn [check_on_beam]; [apply only_ok|]. destruct (nltb p _); [apply only_err, be_beam|].
  destruct (length_known b H) as (t & ->). cbn [bind]. destruct (nltb t p); [apply only_err, be_beam|exact IH].
Qed.

Lemma list_only b lc position n : known_lengths b -> tables_if_any b lc -> well_asked position n ->
  refuses_only beam_error (beam_list_positions b position n lc) /\
  forall ls, beam_list_positions b position n lc = Ok ls -> Forall (placed b) ls.
Proof.
  intros H Ht (W1 & W2).
  assert (L : forall (m : res unit) ps, refuses_only beam_error m -> refuses_only beam_error (let! _ := m in locations b lc ps) /\
    forall ls, (let! _ := m in locations b lc ps) = Ok ls -> Forall (placed b) ls).
  { intros m ps Hm. split; [apply only_bind; auto; intros; apply locations_only; auto|].
    intros ls. destruct m; cbn [bind]; [|discriminate]. apply locations_only; auto. }
  unfold beam_list_positions. destruct position as [|x|l]; destruct n as [n|].
  - destruct (length_known b H) as (t & ->). cbn [bind].
    assert (Hl : exists lin, linspace (nflt 0 1) t n = Ok lin).
    { unfold linspace. specialize (W2 n eq_refl). destruct (n <? 0) eqn:E; [apply Z.ltb_lt in E; lia|eauto]. }
    destruct Hl as (lin & ->). cbn [bind]. destruct (ends_known b H) as (ends & -> & _). cbn [bind].
    pose proof (real_only b lc H Ht b 0 (incl_refl b) ltac:(lia) ltac:(lia)) as R.
    destruct (real_positions b lc 0 b) as [real|e]; cbn [bind]; [apply locations_only; auto|].
    split; [intros e' [= <-]; now apply R|discriminate].
  - split; [apply only_err, be_invalid|discriminate].
  - split; [apply only_err, be_invalid|discriminate].
  - rewrite (W1 x eq_refl). apply L. now apply check_only.
  - split; [apply only_err, be_invalid|discriminate].
  - apply L. now apply check_only.
Qed.

Lemma section_only b lc position n : known_lengths b -> tables_if_any b lc -> well_asked position n ->
  refuses_only beam_error (beam_get_section b position n lc).
Proof.
  intros H Ht W. destruct (list_only b lc position n H Ht W) as (O & P). unfold beam_get_section.
  apply only_bind; auto. intros ls El. apply P in El. apply only_bind; [|intros; apply only_ok]. apply only_mapM. intros l Hl.
  rewrite Forall_forall in El. destruct (index_ok b (snd (fst l)) (proj1 (El l Hl))) as (e & -> & _). cbn [bind]. apply only_ok.
Qed.

Lemma accumulate_total qs b c a cs : any_argsort qs -> designates a cs -> cs <> [] -> stored_tables b c -> forall locs, Forall (placed b) locs ->
  forall acc, Forall (full cs) (match acc with None => [] | Some x => x end) ->
  exists out, accumulate qs b c a acc locs = Ok out /\
    Forall (full cs) (match out with None => [] | Some x => x end).
Proof.
  intros Hq Hd Hc Ht. induction 1 as [|[[p z] x] locs (Hz & Hx) _ IH]; intros acc Ha; cbn [accumulate]; [eauto|].
  cbn [fst snd] in Hz, Hx. destruct (index_ok b z Hz) as (el & -> & Ie). cbn [bind]. unfold el_get_loads at 1.
  destruct (Ht el Ie) as (rows & -> & Nr & _). cbn [bind]. destruct (table_answer qs rows x a cs Hq Nr Hd Hc Hx) as (out & -> & W). cbn [bind]. cbv zeta.
  assert (W' : Forall (full cs) (set_position p out)).
  { unfold set_position. apply Forall_map. exact W. }
  destruct acc as [s|]; [|apply IH; exact W'].
  assert (V : exists s', vstack s (set_position p out) = Ok s' /\
     Forall (full cs) s').
  { assert (G : Forall (full cs) (s ++ set_position p out))
      by (apply Forall_app; auto).
    unfold vstack. destruct s as [|r1 s]; [eauto|]. destruct (set_position p out) as [|r2 s2]; [eauto|].
    rewrite (proj1 (Forall_inv Ha)), (proj1 (Forall_inv W')), Nat.eqb_refl. eexists. split; [reflexivity|].
    destruct (existsb row_has_none _); auto. destruct (existsb row_has_float _); auto.
    apply Forall_map. eapply Forall_impl; [|exact G]. intros o Ho. now apply full_float. }
  destruct V as (s' & -> & W2). cbn [bind]. apply IH. exact W2.
Qed.

Lemma loads_only qs b c a cs position n : any_argsort qs -> known_lengths b -> stored_tables b c -> designates a cs -> cs <> [] ->
  well_asked position n -> refuses_only beam_error (beam_get_loads qs b c position n a).
Proof.
  intros Hq H Ht Hd Hc W. destruct (list_only b (Some c) position n H Ht W) as (O & P). unfold beam_get_loads.
  apply only_bind; auto. intros ls El. apply P in El.
  destruct (accumulate_total qs b c a cs Hq Hd Hc Ht ls El None (Forall_nil _)) as (out & -> & _). apply only_ok.
Qed.
End Beams.
