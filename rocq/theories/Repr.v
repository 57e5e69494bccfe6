(** Model of the printed forms ([__repr__], [__str__]) and what they tell apart. *)

From Coq Require Import ZArith Reals List Bool String Ascii Lia Decimal DecimalFacts DecimalNat DecimalString.
From Verif Require Import Base Num Numpy LoadCase Beam Material Symmetry.
Import ListNotations.
Open Scope string_scope.

(** * Model *)

(** What is left to Python: the texts of numbers, of parsed values other than strings and numbers, of a material [type]
    that is no MatType, of a section that is no Circle, of the array of loads and of a list of axes. *)
Record texts (T : Type) : Type := mk_texts {
  t_num : T -> string;
  t_val : tval T -> string;
  t_type : string;
  t_section : string;
  t_loads : list (lrow T) -> string;
  t_axes : list axis -> string }.
Arguments t_num {T}. Arguments t_val {T}. Arguments t_type {T}. Arguments t_section {T}.
Arguments t_loads {T}. Arguments t_axes {T}.

(** [f"{n}"] of an int that is not negative. *)
Definition nat_text (n : nat) : string := NilZero.string_of_uint (Nat.to_uint n).

Section Repr.
Context {T : Type} {NT : Num T} (tx : texts T).

(** [f"{x}"] of something that may be None. *)
Definition opt_text {A} (f : A -> string) (o : option A) : string :=
  match o with None => "None" | Some x => f x end.

Definition val_text (v : tval T) : string :=
  match v with TStr s => s | TNum x => t_num tx x | _ => t_val tx v end.

(** An Enum member prints as its class and name (const.py lines 17-19). *)
Definition type_text (t : option mat_type) : string :=
  match t with
  | Some Steel => "MatType.steel"
  | Some Concrete => "MatType.concrete"
  | None => t_type tx
  end.

(** materials/material.py lines 63-70. *)
Definition material_repr (m : material T) : string :=
  "Material(" ++ "type=" ++ type_text (mtype m) ++ ", " ++ "name=" ++ val_text (mname m) ++ ", "
  ++ "standard=" ++ val_text (mstandard m) ++ ")".

(** sections/circle.py lines 54-60; other sections print as any object does. *)
Definition section_repr (s : section T) : string :=
  match s with
  | SCircle radius mat =>
      "Circle(" ++ "radius=" ++ t_num tx radius ++ ", " ++ "material=" ++ opt_text material_repr mat ++ ")"
  | SOther => t_section tx
  end.

(** loadcase.py lines 560-561. *)
Definition load_case_repr (lc : lcase T) : string := "LoadCase(" ++ "loads=" ++ opt_text (t_loads tx) lc ++ ")".

(** element.py lines 202-210: line 207 prints the section again. *)
Definition element_repr (e : elem T (section T)) : string :=
  "Element(" ++ "length=" ++ opt_text (t_num tx) (elength e) ++ ", "
  ++ "section=" ++ opt_text section_repr (esection e) ++ ", "
  ++ "material=" ++ opt_text section_repr (esection e) ++ ", "
  ++ "no. load cases=" ++ nat_text (List.length (el_load_cases e)) ++ ")".

(** beam.py lines 146-168: [no_elements] and [no_load_cases]; lines 601-608. *)
Definition beam_repr {S} (b : beam_t T S) : res string :=
  let! len := beam_length b in
  let! cases := beam_load_cases b in
  Ok ("Beam(" ++ "length=" ++ t_num tx len ++ ", " ++ "no. elements=" ++ nat_text (List.length b) ++ ", "
      ++ "no. load cases=" ++ nat_text (List.length cases) ++ ")").

(** utility/symmetry.py lines 34-38; [__str__] gives the string of lines 58-71. *)
Definition symmetry_repr (s : symmetry_t) : string := "Symmetry(" ++ opt_text (t_axes tx) s ++ ")".
End Repr.

Definition symmetry_str (s : symmetry_t) : res string :=
  let! c := symmetry s in
  Ok (match c with SymNone => "None" | SymDouble => "Double" | SymPoint => "Point" | SymSingle => "Single" end).

(** * Facts *)

Fixpoint free (c : ascii) (s : string) : bool :=
  match s with EmptyString => true | String a r => negb (Ascii.eqb a c) && free c r end.

Lemma split_at c : forall a b s t, free c a = true -> free c b = true ->
  a ++ String c s = b ++ String c t -> a = b /\ s = t.
Proof.
  induction a as [|x a IH]; intros [|y b] s t Ha Hb E; cbn in *.
  - injection E as ->. auto.
  - injection E as -> E. rewrite Ascii.eqb_refl in Hb. discriminate.
  - injection E as -> E. rewrite Ascii.eqb_refl in Ha. discriminate.
  - apply andb_true_iff in Ha, Hb. destruct Ha as [_ Ha], Hb as [_ Hb]. injection E as -> E.
    destruct (IH b s t Ha Hb E) as [-> ->]. auto.
Qed.

Lemma cancel_l : forall a s t, a ++ s = a ++ t -> s = t.
Proof. induction a as [|x a IH]; intros s t E; cbn in E; auto. injection E as E. auto. Qed.

Lemma append_len : forall a b, String.length (a ++ b) = (String.length a + String.length b)%nat.
Proof. induction a as [|x a IH]; intros b; cbn; auto. Qed.

Lemma cancel_r s : forall a b, a ++ s = b ++ s -> a = b.
Proof.
  assert (G : forall a b, String.length a = String.length b -> a ++ s = b ++ s -> a = b).
  { induction a as [|x a IH]; intros [|y b] L E; cbn in *; try discriminate; auto.
    injection E as -> E. injection L as L. f_equal. auto. }
  intros a b E. apply G; auto. pose proof (f_equal String.length E) as L. rewrite !append_len in L. lia.
Qed.

Lemma nat_text_inj n m : nat_text n = nat_text m -> n = m.
Proof.
  unfold nat_text. intros E. apply (f_equal NilZero.uint_of_string) in E.
  assert (N : forall k, Nat.to_uint k <> Nil) by (intros k; rewrite <- (Unsigned.of_to k), Unsigned.to_of; apply unorm_nonnil).
  rewrite !NilZero.usu in E by apply N. injection E as E. now apply Unsigned.to_uint_inj.
Qed.

Lemma nat_text_free n : free "," (nat_text n) = true.
Proof.
  unfold nat_text, NilZero.string_of_uint.
  assert (G : forall u, free "," (NilEmpty.string_of_uint u) = true) by (induction u; cbn; auto).
  destruct (Nat.to_uint n); try apply G; reflexivity.
Qed.

Section R.
Context {T : Type} {NT : Num T} (tx : texts T).

(** Beams. *)
Definition known {S} (b : beam_t T S) : Prop := Forall (fun e => exists l, elength e = Some l) b.

Lemma sum_known {S} (b : beam_t T S) : forall acc, known b -> exists l, sum_lengths acc b = Ok l.
Proof.
  induction b as [|e b IH]; intros acc K; cbn; [eauto|]. inversion K as [|? ? (l & El) K']; subst.
  rewrite El. cbn. now apply IH.
Qed.

Lemma sum_unknown {S} (b : beam_t T S) : forall acc, ~ known b -> sum_lengths acc b = Err TypeError.
Proof.
  induction b as [|e b IH]; intros acc K; cbn; [destruct K; constructor|].
  destruct (elength e) as [l|] eqn:El; cbn; [|reflexivity]. apply IH. intros K'. apply K. constructor; eauto.
Qed.

Lemma known_dec {S} (b : beam_t T S) : known b \/ ~ known b.
Proof.
  induction b as [|e b IH]; [left; constructor|]. destruct (elength e) as [l|] eqn:El.
  - destruct IH as [K|K]; [left; constructor; eauto|]. right. intros K'. inversion K'; auto.
  - right. intros K. inversion K as [|? ? (l & E) _]; subst. congruence.
Qed.

Lemma beam_prints {S} (b : beam_t T S) : b <> [] -> ((exists s, beam_repr tx b = Ok s) <-> known b) /\
  (~ known b -> beam_repr tx b = Err TypeError).
Proof.
  intros Nb. assert (U : ~ known b -> beam_repr tx b = Err TypeError).
  { intros K. unfold beam_repr, beam_length. now rewrite (sum_unknown b _ K). }
  split; auto. split.
  - intros (s & E). destruct (known_dec b) as [K|K]; auto. rewrite (U K) in E. discriminate.
  - intros K. unfold beam_repr, beam_length. destruct (sum_known b (nint 0) K) as (l & ->). cbn [bind].
    destruct b as [|e b]; [easy|]. cbn [beam_load_cases bind]. eauto.
Qed.

Lemma beam_text {S S'} (b : beam_t T S) (b' : beam_t T S') l l' cs cs' s s' :
  (forall x, free "," (t_num tx x) = true) ->
  beam_length b = Ok l -> beam_length b' = Ok l' -> beam_load_cases b = Ok cs -> beam_load_cases b' = Ok cs' ->
  beam_repr tx b = Ok s -> beam_repr tx b' = Ok s' ->
  (s = s' <-> t_num tx l = t_num tx l' /\ List.length b = List.length b' /\ List.length cs = List.length cs').
Proof.
  intros Hf El El' Ec Ec' E E'. unfold beam_repr in *. rewrite El, Ec in E. rewrite El', Ec' in E'. cbn [bind] in *.
  assert (I : forall x y : string, Ok x = Ok y -> x = y) by (intros; congruence).
  apply I in E, E'. subst s s'. split.
  - intros E. do 2 apply cancel_l in E.
    apply (split_at ",") in E; auto. destruct E as [E1 E]. split; auto. apply (cancel_l " "), cancel_l in E.
    apply (split_at ",") in E; auto using nat_text_free. destruct E as [E2 E]. apply nat_text_inj in E2. split; auto.
    apply (cancel_l " "), cancel_l, cancel_r in E. now apply nat_text_inj.
  - intros (-> & -> & ->). reflexivity.
Qed.

(** Circles. *)
Lemma circle_text r r' m m' : (forall x, free "," (t_num tx x) = true) ->
  (section_repr tx (SCircle r m) = section_repr tx (SCircle r' m') <->
   t_num tx r = t_num tx r' /\ opt_text (material_repr tx) m = opt_text (material_repr tx) m').
Proof.
  intros Hf. split.
  - intros E. unfold section_repr in E. do 2 apply cancel_l in E.
    apply (split_at ",") in E; auto. destruct E as [E1 E]. split; auto. now apply (cancel_l " "), cancel_l, cancel_r in E.
  - intros (E1 & E2). unfold section_repr. now rewrite E1, E2.
Qed.

(** Elements: the form with the material in its place. *)
Definition material_of (s : option (section T)) : option (material T) :=
  match s with Some (SCircle _ m) => m | _ => None end.
Definition labelled (e : elem T (section T)) (mat : string) : string :=
  "Element(length=" ++ opt_text (t_num tx) (elength e) ++ ", section=" ++ opt_text (section_repr tx) (esection e)
  ++ ", material=" ++ mat ++ ", no. load cases=" ++ nat_text (List.length (eloads e)) ++ ")".

Lemma element_labelled e : element_repr tx e = labelled e (opt_text (section_repr tx) (esection e)).
Proof. unfold element_repr, labelled, el_load_cases. now rewrite map_length. Qed.

Lemma labelled_inj e m m' : labelled e m = labelled e m' -> m = m'.
Proof. unfold labelled. intros E. do 5 apply cancel_l in E. now apply cancel_r in E. Qed.

Lemma element_wrong e r m : esection e = Some (SCircle r m) ->
  element_repr tx e <> labelled e (opt_text (material_repr tx) (material_of (esection e))).
Proof.
  intros Es E. rewrite element_labelled in E. apply labelled_inj in E. rewrite Es in E. cbn in E.
  destruct m as [m|]; cbn in E; discriminate.
Qed.

Lemma element_right e : esection e = None ->
  element_repr tx e = labelled e (opt_text (material_repr tx) (material_of (esection e))).
Proof. intros Es. rewrite element_labelled, Es. reflexivity. Qed.
End R.

(** Symmetry. *)
Lemma str_class s s' t t' : symmetry_str s = Ok t -> symmetry_str s' = Ok t' -> (t = t' <-> symmetry s = symmetry s').
Proof.
  unfold symmetry_str. destruct (symmetry s) as [c|], (symmetry s') as [c'|]; try discriminate. cbn [bind].
  intros [= <-] [= <-]. destruct c, c'; split; intros E; (reflexivity || discriminate E).
Qed.

Lemma str_double s : symmetry_str s = symmetry_str (Some [AxStr "x"; AxStr "y"]) <->
  s = Some [AxStr "x"; AxStr "y"] \/ s = Some [AxStr "y"; AxStr "x"].
Proof.
  change (symmetry_str (Some [AxStr "x"; AxStr "y"])) with (Ok "Double"). split.
  - unfold symmetry_str, symmetry. destruct s as [l|]; [|discriminate].
    destruct (Nat.eqb (List.length l) 0); [discriminate|].
    destruct (Nat.eqb (List.length l) 2 && axis_in "x" l && axis_in "y" l) eqn:D.
    + intros _. apply andb_true_iff in D. destruct D as [D Y]. apply andb_true_iff in D. destruct D as [L X].
      apply Nat.eqb_eq in L. destruct l as [|a [|b [|? ?]]]; try discriminate. unfold axis_in in *. cbn in X, Y.
      rewrite orb_false_r in X, Y.
      assert (I : forall c d, axis_is c d = true -> d = AxStr c).
      { intros c [d|d] H; [|discriminate]. cbn in H. apply String.eqb_eq in H. now subst. }
      apply orb_true_iff in X, Y. destruct X as [X|X], Y as [Y|Y]; apply I in X, Y; subst; try discriminate; auto.
    + destruct (Nat.eqb (List.length l) 1); cbn [andb].
      * match goal with |- context [if ?c then _ else _] => destruct c end; discriminate.
      * discriminate.
  - intros [->| ->]; reflexivity.
Qed.
