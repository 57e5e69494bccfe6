(** Proofs about the strength look-up, the shipped steels and the material file. *)

From Coq Require Import ZArith Floats.SpecFloat Reals Lra Lia Bool List String Sorted.
From Verif Require Import Base Num RNum PyNum LoadCase Beam Material AS4100 LoadFacts LoadProofs.
Import ListNotations.

(** * The band search, on any ordered numbers *)
Section Bands.
Context {T : Type} {NT : Num T} {ok : T -> Prop} {NO : NumOrd T ok}.

Lemma find_band_some t ts : forall k i, find_band t ts k = Some i ->
  exists j b, i = (k + j)%nat /\ nth_error ts j = Some b /\ nleb t b = true /\
  forall j' b', (j' < j)%nat -> nth_error ts j' = Some b' -> nleb t b' = false.
Proof.
  induction ts as [|b ts IH]; intros k i H; cbn in H; [discriminate|].
  destruct (nleb t b) eqn:E.
  - injection H as <-. exists 0%nat, b. repeat split; auto. intros; lia.
  - apply IH in H. destruct H as (j & b0 & -> & N & L & P).
    exists (S j), b0. split; [lia|]. split; [exact N|]. split; auto.
    intros [|j'] b' Hj Hb.
    + injection Hb as <-. exact E.
    + apply (P j'); auto. lia.
Qed.

Lemma find_band_none t ts : forall k, find_band t ts k = None -> forall b, In b ts -> nleb t b = false.
Proof.
  induction ts as [|b ts IH]; intros k H b' Hb; [destruct Hb|]. cbn in H.
  destruct (nleb t b) eqn:E; [discriminate|]. destruct Hb as [<-|Hb]; eauto.
Qed.

Lemma last_rev (l : list T) d : l <> [] -> nth_res (rev l) 0 = Ok (last l d).
Proof.
  intros H. destruct (exists_last H) as (l' & a & ->). rewrite rev_app_distr, last_last. reflexivity.
Qed.

Lemma last_in (l : list T) d : l <> [] -> In (last l d) l.
Proof.
  intros H. destruct (exists_last H) as (l' & a & ->). rewrite last_last. apply in_or_app. right. left. auto.
Qed.

Definition band (t : T) (ts : list T) (i : nat) : Prop :=
  exists b, nth_error ts i = Some b /\ nleb t b = true /\
  forall j b', (j < i)%nat -> nth_error ts j = Some b' -> nleb t b' = false.

Lemma get_f_band t ts d : ts <> [] -> ok t -> Forall ok ts ->
  nltb t (nint 0) = false -> thick_sorted ts = true -> nleb t (last ts d) = true ->
  exists i, band t ts i /\ forall fys fus,
    (get_f t (YUStr "Y") [ts; fys; fus] = nth_res fys i /\ get_f t (YUStr "y") [ts; fys; fus] = nth_res fys i
     /\ get_f t (YUBool true) [ts; fys; fus] = nth_res fys i) /\
    (get_f t (YUStr "U") [ts; fys; fus] = nth_res fus i /\ get_f t (YUStr "u") [ts; fys; fus] = nth_res fus i
     /\ get_f t (YUBool false) [ts; fys; fus] = nth_res fus i).
Proof.
  intros N Ot Ots H0 Hs Hl.
  assert (Ol : ok (last ts d)) by (rewrite Forall_forall in Ots; apply Ots, last_in; auto).
  destruct (find_band t ts 0) as [i|] eqn:E.
  - destruct (find_band_some t ts 0 i E) as (j & b & -> & Hb & L & P). cbn [Nat.add] in *.
    exists j. split; [exists b; auto|]. intros fys fus.
    assert (G : forall y idx, strength_index y = Ok idx ->
      get_f t y [ts; fys; fus] = let! row := nth_res [ts; fys; fus] idx in nth_res row j).
    { intros y idx Hy. unfold get_f. change (nth_res [ts; fys; fus] 0) with (Ok ts). cbn [bind].
      rewrite H0, Hs. cbn [negb]. rewrite (last_rev ts d N). cbn [bind].
      rewrite (ord_lt _ _ Ol Ot), Hl. cbn [negb]. rewrite Hy. cbn [bind]. rewrite E. reflexivity. }
    repeat split; (erewrite G; [|reflexivity]); reflexivity.
  - exfalso. rewrite (find_band_none t ts 0 E (last ts d)) in Hl by (apply last_in; auto). discriminate.
Qed.

Lemma band_mono t t' ts i i' : ok t -> ok t' -> Forall ok ts -> nleb t t' = true ->
  band t ts i -> band t' ts i' -> (i <= i')%nat.
Proof.
  intros O1 O2 Os L (b & Hb & Lb & P) (b' & Hb' & Lb' & P').
  destruct (Nat.le_gt_cases i i') as [|G]; auto. exfalso.
  specialize (P i' b' G Hb'). rewrite (ord_trans t t' b') in P; auto; [discriminate|].
  rewrite Forall_forall in Os. apply Os. eapply nth_error_In; eauto.
Qed.

(** A strength table as the standards print them. *)
Record good_table (ts fys fus : list T) : Prop := {
  gt_nonempty : ts <> [];
  gt_sorted : thick_sorted ts = true;
  gt_ok : Forall ok ts;
  gt_fy : List.length fys = List.length ts;
  gt_fu : List.length fus = List.length ts;
  gt_le : forall i y u, nth_error fys i = Some y -> nth_error fus i = Some u -> nleb y u = true;
  gt_mono_y : forall i j a b, (i <= j)%nat -> nth_error fys i = Some a -> nth_error fys j = Some b -> nleb b a = true;
  gt_mono_u : forall i j a b, (i <= j)%nat -> nth_error fus i = Some a -> nth_error fus j = Some b -> nleb b a = true }.

Lemma nth_res_ok {A} (l : list A) i : (i < List.length l)%nat -> exists a, nth_error l i = Some a /\ nth_res l i = Ok a.
Proof.
  intros H. unfold nth_res. destruct (nth_error l i) eqn:E; eauto. apply nth_error_None in E. lia.
Qed.

Lemma good_lookup ts fys fus d t t' : good_table ts fys fus -> ok t -> ok t' ->
  nltb t (nint 0) = false -> nltb t' (nint 0) = false ->
  nleb t t' = true -> nleb t' (last ts d) = true ->
  exists fy fu fy' fu',
    get_f t (YUStr "Y") [ts; fys; fus] = Ok fy /\ get_f t (YUStr "U") [ts; fys; fus] = Ok fu /\
    get_f t' (YUStr "Y") [ts; fys; fus] = Ok fy' /\ get_f t' (YUStr "U") [ts; fys; fus] = Ok fu' /\
    nleb fy fu = true /\ nleb fy' fu' = true /\ nleb fy' fy = true /\ nleb fu' fu = true.
Proof.
  intros G O1 O2 P1 P2 L L'. pose proof (gt_ok _ _ _ G) as Os.
  assert (L1 : nleb t (last ts d) = true).
  { apply ord_trans with t'; auto. rewrite Forall_forall in Os. apply Os, last_in, (gt_nonempty _ _ _ G). }
  destruct (get_f_band t ts d (gt_nonempty _ _ _ G) O1 Os P1 (gt_sorted _ _ _ G) L1) as (i & B & F).
  destruct (get_f_band t' ts d (gt_nonempty _ _ _ G) O2 Os P2 (gt_sorted _ _ _ G) L') as (i' & B' & F').
  destruct (F fys fus) as [[-> _] [-> _]]. destruct (F' fys fus) as [[-> _] [-> _]].
  pose proof (band_mono t t' ts i i' O1 O2 Os L B B') as M.
  assert (K : (i' < List.length ts)%nat) by (destruct B' as (b & Hb & _); apply nth_error_Some; congruence).
  destruct (nth_res_ok fys i) as (fy & N1 & ->). { rewrite (gt_fy _ _ _ G). lia. }
  destruct (nth_res_ok fus i) as (fu & N2 & ->). { rewrite (gt_fu _ _ _ G). lia. }
  destruct (nth_res_ok fys i') as (fy' & N3 & ->). { rewrite (gt_fy _ _ _ G). lia. }
  destruct (nth_res_ok fus i') as (fu' & N4 & ->). { rewrite (gt_fu _ _ _ G). lia. }
  exists fy, fu, fy', fu'. repeat split; auto.
  - exact (gt_le _ _ _ G i fy fu N1 N2).
  - exact (gt_le _ _ _ G i' fy' fu' N3 N4).
  - exact (gt_mono_y _ _ _ G i i' fy fy' M N1 N3).
  - exact (gt_mono_u _ _ _ G i i' fu fu' M N2 N4).
Qed.

(** Executable form of the conditions. *)
Fixpoint noninc (l : list T) : bool :=
  match l with [] => true | a :: r => forallb (fun b => nleb b a) (a :: r) && noninc r end.
Lemma noninc_spec l : noninc l = true -> forall i j a b, (i <= j)%nat ->
  nth_error l i = Some a -> nth_error l j = Some b -> nleb b a = true.
Proof.
  induction l as [|c l IH]; intros H i j a b Hij Ha Hb; [destruct i; discriminate|].
  cbn [noninc] in H. apply andb_true_iff in H. destruct H as [H1 H2].
  destruct i as [|i].
  - injection Ha as ->. rewrite forallb_forall in H1. apply H1. eapply nth_error_In; eauto.
  - destruct j as [|j]; [lia|]. apply (IH H2 i j); auto. lia.
Qed.
Lemma pairs_spec (l m : list T) : forallb (fun p => nleb (fst p) (snd p)) (combine l m) = true ->
  forall i y u, nth_error l i = Some y -> nth_error m i = Some u -> nleb y u = true.
Proof.
  revert m. induction l as [|a l IH]; intros [|b m] H i y u Hy Hu; try (destruct i; discriminate).
  cbn in H. apply andb_true_iff in H. destruct H as [H1 H2]. destruct i as [|i].
  - cbn in Hy, Hu. now injection Hy as ->; injection Hu as ->.
  - apply (IH m H2 i); auto.
Qed.
Definition check_table (ts fys fus : list T) : bool :=
  match ts with [] => false | _ => true end && thick_sorted ts
  && Nat.eqb (List.length fys) (List.length ts) && Nat.eqb (List.length fus) (List.length ts)
  && forallb (fun p => nleb (fst p) (snd p)) (combine fys fus) && noninc fys && noninc fus.
Lemma check_table_good ts fys fus : check_table ts fys fus = true -> Forall ok ts -> good_table ts fys fus.
Proof.
  unfold check_table. intros H O. repeat (apply andb_true_iff in H; destruct H as [H ?]).
  constructor; auto.
  - destruct ts; discriminate.
  - now apply Nat.eqb_eq.
  - now apply Nat.eqb_eq.
  - now apply pairs_spec.
  - now apply noninc_spec.
  - now apply noninc_spec.
Qed.

(** Every table of the shipped file. *)
Definition tables : list (list (list T)) :=
  flat_map (fun e => match sget "strengths" (snd e) with Ok (TTable t) => [t] | _ => [] end) material_toml.

Lemma shipped_table name m tbl :
  load_material material_toml name = Ok m -> sget "strengths" (mprops m) = Ok (TTable tbl) ->
  In tbl tables.
Proof.
  intros H1 H2. unfold load_material in H1.
  match type of H1 with context [load_all ?f] =>
    let v := eval cbv [load_all mapM material_toml steel_entry load_entry spop bind fst snd make_material mat_type_of
      String.eqb Ascii.eqb Bool.eqb] in (load_all f) in
    change (load_all f) with v in H1 end.
  cbn [bind sget] in H1.
  repeat match type of H1 with
  | context [String.eqb name ?s] => destruct (String.eqb name s)
  end; try discriminate; injection H1 as <-; cbn in H2; try discriminate; injection H2 as <-; unfold tables; cbn; tauto.
Qed.
End Bands.

Open Scope R_scope.
Lemma mpa_R a b : nleb (mpa (T := R) a) (mpa b) = (a <=? b)%Z.
Proof.
  unfold mpa. cbn [nleb nflt RNum]. rewrite !mult_IZR.
  destruct (a <=? b)%Z eqn:E.
  - apply Z.leb_le, IZR_le in E. apply Rleb_true. lra.
  - apply Z.leb_gt, IZR_lt in E. apply Rleb_false. lra.
Qed.
Lemma mm_R a b : negb (nleb (nsub (mm (T := R) b) (mm a)) (nint 0)) = (a <? b)%Z.
Proof.
  unfold mm. cbn [nleb nflt nsub nint RNum].
  destruct (a <? b)%Z eqn:E.
  - apply Z.ltb_lt, IZR_lt in E. rewrite (proj2 (Rleb_false _ _)); [reflexivity|]. lra.
  - apply Z.ltb_ge, IZR_le in E. rewrite (proj2 (Rleb_true _ _)); [reflexivity|]. lra.
Qed.
Fixpoint zsorted (l : list Z) : bool :=
  match l with a :: ((b :: _) as r) => (a <? b)%Z && zsorted r | _ => true end.
Fixpoint znoninc (l : list Z) : bool :=
  match l with [] => true | a :: r => forallb (fun b => (b <=? a)%Z) (a :: r) && znoninc r end.
Lemma sorted_R l : thick_sorted (map (mm (T := R)) l) = zsorted l.
Proof.
  induction l as [|a [|b l] IH]; [reflexivity..|].
  change (thick_sorted (map mm (a :: b :: l))) with
    (negb (nleb (nsub (mm (T := R) b) (mm a)) (nint 0)) && thick_sorted (map (mm (T := R)) (b :: l))).
  rewrite IH, mm_R. reflexivity.
Qed.
Lemma noninc_R l : noninc (map (mpa (T := R)) l) = znoninc l.
Proof.
  induction l as [|a l IH]; [reflexivity|].
  change (noninc (map mpa (a :: l))) with
    (forallb (fun b => nleb b (mpa (T := R) a)) (map mpa (a :: l)) && noninc (map (mpa (T := R)) l)).
  rewrite IH. cbn [znoninc]. f_equal. generalize (a :: l). clear. intros l.
  induction l as [|b l IH]; [reflexivity|]. cbn [map forallb]. rewrite IH, mpa_R. reflexivity.
Qed.
Lemma pairs_R l : forall m, forallb (fun p => nleb (fst p) (snd p)) (combine (map (mpa (T := R)) l) (map mpa m)) =
  forallb (fun p => (fst p <=? snd p)%Z) (combine l m).
Proof.
  induction l as [|a l IH]; intros [|b m]; [reflexivity..|]. cbn [map combine forallb fst snd].
  rewrite IH, mpa_R. reflexivity.
Qed.
Definition zcheck (ts fys fus : list Z) : bool :=
  match ts with [] => false | _ => true end && zsorted ts
  && Nat.eqb (List.length fys) (List.length ts) && Nat.eqb (List.length fus) (List.length ts)
  && forallb (fun p => (fst p <=? snd p)%Z) (combine fys fus) && znoninc fys && znoninc fus.
Lemma check_R ts fys fus :
  check_table (map (mm (T := R)) ts) (map mpa fys) (map mpa fus) = zcheck ts fys fus.
Proof.
  unfold check_table, zcheck. rewrite sorted_R, !noninc_R, pairs_R, !map_length.
  destruct ts; reflexivity.
Qed.

Lemma tables_R : forall tbl, In tbl (tables (T := R)) -> exists ts fys fus,
  tbl = [map mm ts; map mpa fys; map mpa fus] /\ zcheck ts fys fus = true
  /\ forallb (Z.leb 0) fys = true /\ forallb (Z.leb 0) fus = true.
Proof.
  intros tbl H. unfold tables in H.
  cbn [flat_map material_toml snd steel_entry sget String.eqb Ascii.eqb Bool.eqb app] in H.
  repeat (destruct H as [<-|H]); [..|destruct H].
  all: do 3 eexists; split; [reflexivity|repeat split].
Qed.
Lemma tables_R_good tbl : In tbl (tables (T := R)) -> exists ts fys fus,
  tbl = [ts; fys; fus] /\ good_table (ok := Rok) ts fys fus.
Proof.
  intros H. destruct (tables_R tbl H) as (ts & fys & fus & -> & C & _). do 3 eexists. split; [reflexivity|].
  apply check_table_good; [now rewrite check_R|]. apply Forall_forall. intros; exact I.
Qed.

Definition Pokb (x : pynum) : bool :=
  match x with PFlt S754_nan => false | PFlt _ => true | PInt _ => false end.
Lemma Pokb_all l : forallb Pokb l = true -> Forall Pok l.
Proof.
  intros H. apply Forall_forall. intros x Hx. rewrite forallb_forall in H. specialize (H x Hx).
  destruct x as [|[]]; cbn in *; auto; discriminate.
Qed.
Lemma tables_P : forall tbl, In tbl (tables (T := pynum)) -> exists ts fys fus,
  tbl = [ts; fys; fus] /\ good_table (ok := Pok) ts fys fus.
Proof.
  intros tbl H. unfold tables in H.
  cbn [flat_map material_toml snd steel_entry sget String.eqb Ascii.eqb Bool.eqb app] in H.
  repeat (destruct H as [<-|H]); [..|destruct H].
  all: do 3 eexists; (split; [reflexivity|]); apply check_table_good;
    [vm_cast_no_check (eq_refl true)|apply Pokb_all; vm_cast_no_check (eq_refl true)].
Qed.

(** * C36 *)
Lemma sorted_iff (ts : list R) : thick_sorted ts = true <-> Sorted Rlt ts.
Proof.
  induction ts as [|a [|b ts] IH].
  - split; auto.
  - split; auto.
  - change (thick_sorted (a :: b :: ts)) with (negb (Rleb (b - a) 0) && thick_sorted (b :: ts)).
    rewrite andb_true_iff, IH, negb_true_iff, Rleb_false. split.
    + intros [H1 H2]. constructor; auto. constructor. lra.
    + intros H. inversion H as [|? ? H1 H2]; subst. inversion H2; subst. split; auto. lra.
Qed.

Lemma first_band (t : R) ts fys fus d : ts <> [] ->
  List.length fys = List.length ts -> List.length fus = List.length ts ->
  0 <= t -> Sorted Rlt ts -> t <= last ts d ->
  exists i b fy fu, nth_error ts i = Some b /\ nth_error fys i = Some fy /\ nth_error fus i = Some fu
  /\ t <= b /\ (forall j b', (j < i)%nat -> nth_error ts j = Some b' -> b' < t)
  /\ (forall y, In y [YUStr "Y"; YUStr "y"; YUBool true] -> get_f t y [ts; fys; fus] = Ok fy)
  /\ (forall y, In y [YUStr "U"; YUStr "u"; YUBool false] -> get_f t y [ts; fys; fus] = Ok fu).
Proof.
  intros N L1 L2 H0 Hs Hl.
  destruct (get_f_band (ok := Rok) t ts d N I) as (i & (b & Hb & Lb & P) & F).
  - apply Forall_forall. intros; exact I.
  - apply Rltb_false. exact H0.
  - now apply sorted_iff.
  - now apply Rleb_true.
  - assert (K : (i < List.length ts)%nat) by (apply nth_error_Some; congruence).
    destruct (nth_res_ok fys i) as (fy & N1 & E1); [lia|].
    destruct (nth_res_ok fus i) as (fu & N2 & E2); [lia|].
    exists i, b, fy, fu. repeat split; auto.
    + now apply Rleb_true.
    + intros j b' Hj Hb'. apply Rleb_false. exact (P j b' Hj Hb').
    + destruct (F fys fus) as [(A & B & C) _]. intros y [<-|[<-|[<-|[]]]]; congruence.
    + destruct (F fys fus) as [_ (A & B & C)]. intros y [<-|[<-|[<-|[]]]]; congruence.
Qed.

Lemma refusals (t : R) y ts fys fus d : ts <> [] ->
  (t < 0 -> get_f t y [ts; fys; fus] = Err InvalidThicknessError) /\
  (0 <= t -> ~ Sorted Rlt ts -> get_f t y [ts; fys; fus] = Err InvalidMaterialError) /\
  (0 <= t -> Sorted Rlt ts -> last ts d < t -> get_f t y [ts; fys; fus] = Err InvalidThicknessError).
Proof.
  intros N. unfold get_f. change (nth_res [ts; fys; fus] 0) with (Ok ts). cbn [bind nltb nint RNum].
  repeat split.
  - intros H. rewrite (proj2 (Rltb_true _ _)); auto.
  - intros H1 H2. rewrite (proj2 (Rltb_false _ _)) by auto.
    destruct (thick_sorted ts) eqn:E; auto. apply sorted_iff in E. contradiction.
  - intros H1 H2 H3. rewrite (proj2 (Rltb_false _ _)) by auto.
    apply sorted_iff in H2. rewrite H2. cbn [negb]. rewrite (last_rev ts d N). cbn [bind].
    rewrite (proj2 (Rltb_true _ _)); auto.
Qed.

(** * C37 *)
Lemma shipped_R name m tbl (t t' : R) :
  load_material material_toml name = Ok m -> sget "strengths" (mprops m) = Ok (TTable tbl) ->
  0 < t <= t' -> t' <= last (hd [] tbl) 0 ->
  exists fy fu fy' fu',
    get_f t (YUStr "Y") tbl = Ok fy /\ get_f t (YUStr "U") tbl = Ok fu /\
    get_f t' (YUStr "Y") tbl = Ok fy' /\ get_f t' (YUStr "U") tbl = Ok fu' /\
    fy <= fu /\ fy' <= fu' /\ fy' <= fy /\ fu' <= fu.
Proof.
  intros H1 H2 H3 H4. destruct (tables_R_good tbl (shipped_table name m tbl H1 H2)) as (ts & fys & fus & -> & G).
  destruct (good_lookup (ok := Rok) ts fys fus 0 t t' G I I) as (a & b & c & d & F).
  1-2: apply Rltb_false; cbn [nint RNum]; lra.
  1-2: apply Rleb_true; auto; lra.
  exists a, b, c, d. rewrite !Rleb_true in F. exact F.
Qed.

Lemma shipped_P name m tbl (t t' : pynum) :
  load_material material_toml name = Ok m -> sget "strengths" (mprops m) = Ok (TTable tbl) ->
  Pok t -> Pok t' ->
  nltb (nint 0) t = true -> nleb t t' = true -> nleb t' (last (hd [] tbl) (nint 0)) = true ->
  exists fy fu fy' fu',
    get_f t (YUStr "Y") tbl = Ok fy /\ get_f t (YUStr "U") tbl = Ok fu /\
    get_f t' (YUStr "Y") tbl = Ok fy' /\ get_f t' (YUStr "U") tbl = Ok fu' /\
    nleb fy fu = true /\ nleb fy' fu' = true /\ nleb fy' fy = true /\ nleb fu' fu = true.
Proof.
  intros H1 H2 O1 O2 P1 L1 L2.
  destruct (tables_P tbl (shipped_table name m tbl H1 H2)) as (ts & fys & fus & -> & G).
  assert (A : forall x, Pok x -> nleb t x = true -> nltb x (nint 0) = false).
  { intros x Ox L. cbn [nltb PNum nint nleb] in *. unfold py_ltb in *.
    destruct (py_leb (PInt 0) x) eqn:E; [now rewrite andb_false_r|].
    exfalso. apply andb_true_iff in P1. destruct P1 as [P0 P1].
    assert (Z : py_leb (PInt 0) x = py_leb (PFlt (S754_zero false)) x) by reflexivity.
    assert (Z' : py_leb (PInt 0) t = py_leb (PFlt (S754_zero false)) t) by reflexivity.
    rewrite Z in E. rewrite Z' in P0.
    pose proof (ord_trans (ok := Pok) (PFlt (S754_zero false)) t x I O1 Ox P0 L) as K.
    cbn [nleb PNum] in K. congruence. }
  assert (Lt : nleb t t = true) by (destruct (ord_total t t O1 O1); auto).
  destruct (good_lookup (ok := Pok) ts fys fus (nint 0) t t' G O1 O2) as (a & b & c & d & F); auto.
  exists a, b, c, d. exact F.
Qed.

(** * C38 *)
Lemma Nt_round_bar phi au kt (r : R) m a :
  make_as4100 phi au kt None (Some (SCircle r (Some m))) = Ok a ->
  forall tbl, sget "strengths" (mprops m) = Ok (TTable tbl) ->
  Nt a PosNone =
    let! fy := get_f (r * 2) (YUStr "Y") tbl in
    let! fu := get_f (r * 2) (YUStr "U") tbl in
    Ok (Rmin (PI * (r * r) * fy) (PI * (r * r) * fu * kt * au)).
Proof.
  unfold make_as4100. cbn [sections_of mapM as_factory].
  destruct (mtype m) as [[]|]; cbn [bind]; intros H tbl Hs; try discriminate.
  injection H as <-. unfold Nt, Nty, Ntu. cbn [sections_at cc_as_sections bind mapM k_t alpha_u].
  unfold min_fy, min_fu, as_strengths. cbn [as_material as_radius]. rewrite Hs. cbn [bind].
  change (nmul r (nint 2)) with (r * 2).
  destruct (get_f (r * 2) (YUStr "Y") tbl) as [fy|]; cbn [bind]; [|reflexivity].
  cbn [list_min fold_left].
  destruct (get_f (r * 2) (YUStr "U") tbl) as [fu|]; cbn [bind]; [|reflexivity].
  cbn [list_min fold_left bind]. f_equal. unfold pymin. cbn [nltb RNum].
  unfold s7_2_Nty, s7_2_Ntu, Ag, An, circle_area. cbn [as_radius nmul npi RNum].
  unfold Rltb, Rmin. destruct (Rlt_dec _ _), (Rle_dec _ _); auto; lra.
Qed.

Lemma mpa_pos l i (x : R) : forallb (Z.leb 0) l = true -> nth_error (map mpa l) i = Some x -> 0 <= x.
Proof.
  intros H E. apply nth_error_In in E. apply in_map_iff in E. destruct E as (z & <- & Hz).
  rewrite forallb_forall in H. specialize (H z Hz). apply Z.leb_le in H.
  unfold mpa. cbn [nflt RNum]. assert (0 <= IZR (z * 1000000)) by (apply IZR_le; lia). lra.
Qed.

Lemma same_band_stronger name m tbl (r1 r2 : R) phi au kt a1 a2 :
  load_material material_toml name = Ok m -> sget "strengths" (mprops m) = Ok (TTable tbl) ->
  0 <= au -> 0 <= kt -> 0 < r1 <= r2 -> r2 * 2 <= last (hd [] tbl) 0 ->
  (forall b, In b (hd [] tbl) -> b < r1 * 2 \/ r2 * 2 <= b) ->
  make_as4100 phi au kt None (Some (SCircle r1 (Some m))) = Ok a1 ->
  make_as4100 phi au kt None (Some (SCircle r2 (Some m))) = Ok a2 ->
  exists n1 n2, Nt a1 PosNone = Ok n1 /\ Nt a2 PosNone = Ok n2 /\ n1 <= n2.
Proof.
  intros H1 H2 Pa Pk Hr Hl Hb M1 M2.
  rewrite (Nt_round_bar _ _ _ _ _ _ M1 tbl H2), (Nt_round_bar _ _ _ _ _ _ M2 tbl H2).
  destruct (tables_R tbl (shipped_table name m tbl H1 H2)) as (zts & zy & zu & -> & C & Py & Pu).
  assert (G : good_table (ok := Rok) (map (mm (T := R)) zts) (map mpa zy) (map mpa zu)).
  { apply check_table_good; [now rewrite check_R|]. apply Forall_forall. intros; exact I. }
  cbn [hd] in *. set (ts := map (mm (T := R)) zts) in *.
  assert (Os : Forall Rok ts) by (apply Forall_forall; intros; exact I).
  destruct (get_f_band (ok := Rok) (r1 * 2) ts 0 (gt_nonempty _ _ _ G) I Os) as (i & B & F);
    [apply Rltb_false; cbn [nint RNum]; lra|apply G|apply Rleb_true; lra|].
  destruct (get_f_band (ok := Rok) (r2 * 2) ts 0 (gt_nonempty _ _ _ G) I Os) as (i' & B' & F');
    [apply Rltb_false; cbn [nint RNum]; lra|apply G|apply Rleb_true; lra|].
  assert (E : i' = i).
  { assert (i <= i')%nat.
    { apply (band_mono (ok := Rok) (r1 * 2) (r2 * 2) ts i i' I I Os); auto. apply Rleb_true. lra. }
    destruct (Nat.le_gt_cases i' i) as [|K]; [lia|]. exfalso.
    destruct B as (b & Nb & Lb & _). destruct B' as (b' & _ & _ & P').
    specialize (P' i b K Nb). apply Rleb_true in Lb. apply Rleb_false in P'.
    destruct (Hb b (nth_error_In _ _ Nb)); lra. }
  subst i'. destruct (F (map mpa zy) (map mpa zu)) as [[-> _] [-> _]].
  destruct (F' (map mpa zy) (map mpa zu)) as [[-> _] [-> _]].
  assert (K : (i < List.length ts)%nat) by (destruct B as (b & Nb & _); apply nth_error_Some; congruence).
  destruct (nth_res_ok (map (mpa (T := R)) zy) i) as (fy & N1 & ->). { rewrite (gt_fy _ _ _ G). lia. }
  destruct (nth_res_ok (map (mpa (T := R)) zu) i) as (fu & N2 & ->). { rewrite (gt_fu _ _ _ G). lia. }
  cbn [bind]. do 2 eexists. split; [reflexivity|]. split; [reflexivity|].
  pose proof (mpa_pos zy i fy Py N1) as Yp. pose proof (mpa_pos zu i fu Pu N2) as Up.
  assert (A : PI * (r1 * r1) <= PI * (r2 * r2)).
  { apply Rmult_le_compat_l; [left; apply PI_RGT_0|]. nra. }
  apply Rmin_glb.
  - eapply Rle_trans; [apply Rmin_l|]. apply Rmult_le_compat_r; auto.
  - eapply Rle_trans; [apply Rmin_r|]. repeat (apply Rmult_le_compat_r; auto).
Qed.

(** Grade 250 plate: bars of diameter 8 and 8.02 mm. *)
Definition tbl250 : list (list R) :=
  [map mm [8; 12; 20; 50; 80; 150; 200]%Z; map mpa [280; 260; 250; 250; 240; 230; 220]%Z;
   map mpa [410; 410; 410; 410; 410; 410; 400]%Z].
Lemma tbl250_f t y : 0 <= t <= 12 / 1000 ->
  get_f t y tbl250 =
    let! idx := strength_index y in
    let! row := nth_res tbl250 idx in nth_res row (if Rle_dec t (8 / 1000) then 0%nat else 1%nat).
Proof.
  intros H. unfold get_f. change (nth_res tbl250 0) with (Ok (map (mm (T := R)) [8; 12; 20; 50; 80; 150; 200]%Z)).
  cbn [bind nltb nint RNum]. rewrite (proj2 (Rltb_false t _)) by lra. rewrite sorted_R. cbn [zsorted Z.ltb Z.compare andb negb].
  change (negb _) with false. cbv iota.
  rewrite (last_rev _ 0) by discriminate. cbn [bind].
  change (last _ 0) with (mm (T := R) 200). unfold mm at 1. cbn [nflt RNum].
  rewrite (proj2 (Rltb_false _ t)) by lra.
  destruct (strength_index y); cbn [bind]; [|reflexivity].
  cbn [map find_band]. unfold mm at 1 2. cbn [nleb nflt RNum]. unfold Rleb.
  destruct (Rle_dec t (8 / 1000)); [reflexivity|].
  destruct (Rle_dec t (12 / 1000)); [reflexivity|lra].
Qed.

Lemma bigger_is_weaker : exists m a1 a2 n1 n2,
  load_material (T := R) material_toml "AS3678-2016-250" = Ok m
  /\ default_as4100 None (Some (SCircle (4 / 1000) (Some m))) = Ok a1
  /\ default_as4100 None (Some (SCircle (401 / 100000) (Some m))) = Ok a2
  /\ Nt a1 PosNone = Ok n1 /\ Nt a2 PosNone = Ok n2 /\ n2 < n1.
Proof.
  exists (mk_material (Some Steel) (TStr "250") (TStr "AS3678-2016")
    [("E", TNum (nflt 200000000000 1)); ("strengths", TTable tbl250)]%string).
  set (m := mk_material _ _ _ _).
  do 4 eexists. split; [reflexivity|]. split; [reflexivity|]. split; [reflexivity|].
  assert (Es : sget "strengths" (mprops m) = Ok (TTable tbl250)) by reflexivity.
  split; [eapply eq_trans; [apply (Nt_round_bar (nflt 90 100) (nflt 85 100) (nflt 100 100) _ m _ eq_refl tbl250 Es)|]|].
  { rewrite !tbl250_f by lra. destruct (Rle_dec (4 / 1000 * 2) (8 / 1000)); [|lra]. reflexivity. }
  split; [eapply eq_trans; [apply (Nt_round_bar (nflt 90 100) (nflt 85 100) (nflt 100 100) _ m _ eq_refl tbl250 Es)|]|].
  { rewrite !tbl250_f by lra. destruct (Rle_dec (401 / 100000 * 2) (8 / 1000)); [lra|]. reflexivity. }
  pose proof PI_RGT_0. unfold mpa. cbn [nflt RNum]. rewrite !mult_IZR.
  set (p := PI) in *. clearbody p.
  apply Rle_lt_trans with (p * (401 / 100000 * (401 / 100000)) * (260 * 1000000 / 1)); [apply Rmin_l|].
  apply Rmin_glb_lt; lra.
Qed.

(** * C39 *)
Section Files.
Context {T : Type} {NT : Num T}.
Local Open Scope string_scope.

Lemma load_all_keys (file : sdict (sdict (tval T))) d : load_all file = Ok d -> map fst d = load_list file.
Proof.
  revert d. induction file as [|[k v] file IH]; intros d H; cbn in H.
  - now injection H as <-.
  - destruct (load_entry v); cbn in H; [|discriminate].
    unfold load_all in IH. destruct (mapM _ file) as [d'|]; cbn in H; [|discriminate].
    injection H as <-. cbn. now rewrite (IH d' eq_refl).
Qed.

Lemma sget_in {V} (d : sdict V) k : In k (map fst d) <-> exists v, sget k d = Ok v.
Proof.
  induction d as [|[k' v'] d IH]; cbn.
  - split; [intros []|intros [v H]; discriminate].
  - destruct (String.eqb_spec k k') as [->|N].
    + split; eauto.
    + rewrite <- IH. split; [intros [H|H]; [congruence|auto]|auto].
Qed.
Lemma sget_unknown {V} (d : sdict V) k : ~ In k (map fst d) -> sget k d = Err KeyError.
Proof.
  induction d as [|[k' v'] d IH]; cbn; auto. intros H.
  destruct (String.eqb_spec k k') as [->|N]; [exfalso; auto|auto].
Qed.

Lemma load_all_entry (file : sdict (sdict (tval T))) d k v : NoDup (map fst file) ->
  load_all file = Ok d -> In (k, v) file -> exists m, load_entry v = Ok m /\ sget k d = Ok m.
Proof.
  revert d. induction file as [|[k' v'] file IH]; intros d ND H Hi; [destruct Hi|].
  inversion ND as [|? ? N1 N2]; subst. cbn in H.
  destruct (load_entry v') as [m'|] eqn:E; cbn in H; [|discriminate].
  unfold load_all in IH. destruct (mapM _ file) as [d'|] eqn:Ed; cbn in H; [|discriminate].
  injection H as <-. cbn [sget]. destruct Hi as [Hi|Hi].
  - injection Hi as <- <-. rewrite String.eqb_refl. eauto.
  - destruct (String.eqb_spec k k') as [->|Nk].
    + exfalso. apply N1. change k' with (fst (k', v)). now apply in_map.
    + now apply (IH d').
Qed.

Lemma spop_spec {V} k (d : sdict V) v r : spop k d = Ok (v, r) ->
  sget k d = Ok v /\ (forall k', k' <> k -> sget k' r = sget k' d) /\
  (NoDup (map fst d) -> NoDup (map fst r) /\ ~ In k (map fst r)) /\ incl (map fst r) (map fst d).
Proof.
  revert v r. induction d as [|[k0 v0] d IH]; intros v r H; cbn in H; [discriminate|].
  destruct (String.eqb_spec k k0) as [->|N].
  - injection H as -> ->. cbn. rewrite String.eqb_refl. split; auto. split.
    { intros k' Hk. destruct (String.eqb_spec k' k0); congruence. }
    split; [intros ND; now inversion ND|]. intros x Hx. now right.
  - destruct (spop k d) as [[v1 r1]|] eqn:E; cbn in H; [|discriminate].
    injection H as -> <-. destruct (IH v r1 eq_refl) as (A & B & C & D). cbn [sget map fst].
    destruct (String.eqb_spec k k0); [congruence|]. split; auto. split.
    { intros k' Hk. destruct (String.eqb k' k0); auto. }
    split.
    + intros ND. inversion ND as [|? ? N1 N2]; subst. destruct (C N2) as [C1 C2]. split.
      * constructor; auto.
      * cbn. intros [<-|Hi]; auto.
    + intros x [<-|Hx]; [now left|right; auto].
Qed.

Lemma load_entry_carries (v : sdict (tval T)) m : load_entry v = Ok m ->
  sget "name" v = Ok (mname m) /\ sget "standard" v = Ok (mstandard m)
  /\ (exists tv, sget "type" v = Ok tv /\ match tv with
        | TStr s => mtype m = Some Steel /\ s = "steel" \/ mtype m = Some Concrete /\ s = "concrete"
        | _ => mtype m = None end)
  /\ (forall k, k <> "type" -> k <> "name" -> k <> "standard" -> sget k (mprops m) = sget k v)
  /\ (NoDup (map fst v) -> forall k, In k ["type"; "name"; "standard"] -> sget k (mprops m) = Err KeyError).
Proof.
  unfold load_entry. intros H.
  destruct (spop "type" v) as [[tv r1]|] eqn:E1; cbn [bind fst snd] in H; [|discriminate].
  destruct (spop "name" r1) as [[nv r2]|] eqn:E2; cbn [bind fst snd] in H; [|discriminate].
  destruct (spop "standard" r2) as [[sv r3]|] eqn:E3; cbn [bind fst snd] in H; [|discriminate].
  destruct (spop_spec _ _ _ _ E1) as (A1 & B1 & C1 & D1).
  destruct (spop_spec _ _ _ _ E2) as (A2 & B2 & C2 & D2).
  destruct (spop_spec _ _ _ _ E3) as (A3 & B3 & C3 & D3).
  assert (M : mname m = nv /\ mstandard m = sv /\ mprops m = r3 /\ match tv with
        | TStr s => mtype m = Some Steel /\ s = "steel" \/ mtype m = Some Concrete /\ s = "concrete"
        | _ => mtype m = None end).
  { unfold make_material in H. destruct tv as [s| | |]; try (injection H as <-; auto).
    unfold mat_type_of in H. destruct (String.eqb_spec s "steel") as [->|]; cbn [bind] in H.
    { injection H as <-. cbn. auto 6. }
    destruct (String.eqb_spec s "concrete") as [->|]; cbn [bind] in H; [|discriminate].
    injection H as <-. cbn. auto 6. }
  destruct M as (-> & -> & -> & Mt).
  split. { rewrite <- B1 by discriminate. exact A2. }
  split. { rewrite <- B1 by discriminate. rewrite <- B2 by discriminate. exact A3. }
  split; [eauto|]. split.
  { intros k N1 N2 N3. now rewrite B3, B2, B1. }
  intros ND k Hk. destruct (C1 ND) as [ND1 I1]. destruct (C2 ND1) as [ND2 I2]. destruct (C3 ND2) as [ND3 I3].
  apply sget_unknown. destruct Hk as [<-|[<-|[<-|[]]]]; auto.
Qed.

Lemma spop_some {V} k (d : sdict V) v : sget k d = Ok v -> exists r, spop k d = Ok (v, r).
Proof.
  induction d as [|[k0 v0] d IH]; cbn; [discriminate|].
  destruct (String.eqb k k0); [intros [= ->]; eauto|]. intros H. destruct (IH H) as (r & ->). cbn. eauto.
Qed.

Lemma entry_type_ok (v : sdict (tval T)) s n st :
  sget "type" v = Ok (TStr s) -> sget "name" v = Ok n -> sget "standard" v = Ok st ->
  (s = "steel" \/ s = "concrete" -> exists m, load_entry v = Ok m) /\
  (s <> "steel" -> s <> "concrete" -> load_entry v = Err ValueError).
Proof.
  intros H1 H2 H3. unfold load_entry.
  destruct (spop_some _ _ _ H1) as (r1 & E1). rewrite E1. cbn [bind fst snd].
  destruct (spop_spec _ _ _ _ E1) as (A1 & B1 & _).
  rewrite <- B1 in H2 by discriminate. destruct (spop_some _ _ _ H2) as (r2 & E2). rewrite E2. cbn [bind fst snd].
  destruct (spop_spec _ _ _ _ E2) as (A2 & B2 & _).
  rewrite <- B1 in H3 by discriminate. rewrite <- B2 in H3 by discriminate.
  destruct (spop_some _ _ _ H3) as (r3 & E3). rewrite E3. cbn [bind fst snd make_material].
  unfold mat_type_of. split.
  - intros [-> | ->]; cbn; eauto.
  - intros N1 N2. destruct (String.eqb_spec s "steel"); [congruence|].
    destruct (String.eqb_spec s "concrete"); [congruence|]. reflexivity.
Qed.

Lemma unknown_type (file : sdict (sdict (tval T))) k v s :
  (forall k' v', In (k', v') file -> exists s' n st, sget "type" v' = Ok (TStr s') /\ sget "name" v' = Ok n /\ sget "standard" v' = Ok st) ->
  In (k, v) file -> sget "type" v = Ok (TStr s) -> s <> "steel" -> s <> "concrete" ->
  load_all file = Err ValueError.
Proof.
  induction file as [|[k' v'] file IH]; intros Hall Hi Ht N1 N2; [destruct Hi|].
  destruct (Hall k' v' (or_introl eq_refl)) as (s' & n & st & T1 & T2 & T3).
  destruct (entry_type_ok v' s' n st T1 T2 T3) as [G B]. cbn.
  assert (D : (s' = "steel" \/ s' = "concrete") \/ (s' <> "steel" /\ s' <> "concrete")).
  { destruct (String.eqb_spec s' "steel"); auto. destruct (String.eqb_spec s' "concrete"); auto. }
  destruct D as [D|[D1 D2]]; [|rewrite (B D1 D2); reflexivity].
  destruct (G D) as (m & ->). cbn. destruct Hi as [Hi|Hi].
  { injection Hi as <- <-. rewrite T1 in Ht. injection Ht as ->. tauto. }
  unfold load_all in IH. rewrite IH; auto. intros. apply Hall with k'0. now right.
Qed.

Lemma load_material_spec (file : sdict (sdict (tval T))) d : load_all file = Ok d ->
  map fst d = load_list file /\
  (forall k, load_material file k = sget k d) /\
  (forall k, ~ In k (load_list file) -> load_material file k = Err KeyError) /\
  (forall k, In k (load_list file) -> exists m, load_material file k = Ok m).
Proof.
  intros H. pose proof (load_all_keys file d H) as K. split; auto.
  assert (E : forall k, load_material file k = sget k d) by (intros; unfold load_material; now rewrite H).
  split; auto. split.
  - intros k N. rewrite E. apply sget_unknown. now rewrite K.
  - intros k N. rewrite E. apply sget_in. now rewrite K.
Qed.
Lemma material_carries (file : sdict (sdict (tval T))) d k v : NoDup (map fst file) ->
  load_all file = Ok d -> In (k, v) file ->
  exists m, load_material file k = Ok m
  /\ sget "name" v = Ok (mname m) /\ sget "standard" v = Ok (mstandard m)
  /\ (exists tv, sget "type" v = Ok tv /\ match tv with
        | TStr s => mtype m = Some Steel /\ s = "steel" \/ mtype m = Some Concrete /\ s = "concrete"
        | _ => mtype m = None end)
  /\ (forall k, k <> "type" -> k <> "name" -> k <> "standard" -> sget k (mprops m) = sget k v)
  /\ (NoDup (map fst v) -> forall k, In k ["type"; "name"; "standard"] -> sget k (mprops m) = Err KeyError).
Proof.
  intros ND H Hi. destruct (load_all_entry file d k v ND H Hi) as (m & E & G). exists m.
  split; [unfold load_material; now rewrite H|]. now apply load_entry_carries.
Qed.
End Files.

(** * Worked cases *)
Lemma tbl250_cases : get_f (10 / 1000) (YUStr "Y") tbl250 = Ok (mpa 260)
  /\ get_f (8 / 1000) (YUStr "Y") tbl250 = Ok (mpa 280).
Proof.
  rewrite !tbl250_f by lra. destruct (Rle_dec (10 / 1000) (8 / 1000)); [lra|].
  destruct (Rle_dec (8 / 1000) (8 / 1000)); [|lra]. split; reflexivity.
Qed.
Lemma tbl250_gap : forall b, In b (hd [] tbl250) -> b < 45 / 10000 * 2 \/ 5 / 1000 * 2 <= b.
Proof.
  intros b H. cbn in H. repeat (destruct H as [<-|H]; [lra|]). destruct H.
Qed.
Lemma shipped_file : NoDup (map fst (material_toml (T := R)))
  /\ exists d, load_all (material_toml (T := R)) = Ok d /\ List.length d = 8%nat.
Proof.
  split.
  - cbn. repeat constructor; cbn; intros H; repeat (destruct H as [H|H]; [discriminate|]); destruct H.
  - eexists. split; [reflexivity|reflexivity].
Qed.
