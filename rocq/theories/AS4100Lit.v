(** [tension_utilisation] with its three result lists and the filters at its end, as they stand. *)

From Coq Require Import ZArith List Bool.
From Verif Require Import Base Num Numpy LoadCase Beam Material Solvers AS4100.
Import ListNotations.
Open Scope Z_scope.

Section Lit.
Context {T : Type} `{Num T}.

(** Python's [is] between the numbers in the list [position] and the loop variable that runs over the same list.
    Simplification: objects are not modelled, so this is a parameter; the theorems need only that an element is itself. *)
Variable ident : T -> T -> bool.

(** [x in l] (identity or equality) for the elements of as4100.py line 149. *)
Definition num_in (x : T) (l : list T) : bool := existsb (fun y => ident x y || neqb x y) l.
(** The same for load cases (ints), line 154. *)
Definition case_in (x : Z) (l : list Z) : bool := existsb (Z.eqb x) l.

(** Lines 149, 154: [[vals[i] for i, k in enumerate(keys) if keep(k)]]; [vals[i]] beyond the end raises. *)
Fixpoint pick {K} (keep : K -> bool) (keys : list K) (vals : list T) : res (list T) :=
  match keys with
  | [] => Ok []
  | k :: ks =>
      if keep k
      then match vals with
           | [] => Err IndexError
           | v :: vs => let! r := pick keep ks vs in Ok (v :: r)
           end
      else pick keep ks (tl vals)
  end.

(** Lines 86-88: [ret_loads], [ret_pos], [ret_util]. *)
Definition rets : Type := (list Z * list T * list T)%type.
(** Lines 142-144. *)
Definition push (l : Z) (p x : T) (r : rets) : rets :=
  let '(a, b, c) := r in (a ++ [l], b ++ [p], c ++ [x]).

(** Lines 112-144: the loads found at one position. *)
Fixpoint lit_values (cap : T) (l : Z) (p : T) (rows : list (orow T)) (r : rets) : res rets :=
  match rows with
  | [] => Ok r
  | row :: rest =>
      match snd row with
      | [Some t] => let! x := util_one t cap in lit_values cap l p rest (push l p x r)
      | _ => Err IndexError
      end
  end.

(** Lines 101-144. *)
Fixpoint lit_positions (qs : argsort_oracle T) (a : as4100 T) (l : Z) (ps : list T) (r : rets) : res rets :=
  match ps with
  | [] => Ok r
  | p :: rest =>
      let! cap := tension_capacity a (PosNum p) in                  (* 104 *)
      let! rows := get_tension qs a l (PosNum p) None in            (* 110 *)
      let! r' := lit_values cap l p rows r in
      lit_positions qs a l rest r'
  end.

(** Lines 94-144. *)
Fixpoint lit_cases (qs : argsort_oracle T) (a : as4100 T) (b : beam_t T (section T)) (pos : option (list T)) (ls : list Z)
  (r : rets) : res rets :=
  match ls with
  | [] => Ok r
  | l :: rest =>
      let! ps := match pos with
                 | Some ps => Ok ps
                 | None =>                                          (* 96-99 *)
                     let! locs := beam_list_positions b PosNone (Some (assessment_points a)) (Some l) in
                     Ok (map (fun x => fst (fst x)) locs)
                 end in
      let! r' := lit_positions qs a l ps r in
      lit_cases qs a b (Some ps) rest r'
  end.

(** Lines 65-156.  Without a beam as in [AS4100.tension_utilisation].  [position] after line 82 is [None] or a
    list; with a number that is no float, [for p in pos] raises unless there is no load case at all, and then
    [p in position] is not evaluated either (represented by the empty list). *)
Definition tension_utilisation_lit (qs : argsort_oracle T) (a : as4100 T) (load_case : lc_arg)
  (position : pos_arg T) : res T :=
  let load_list := match load_case with                             (* 72-77 *)
                   | LCNone => None | LCInt z => Some [z] | LCList l => Some l
                   end in
  let! ls := match load_list with                                   (* 90-92 *)
             | Some l => Ok l
             | None => match cc_beam a with
                       | None => Err AttributeError
                       | Some b => beam_load_cases b
                       end
             end in
  let! pos := match position with                                   (* 79-84 *)
              | PosNone => Ok None
              | PosNum x => if nisfloat x then Ok (Some [x])
                            else match ls with [] => Ok (Some []) | _ => Err TypeError end
              | PosList l => Ok (Some l)
              end in
  let! r :=
    match cc_beam a with
    | Some b => lit_cases qs a b pos ls ([], [], [])
    | None =>
        match ls, pos with
        | [], _ => Ok ([], [], [])
        | _, None => Err AttributeError
        | _, Some [] => Ok ([], [], [])
        | _, Some _ => Err SectionOnlyError
        end
    end in
  let '(ret_loads, ret_pos, ret_util) := r in
  let! u1 := match load_list, pos with                              (* 146-149 *)
             | None, Some ps => pick (fun p => num_in p ps) ret_pos ret_util
             | _, _ => Ok ret_util
             end in
  let! u2 := match pos, load_list with                              (* 151-154 *)
             | None, Some lc => pick (fun l => case_in l lc) ret_loads u1
             | _, _ => Ok u1
             end in
  list_max u2.                                                      (* 156 *)

(** * The filters keep everything *)

Hypothesis ident_refl : forall x, ident x x = true.

Lemma num_in_In x l : In x l -> num_in x l = true.
Proof. intros I. apply existsb_exists. exists x. split; [exact I|]. now rewrite ident_refl. Qed.
Lemma case_in_In x l : In x l -> case_in x l = true.
Proof. intros I. apply existsb_exists. exists x. split; [exact I|]. apply Z.eqb_refl. Qed.

Lemma pick_all {K} (keep : K -> bool) ks : forall vs, List.length ks = List.length vs ->
  (forall k, In k ks -> keep k = true) -> pick keep ks vs = Ok vs.
Proof.
  induction ks as [|k ks IH]; intros [|v vs] E A; try discriminate E; [reflexivity|].
  cbn. rewrite (A k) by now left. rewrite IH; [reflexivity|now injection E|].
  intros k' I. apply A. now right.
Qed.

Lemma pick_filter {K} (keep : K -> bool) ks : forall vs, List.length ks = List.length vs ->
  pick keep ks vs = Ok (map snd (filter (fun kv => keep (fst kv)) (combine ks vs))).
Proof.
  induction ks as [|k ks IH]; intros [|v vs] E; try discriminate E; [reflexivity|].
  cbn. injection E as E. destruct (keep k); cbn [tl]; rewrite IH by exact E; reflexivity.
Qed.

(** What the loops add to the three lists. *)
Definition added (ls : list Z) (ps : option (list T)) (us : list T) (r r' : rets) : Prop :=
  exists la pa, r' = (fst (fst r) ++ la, snd (fst r) ++ pa, snd r ++ us)
    /\ List.length la = List.length us /\ List.length pa = List.length us
    /\ (forall l, In l la -> In l ls)
    /\ (forall p, In p pa -> match ps with Some q => In p q | None => True end).

Lemma added_nil ls ps r : added ls ps [] r r.
Proof.
  exists [], []. destruct r as [[a b] c]. cbn. rewrite !app_nil_r. repeat split; try tauto.
Qed.
Lemma added_app ls ps us vs r r' r'' : added ls ps us r r' -> added ls ps vs r' r'' ->
  added ls ps (us ++ vs) r r''.
Proof.
  intros (l1 & p1 & E1 & A1 & B1 & C1 & D1) (l2 & p2 & E2 & A2 & B2 & C2 & D2).
  exists (l1 ++ l2), (p1 ++ p2). subst. cbn. rewrite <- !app_assoc, !app_length.
  split; [reflexivity|]. split; [congruence|]. split; [congruence|]. split.
  - intros l I. apply in_app_or in I. destruct I; auto.
  - intros p I. apply in_app_or in I. destruct I as [I|I]; [exact (D1 p I)|exact (D2 p I)].
Qed.
Lemma added_weaken ls ls' ps ps' us r r' : (forall l, In l ls -> In l ls') ->
  (forall p, match ps with Some q => In p q | None => True end ->
             match ps' with Some q => In p q | None => True end) ->
  added ls ps us r r' -> added ls' ps' us r r'.
Proof. intros A B (l1 & p1 & E1 & A1 & B1 & C1 & D1). exists l1, p1. split; [exact E1|]. split; [exact A1|]. split; [exact B1|]. split; [auto|].
  intros p I. apply B. exact (D1 p I).
Qed.
Lemma added_push l p x r ps : match ps with Some q => In p q | None => True end -> added [l] ps [x] r (push l p x r).
Proof.
  intros I. exists [l], [p]. destruct r as [[a b] c]. repeat split; auto. intros q [->|[]]. exact I.
Qed.

Lemma lit_values_eq cap l p rows : forall r,
  match mapM (fun row => match snd row with [Some t] => util_one t cap | _ => Err IndexError end) rows with
  | Ok us => exists r', lit_values cap l p rows r = Ok r' /\ added [l] (Some [p]) us r r'
  | Err e => lit_values cap l p rows r = Err e
  end.
Proof.
  induction rows as [|row rows IH]; intros r; [exists r; split; [reflexivity|apply added_nil]|].
  cbn [mapM lit_values]. destruct (snd row) as [|[t|] [|]]; try reflexivity.
  destruct (util_one t cap) as [x|e]; [|reflexivity]. cbn [bind].
  specialize (IH (push l p x r)). revert IH.
  match goal with |- context [mapM ?f rows] => destruct (mapM f rows) as [us|e] end; cbn [bind]; intros IH; [|exact IH].
  destruct IH as (r' & E & A). exists r'. split; [exact E|]. apply (added_app _ _ [x] us _ (push l p x r)); [|exact A].
  apply added_push. now left.
Qed.

Lemma lit_positions_eq qs a l ps : forall r,
  match mapM (utils_at qs a l) ps with
  | Ok us => exists r', lit_positions qs a l ps r = Ok r' /\ added [l] (Some ps) (List.concat us) r r'
  | Err e => lit_positions qs a l ps r = Err e
  end.
Proof.
  induction ps as [|p ps IH]; intros r; [exists r; split; [reflexivity|apply added_nil]|].
  cbn [mapM lit_positions]. unfold utils_at at 1.
  destruct (tension_capacity a (PosNum p)) as [cap|e]; [|reflexivity]. cbn [bind].
  destruct (get_tension qs a l (PosNum p) None) as [rows|e]; [|reflexivity]. cbn [bind].
  pose proof (lit_values_eq cap l p rows r) as V. revert V.
  match goal with |- context [mapM ?f rows] => destruct (mapM f rows) as [us|e] end; cbn [bind]; intros V; [|now rewrite V].
  destruct V as (r1 & E1 & A1). rewrite E1. cbn [bind]. specialize (IH r1).
  destruct (mapM (utils_at qs a l) ps) as [uss|e]; cbn [bind]; [|exact IH].
  destruct IH as (r' & E & A). exists r'. split; [exact E|]. cbn [List.concat].
  apply added_app with r1; [eapply added_weaken; [| |exact A1]|eapply added_weaken; [| |exact A]]; cbn; intuition.
Qed.

Lemma lit_cases_eq qs a b ls : forall pos r,
  match util_loop qs a b pos ls with
  | Ok us => exists r', lit_cases qs a b pos ls r = Ok r' /\ added ls pos us r r'
  | Err e => lit_cases qs a b pos ls r = Err e
  end.
Proof.
  induction ls as [|l ls IH]; intros pos r; [exists r; split; [reflexivity|apply added_nil]|].
  cbn [util_loop lit_cases].
  match goal with |- context [let! ps := ?x in _] => destruct x as [ps|e] eqn:Eps end; [|reflexivity].
  cbn [bind]. pose proof (lit_positions_eq qs a l ps r) as V.
  destruct (mapM (utils_at qs a l) ps) as [uss|e]; cbn [bind]; [|now rewrite V].
  destruct V as (r1 & E1 & A1). rewrite E1. cbn [bind]. specialize (IH (Some ps) r1).
  destruct (util_loop qs a b (Some ps) ls) as [us|e]; cbn [bind]; [|exact IH].
  destruct IH as (r' & E & A). exists r'. split; [exact E|].
  assert (P : forall p, In p ps -> match pos with Some q => In p q | None => True end).
  { destruct pos as [q|]; [|auto]. injection Eps as ->. auto. }
  apply added_app with r1; [eapply added_weaken; [| |exact A1]|eapply added_weaken; [| |exact A]]; cbn; auto.
  intros l' [->|[]]; now left.
Qed.

Theorem lit_same qs a load_case position :
  tension_utilisation_lit qs a load_case position = tension_utilisation qs a load_case position.
Proof.
  unfold tension_utilisation_lit, tension_utilisation.
  assert (K : forall ls (lc : option (list Z)) pos,
    match lc with Some l => ls = l | None => True end ->
    (let! r := match cc_beam a with
      | Some b => lit_cases qs a b pos ls ([], [], [])
      | None => match ls, pos with
                | [], _ => Ok ([], [], []) | _, None => Err AttributeError
                | _, Some [] => Ok ([], [], []) | _, Some _ => Err SectionOnlyError end end in
     let '(ret_loads, ret_pos, ret_util) := r in
     let! u1 := match lc, pos with
                | None, Some ps => pick (fun p => num_in p ps) ret_pos ret_util | _, _ => Ok ret_util end in
     let! u2 := match pos, lc with
                | None, Some lc => pick (fun l => case_in l lc) ret_loads u1 | _, _ => Ok u1 end in
     list_max u2)
    = (let! us := match cc_beam a with
      | Some b => util_loop qs a b pos ls
      | None => match ls, pos with
                | [], _ => Ok [] | _, None => Err AttributeError
                | _, Some [] => Ok [] | _, Some _ => Err SectionOnlyError end end in list_max us)).
  { intros ls lc pos L.
    assert (F : forall us r, added ls pos us ([], [], []) r ->
      (let '(ret_loads, ret_pos, ret_util) := r in
       let! u1 := match lc, pos with
                  | None, Some ps => pick (fun p => num_in p ps) ret_pos ret_util | _, _ => Ok ret_util end in
       let! u2 := match pos, lc with
                  | None, Some lc => pick (fun l => case_in l lc) ret_loads u1 | _, _ => Ok u1 end in
       list_max u2) = list_max us).
    { intros us r (la & pa & -> & A & B & C & D). cbn [fst snd app].
      destruct lc as [lc|], pos as [ps|]; cbn [bind]; try reflexivity.
      - rewrite pick_all; [reflexivity|exact A|]. intros l I. apply case_in_In. subst. auto.
      - rewrite pick_all; [reflexivity|exact B|]. intros p I. apply num_in_In. now apply D. }
    destruct (cc_beam a) as [b|].
    - pose proof (lit_cases_eq qs a b ls pos ([], [], [])) as V.
      destruct (util_loop qs a b pos ls) as [us|e]; [|now rewrite V].
      destruct V as (r' & -> & A). cbn [bind]. now apply F.
    - destruct ls as [|l ls]; [|destruct pos as [[|p ps]|]]; try reflexivity; cbn [bind];
        apply (F [] ([], [], [])); apply added_nil. }
  assert (P : forall ls (lc : option (list Z)),
    match lc with Some l => ls = l | None => True end -> forall q : res (option (list T)),
    (let! pos := q in
     let! r := match cc_beam a with
      | Some b => lit_cases qs a b pos ls ([], [], [])
      | None => match ls, pos with
                | [], _ => Ok ([], [], []) | _, None => Err AttributeError
                | _, Some [] => Ok ([], [], []) | _, Some _ => Err SectionOnlyError end end in
     let '(ret_loads, ret_pos, ret_util) := r in
     let! u1 := match lc, pos with
                | None, Some ps => pick (fun p => num_in p ps) ret_pos ret_util | _, _ => Ok ret_util end in
     let! u2 := match pos, lc with
                | None, Some lc => pick (fun l => case_in l lc) ret_loads u1 | _, _ => Ok u1 end in
     list_max u2)
    = (let! pos := q in
       let! us := match cc_beam a with
      | Some b => util_loop qs a b pos ls
      | None => match ls, pos with
                | [], _ => Ok [] | _, None => Err AttributeError
                | _, Some [] => Ok [] | _, Some _ => Err SectionOnlyError end end in list_max us)).
  { intros ls lc L [pos|e]; [|reflexivity]. exact (K ls lc pos L). }
  destruct load_case as [|z|l].
  - destruct (match cc_beam a with None => Err AttributeError | Some b => beam_load_cases b end) as [ls|e];
      [|reflexivity]. exact (P ls None I _).
  - exact (P [z] (Some [z]) eq_refl _).
  - exact (P l (Some l) eq_refl _).
Qed.
End Lit.
