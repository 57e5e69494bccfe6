(** Vocabulary for the properties stated on doubles. *)

From Coq Require Import ZArith List Bool Floats.SpecFloat.
From Verif Require Import Base Num PyNum LoadCase Beam BeamSpec.
Import ListNotations.

(** A Python float: at most 53 bits of mantissa, exponent in range (or inf, nan). *)
Definition double (x : pynum) : Prop := exists f, x = PFlt f /\ valid_binary f64 e64 f = true.

Definition finite_double (x : pynum) : Prop := double x /\ nisinf x = false /\ nisnan x = false.

(** A finite float that is not negative (and not -0.0). *)
Definition length_double (x : pynum) : Prop :=
  finite_double x /\ nleb (fl 0 1) x = true /\ x <> PFlt (S754_zero true).

(** [x] is at least 0.0 and at most 1.0. *)
Definition unit_double (x : pynum) : Prop := finite_double x /\ nleb (fl 0 1) x = true /\ nleb x (fl 1 1) = true.

(** [x] equals n * 2^k exactly (comparing as Python compares an int with a float). *)
Definition dyadic (x : pynum) (n k : Z) : Prop :=
  ext_leb (to_ext x) (EFin n k) = true /\ ext_leb (EFin n k) (to_ext x) = true.

(** The lengths are whole multiples of a power of two (whole millimetres, eighths, ...) and
    the total is at most 2^53 of them. *)
Definition whole_steps (ls : list pynum) : Prop := exists k ns, (-1074 <= k <= 970)%Z /\
  Forall2 (fun l n => dyadic l n k) ls ns /\ Forall (fun n => (0 <= n)%Z) ns /\
  (fold_right Z.add 0 ns <= 2 ^ 53)%Z.

(** Two loads that are whole multiples of a power of two (whole newtons, ...), at most 2^53 of
    them apart. *)
Definition same_steps (y1 y2 : pynum) : Prop := exists k n1 n2, (-1074 <= k <= 900)%Z /\
  dyadic y1 n1 k /\ dyadic y2 n2 k /\ (Z.abs (n2 - n1) <= 2 ^ 53)%Z.

(** The requested positions, as a list. *)
Inductive asked : pos_arg pynum -> list pynum -> Prop :=
| a_num p : asked (PosNum p) [p]
| a_list ps : asked (PosList ps) ps.

(** A starting value for the root finders: an int of at most 53 bits, or a float below 2^1023. *)
Definition guess (x : pynum) : Prop :=
  (exists z, x = PInt z /\ (Z.abs z <= 2 ^ 53)%Z) \/ (finite_double x /\ nltb (nabs x) (PInt (2 ^ 1023)) = true).

(** [x] is between [a] and [b]. *)
Definition between (a b x : pynum) : Prop :=
  (nleb a x = true /\ nleb x b = true) \/ (nleb b x = true /\ nleb x a = true).

Section Beams.
Context {Sec : Type}.

Definition with_lengths (b : beam_t pynum Sec) (ls : list pynum) : Prop := Forall2 (fun e l => elength e = Some l) b ls.

(** A beam whose lengths are doubles, of finite length. *)
Definition float_beam (b : beam_t pynum Sec) (ls : list pynum) (ends : list (pynum * option pynum)) (total : pynum) : Prop :=
  with_lengths b ls /\ Forall length_double ls /\ b <> [] /\ element_ends b = Ok ends /\ beam_length b = Ok total /\
  nisinf total = false.

(** Every element has a table for the load case, whose positions are doubles in [0, 1]. *)
Definition float_tables (b : beam_t pynum Sec) (c : Z) : Prop :=
  forall e, In e b -> exists rows, dict_get c (eloads e) = Ok (Some rows) /\ rows <> [] /\
    Forall (fun r => unit_double (lpos r)) rows.

(** The positions of the triples. *)
Definition points (locs : list (location pynum)) : list pynum := map (fun t => fst (fst t)) locs.

(** A triple tells where a position is: in the stated element, at the local position (p - start) / length,
    which is in [0, 1] (if the element has a length). *)
Definition well_placed (ls : list pynum) (ends : list (pynum * option pynum)) (t : location pynum) : Prop :=
  exists i s e, snd (fst t) = Z.of_nat i /\ nth_error ends i = Some (s, Some e) /\
    nleb s (fst (fst t)) = true /\ nleb (fst (fst t)) e = true /\
    (neqb (nth i ls (fl 0 1)) (fl 0 1) = false ->
       unit_double (snd t) /\ snd t = ndiv (nsub (fst (fst t)) s) (nth i ls (fl 0 1))).

(** The table of every element for the load case is of doubles, sorted, not empty, with its
    positions in [0, 1]. *)
Definition float_loads (b : beam_t pynum Sec) (c : Z) : Prop :=
  forall e, In e b -> exists rows, dict_get c (eloads e) = Ok (Some rows) /\ good_table rows /\
    Forall (fun r => unit_double (lpos r)) rows.

(** No element is shorter than the difference of its ends, as computed. *)
Definition ends_fit (ls : list pynum) (ends : list (pynum * option pynum)) : Prop :=
  forall i l s t, nth_error ls i = Some l -> nth_error ends i = Some (s, Some t) -> neqb l (fl 0 1) = false ->
    nleb (nsub t s) l = true.
(** The local positions at which the loads of an element are stored (its ends, if no load
    case is given), and that all elements have a table for the load case given, if one is. *)
Definition stored_points (el : elem pynum Sec) (lc : option Z) : list pynum :=
  match lc with
  | None => [nflt 0 1; nflt 1 1]
  | Some c => match dict_get c (eloads el) with Ok (Some rows) => map lpos rows | _ => [] end
  end.

Definition tables_ok (b : beam_t pynum Sec) (lc : option Z) : Prop := match lc with None => True | Some c => float_tables b c end.

End Beams.
