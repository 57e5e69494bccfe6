(** Python numbers: unbounded ints and IEEE binary64 floats (Coq's axiom-free
    [SpecFloat]: every operation rounds to nearest even, with NaN, infinities and
    signed zeros).

    Simplifications: [int op float] converts the int by correct rounding (Python raises
    OverflowError above 1.8e308); [int / int] divides the two converted ints (exact
    rounding for |ints| < 2^53); numpy int64 arrays do not wrap around. *)

From Coq Require Import ZArith List Bool Lia.
From Coq Require Import Floats.SpecFloat.
From Verif Require Import Base Num.
Import ListNotations.
Open Scope Z_scope.

Inductive pynum : Type :=
| PInt (z : Z)
| PFlt (f : spec_float).

Definition f64 := 53.
Definition e64 := 1024.

Definition sf_of_Z (z : Z) : spec_float := binary_normalize f64 e64 z 0 false.

Definition tofl (x : pynum) : spec_float :=
  match x with PInt z => sf_of_Z z | PFlt f => f end.

Definition arith2 (fi : Z -> Z -> Z) (ff : spec_float -> spec_float -> spec_float)
  (x y : pynum) : pynum :=
  match x, y with
  | PInt a, PInt b => PInt (fi a b)
  | _, _ => PFlt (ff (tofl x) (tofl y))
  end.

(** Comparison is exact, also between ints and floats (as in CPython): both numbers
    are scaled to a common power of two. *)
Inductive ext : Type := ENegInf | EFin (m e : Z) | EPosInf | ENaN.

Definition to_ext (x : pynum) : ext :=
  match x with
  | PInt z => EFin z 0
  | PFlt (S754_zero _) => EFin 0 0
  | PFlt (S754_infinity true) => ENegInf
  | PFlt (S754_infinity false) => EPosInf
  | PFlt S754_nan => ENaN
  | PFlt (S754_finite s m e) => EFin (if s then Z.neg m else Z.pos m) e
  end.

Definition ext_leb (x y : ext) : bool :=
  match x, y with
  | ENaN, _ | _, ENaN => false
  | ENegInf, _ => true
  | _, EPosInf => true
  | EPosInf, _ => false
  | _, ENegInf => false
  | EFin m1 e1, EFin m2 e2 =>
      let e := Z.min e1 e2 in (m1 * 2 ^ (e1 - e) <=? m2 * 2 ^ (e2 - e))
  end.

Definition py_leb (x y : pynum) : bool := ext_leb (to_ext x) (to_ext y).
Definition py_eqb (x y : pynum) : bool := py_leb x y && py_leb y x.
Definition py_ltb (x y : pynum) : bool := py_leb x y && negb (py_leb y x).

Definition py_trunc (x : pynum) : pynum :=
  match x with
  | PInt z => PInt z
  | PFlt (S754_finite s m e) =>
      let a := if 0 <=? e then Z.pos m * 2 ^ e else Z.pos m / 2 ^ (- e) in
      PInt (if s then - a else a)
  | PFlt _ => PInt 0
  end.

Definition py_isnan (x : pynum) : bool :=
  match x with PFlt S754_nan => true | _ => false end.

Definition py_isinf (x : pynum) : bool :=
  match x with PFlt (S754_infinity _) => true | _ => false end.

Global Instance PNum : Num pynum := {
  nint z := PInt z;
  nflt n d := PFlt (SFdiv f64 e64 (sf_of_Z n) (sf_of_Z (Zpos d)));
  nadd := arith2 Z.add (SFadd f64 e64);
  nsub := arith2 Z.sub (SFsub f64 e64);
  nmul := arith2 Z.mul (SFmul f64 e64);
  ndiv x y := PFlt (SFdiv f64 e64 (tofl x) (tofl y));
  nneg x := match x with PInt z => PInt (- z) | PFlt f => PFlt (SFopp f) end;
  nabs x := match x with PInt z => PInt (Z.abs z) | PFlt f => PFlt (SFabs f) end;
  nleb := py_leb;
  nltb := py_ltb;
  neqb := py_eqb;
  nisfloat x := match x with PFlt _ => true | PInt _ => false end;
  nfloat x := PFlt (tofl x);
  ntrunc := py_trunc;
  nisnan := py_isnan;
  nisinf := py_isinf;
  npi := PFlt (S754_finite false 7074237752028440 (-51))
}.

(** The floats that are not NaN. *)
Definition Pok (x : pynum) : Prop :=
  match x with PFlt S754_nan => False | PFlt _ => True | PInt _ => False end.

Lemma ext_le_scale m1 e1 m2 e2 E : E <= e1 -> E <= e2 ->
  ext_leb (EFin m1 e1) (EFin m2 e2) = (m1 * 2 ^ (e1 - E) <=? m2 * 2 ^ (e2 - E)).
Proof.
  intros H1 H2. cbn [ext_leb].
  set (e := Z.min e1 e2). assert (HE : E <= e) by (unfold e; lia).
  assert (Hp : 0 < 2 ^ (e - E)) by (apply Z.pow_pos_nonneg; lia).
  replace (e1 - E) with ((e1 - e) + (e - E)) by lia.
  replace (e2 - E) with ((e2 - e) + (e - E)) by lia.
  assert (e <= e1) by (unfold e; lia). assert (e <= e2) by (unfold e; lia).
  rewrite !Z.pow_add_r by lia. rewrite !Z.mul_assoc.
  apply Bool.eq_iff_eq_true. rewrite !Z.leb_le.
  split; intros; nia.
Qed.

Lemma ext_trans x y z : ext_leb x y = true -> ext_leb y z = true -> ext_leb x z = true.
Proof.
  destruct x as [|m1 e1| |], y as [|m2 e2| |], z as [|m3 e3| |];
    try (cbn; congruence).
  set (E := Z.min e1 (Z.min e2 e3)).
  rewrite !(ext_le_scale _ _ _ _ E) by (unfold E; lia).
  rewrite !Z.leb_le. lia.
Qed.

Lemma ext_total x y : x <> ENaN -> y <> ENaN -> ext_leb x y = true \/ ext_leb y x = true.
Proof.
  destruct x as [|m1 e1| |], y as [|m2 e2| |]; try (cbn; tauto).
  intros _ _.
  set (E := Z.min e1 e2).
  rewrite !(ext_le_scale _ _ _ _ E) by (unfold E; lia).
  rewrite !Z.leb_le. lia.
Qed.

Lemma Pok_ext x : Pok x -> to_ext x <> ENaN.
Proof. destruct x as [z|[s|[]| |s m e]]; cbn; try tauto; congruence. Qed.

Global Instance PNumOrd : NumOrd pynum Pok.
Proof.
  constructor.
  - intros x y Hx Hy. apply ext_total; now apply Pok_ext.
  - intros x y z _ _ _. apply ext_trans.
  - intros x y Hx Hy. cbn [nltb nleb PNum]. unfold py_ltb.
    destruct (ext_total _ _ (Pok_ext _ Hx) (Pok_ext _ Hy)) as [H|H];
      fold (py_leb x y) in H; fold (py_leb y x) in H; rewrite H; cbn.
    + now destruct (py_leb y x).
    + now rewrite andb_false_r.
  - intros x y _ _. reflexivity.
  - intros [z|f]; cbn; tauto.
  - intros [z|f]; cbn; congruence.
Qed.

(** Float literals for examples: [fl n d] is the double nearest to n/d. *)
Definition fl (n : Z) (d : positive) : pynum := nflt n d.
