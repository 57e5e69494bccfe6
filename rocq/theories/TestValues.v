(** The project's own test values run through the formulas of NumFormulas.v and NumS6.v on Python
    numbers: the tuples of tests/test_AS4100_5.py, _6.py and _7.py and the spreadsheet rows of
    test_AS4100_5_Shear.py, with the tolerances the tests use.  These are tests of the model's fidelity, not proofs
    of any property.  Left out: test_s6_3_2_l_e, s7_5 (S7.v has no version on doubles). *)

From Coq Require Import ZArith List Bool String Floats.SpecFloat.
From Verif Require Import Base Num PyNum S5 Symmetry NumFormulas NumS6.
Import ListNotations.
Open Scope Z_scope.

(** unittest's assertAlmostEqual with [delta = expected / d]. *)
Definition is (d x e : pynum) : bool := neqb x e || nleb (nabs (nsub x e)) (ndiv e d).
Definition d4 : pynum := PInt 10000.
Definition d5 : pynum := fl 100000 1.
Definition ok (d : pynum) (r : res pynum) (e : pynum) : bool := match r with Ok x => is d x e | Err _ => false end.
Definition entry (n : nat) (r : res (list pynum)) : res pynum :=
  match r with Ok l => match nth_error l n with Some x => Ok x | None => Err IndexError end | Err e => Err e end.
Fixpoint both (d : pynum) (a b : list pynum) : bool :=
  match a, b with [], [] => true | x :: a, y :: b => is d x y && both d a b | _, _ => false end.
Definition same_list (d : pynum) (r : res (list pynum)) (e : list pynum) : bool := match r with Ok l => both d l e | Err _ => false end.
Definition whole (k : pynum) (r : res (list (option pynum))) (ns nx ny nz nc : pynum) : bool :=
  match r with
  | Ok [_; Some a; _; Some b; _; Some c; _; Some d; _; Some e] => is k a ns && is k b nx && is k c ny && is k d nz && is k e nc
  | _ => false
  end.

(** math.isclose with its default relative tolerance. *)
Definition isclose (a b : pynum) : bool :=
  neqb a b || nleb (nabs (nsub a b)) (nmul (fl 1 1000000000) (pymax (nabs a) (nabs b))).
Definition okclose (r : res pynum) (e : pynum) : bool := match r with Ok x => isclose e x | Err _ => false end.

(** A power function to run the tests with: square root, products, and for 0.658 the power series. *)
Definition to_float (x : pynum) : spec_float := match nadd x (fl 0 1) with PFlt f => f | PInt _ => S754_nan end.
Fixpoint series (n : nat) (k : Z) (z term sum : pynum) : pynum :=
  match n with
  | O => sum
  | S n => let t := ndiv (nmul term z) (nint k) in series n (k + 1) z t (nadd sum t)
  end.
Definition tpow (x y : pynum) : res pynum :=
  match y with
  | PInt 2 => Ok (nmul x x)
  | PInt 3 => Ok (nmul (nmul x x) x)
  | _ => if neqb y (fl 1 2) then Ok (PFlt (SFsqrt f64 e64 (to_float x)))
         else if neqb x (fl 658 1000)
         then Ok (series 30 1 (nmul y (fl (-41855034765681986) 100000000000000000)) (fl 1 1) (fl 1 1))
         else Err ValueError
  end.

(** The least root of a cubic with three real roots that are not negative: Newton's method from 0. *)
Fixpoint newton (n : nat) (a b c d x : pynum) : pynum :=
  match n with
  | O => x
  | S n =>
      let p := nadd (nmul (nadd (nmul (nadd (nmul a x) b) x) c) x) d in
      let q := nadd (nmul (nadd (nmul (nmul (fl 3 1) a) x) (nmul (fl 2 1) b)) x) c in
      if neqb q (fl 0 1) then x else newton n a b c d (nsub x (ndiv p q))
  end.
Definition troots (a b c d : pynum) : list (pynum * pynum) := [(newton 60 a b c d (fl 0 1), fl 0 1)].

(** The coefficients of that cubic (S6.py, [f_oc_unsymmetric]). *)
Definition coeffs (d a lx ly lz rx ry xo yo j w e g ca cb cc cd : pynum) : bool :=
  match nf_euler e lx rx, nf_euler e ly ry, nr_ol tpow rx ry xo yo, nf_euler_torsion tpow a lz rx ry xo yo j w e g with
  | Ok fx, Ok fy, Ok ro, Ok fz =>
      match nunsym_coeffs tpow fx fy fz ro xo yo with
      | Ok (ka, kb, kc, kd) => is d ka ca && is d kb cb && is d kc cc && is d kd cd
      | Err _ => false
      end
  | _, _, _, _ => false
  end.

(** tests/test_AS4100_5.py test_s5_2_M_s: 46 cases. *)
Definition t01 : list (list pynum) := [
  [(fl 319 100000000); (fl 31 20000000); (fl 320000000 1); (fl 5104 5); (fl 496 1)];
  [(fl 31 200000); (fl 723 10000000); (fl 300000000 1); (fl 46500 1); (fl 21690 1)];
  [(fl 23 10000); (fl 13 12500); (fl 280000000 1); (fl 644000 1); (fl 291200 1)];
  [(fl 17 1000000); (fl 593 100000000); (fl 320000000 1); (fl 5440 1); (fl 9488 5)];
  [(fl 639 100000); (fl 53 50000); (fl 280000000 1); (fl 1789200 1); (fl 296800 1)];
  [(fl 171 25000); (fl 473 500000); (fl 280000000 1); (fl 1915200 1); (fl 264880 1)];
  [(fl 341 100000); (fl 151 100000); (fl 300000000 1); (fl 1023000 1); (fl 453000 1)];
  [(fl 301 500000); (fl 267 1000000); (fl 280000000 1); (fl 168560 1); (fl 74760 1)];
  [(fl 633 1000000); (fl 139 1000000); (fl 320000000 1); (fl 202560 1); (fl 44480 1)];
  [(fl 67 25000); (fl 121 100000); (fl 280000000 1); (fl 750400 1); (fl 338800 1)];
  [(fl 529 100000000); (fl 233 100000000); (fl 320000000 1); (fl 8464 5); (fl 3728 5)];
  [(fl 99 5000); (fl 8 3125); (fl 280000000 1); (fl 5544000 1); (fl 716800 1)];
  [(fl 157 1000000); (fl 13 400000); (fl 320000000 1); (fl 50240 1); (fl 10400 1)];
  [(fl 67 10000); (fl 297 100000); (fl 280000000 1); (fl 1876000 1); (fl 831600 1)];
  [(fl 17 10000); (fl 191 250000); (fl 280000000 1); (fl 476000 1); (fl 213920 1)];
  [(fl 3 156250); (fl 859 100000000); (fl 320000000 1); (fl 6144 1); (fl 13744 5)];
  [(fl 747 1000000); (fl 159 500000); (fl 320000000 1); (fl 239040 1); (fl 101760 1)];
  [(fl 147 100000000); (fl 321 500000000); (fl 320000000 1); (fl 2352 5); (fl 5136 25)];
  [(fl 141 250000); (fl 193 2500000); (fl 340000000 1); (fl 191760 1); (fl 26248 1)];
  [(fl 247 50000); (fl 49 20000); (fl 360000000 1); (fl 1778400 1); (fl 882000 1)];
  [(fl 39 20000); (fl 439 500000); (fl 340000000 1); (fl 663000 1); (fl 298520 1)];
  [(fl 109 1000000); (fl 31 625000); (fl 340000000 1); (fl 37060 1); (fl 16864 1)];
  [(fl 169 2500000); (fl 203 10000000); (fl 340000000 1); (fl 22984 1); (fl 6902 1)];
  [(fl 319 1000000); (fl 617 10000000); (fl 360000000 1); (fl 114840 1); (fl 22212 1)];
  [(fl 107 100000); (fl 237 500000); (fl 340000000 1); (fl 363800 1); (fl 161160 1)];
  [(fl 699 10000000); (fl 311 10000000); (fl 340000000 1); (fl 23766 1); (fl 10574 1)];
  [(fl 141 10000000); (fl 293 50000000); (fl 360000000 1); (fl 5076 1); (fl 10548 5)];
  [(fl 129 1000000); (fl 77 2000000); (fl 360000000 1); (fl 46440 1); (fl 13860 1)];
  [(fl 221 1000000); (fl 89 2000000); (fl 340000000 1); (fl 75140 1); (fl 15130 1)];
  [(fl 977 1000000); (fl 7 15625); (fl 340000000 1); (fl 332180 1); (fl 152320 1)];
  [(fl 31 20000); (fl 171 250000); (fl 340000000 1); (fl 527000 1); (fl 232560 1)];
  [(fl 241 100000); (fl 107 100000); (fl 380000000 1); (fl 915800 1); (fl 406600 1)];
  [(fl 133 25000000); (fl 61 25000000); (fl 360000000 1); (fl 9576 5); (fl 4392 5)];
  [(fl 71 10000); (fl 2 625); (fl 360000000 1); (fl 2556000 1); (fl 1152000 1)];
  [(fl 23 6250); (fl 103 200000); (fl 340000000 1); (fl 1251200 1); (fl 175100 1)];
  [(fl 61 2000000); (fl 17 1250000); (fl 360000000 1); (fl 10980 1); (fl 4896 1)];
  [(fl 9 50000); (fl 43 1250000); (fl 360000000 1); (fl 64800 1); (fl 12384 1)];
  [(fl 469 1000000); (fl 107 500000); (fl 340000000 1); (fl 159460 1); (fl 72760 1)];
  [(fl 759 100000000); (fl 317 100000000); (fl 360000000 1); (fl 13662 5); (fl 5706 5)];
  [(fl 217 50000); (fl 243 500000); (fl 380000000 1); (fl 1649200 1); (fl 184680 1)];
  [(fl 433 50000000); (fl 151 50000000); (fl 360000000 1); (fl 15588 5); (fl 5436 5)];
  [(fl 429 10000000); (fl 1 50000); (fl 360000000 1); (fl 15444 1); (fl 7200 1)];
  [(fl 803 10000000); (fl 39 2500000); (fl 360000000 1); (fl 28908 1); (fl 5616 1)];
  [(fl 281 10000); (fl 1 200); (fl 360000000 1); (fl 10116000 1); (fl 1800000 1)];
  [(fl 729 1000000); (fl 163 1000000); (fl 340000000 1); (fl 247860 1); (fl 55420 1)];
  [(fl 23 1250000); (fl 87 10000000); (fl 360000000 1); (fl 6624 1); (fl 3132 1)]].
Example t01_ok : forallb (fun r => match r with [zx; zy; f; mx; my] => is d4 (ns5_2_M_s f zx) mx && is d4 (ns5_2_M_s f zy) my | _ => false end) t01 = true.
Proof. vm_compute. reflexivity. Qed.

(** tests/test_AS4100_5.py test_s5_6_1_M_o: 46 cases. *)
Definition t02 : list (list pynum) := [
  [(fl 167937 25000); (fl 103 5000000000); (fl 7 8000000000); (fl 0 1); (fl 200000000000 1); (fl 80000000000 1); (fl 125577 500)];
  [(fl 20007 4000); (fl 153 50000000); (fl 87 500000000); (fl 0 1); (fl 200000000000 1); (fl 80000000000 1); (fl 579727 10)];
  [(fl 20987 2500); (fl 107 1000000); (fl 63 25000000); (fl 239 100000000); (fl 200000000000 1); (fl 80000000000 1); (fl 897126 1)];
  [(fl 24628 3125); (fl 53 500000000); (fl 39 2000000000); (fl 0 1); (fl 200000000000 1); (fl 80000000000 1); (fl 114623 50)];
  [(fl 81589 10000); (fl 971 10000000); (fl 201 50000000); (fl 23 2000000); (fl 200000000000 1); (fl 80000000000 1); (fl 1381250 1)];
  [(fl 222059 50000); (fl 867 10000000); (fl 299 100000000); (fl 67 5000000); (fl 200000000000 1); (fl 80000000000 1); (fl 3702840 1)];
  [(fl 169919 50000); (fl 107 500000); (fl 77 25000000); (fl 731 100000000); (fl 200000000000 1); (fl 80000000000 1); (fl 7396700 1)];
  [(fl 77067 10000); (fl 149 10000000); (fl 9 4000000); (fl 0 1); (fl 200000000000 1); (fl 80000000000 1); (fl 298556 1)];
  [(fl 160749 100000); (fl 153 20000000); (fl 157 1000000000); (fl 33 200000000); (fl 200000000000 1); (fl 80000000000 1); (fl 899975 1)];
  [(fl 96761 100000); (fl 1 8000); (fl 381 100000000); (fl 143 50000000); (fl 200000000000 1); (fl 80000000000 1); (fl 40857900 1)];
  [(fl 439861 100000); (fl 53 2000000000); (fl 7 1250000000); (fl 0 1); (fl 200000000000 1); (fl 80000000000 1); (fl 22011 20)];
  [(fl 11541 3125); (fl 171 500000); (fl 249 25000000); (fl 113 1000000); (fl 200000000000 1); (fl 80000000000 1); (fl 29135700 1)];
  [(fl 22197 2500); (fl 39 40000000); (fl 7 156250000); (fl 17 2500000000); (fl 200000000000 1); (fl 80000000000 1); (fl 47868 5)];
  [(fl 264963 100000); (fl 521 1000000); (fl 637 100000000); (fl 147 5000000); (fl 200000000000 1); (fl 80000000000 1); (fl 35854400 1)];
  [(fl 901857 100000); (fl 111 2000000); (fl 299 50000000); (fl 63 100000000); (fl 200000000000 1); (fl 80000000000 1); (fl 815457 1)];
  [(fl 117319 20000); (fl 77 500000000); (fl 1 50000000); (fl 0 1); (fl 200000000000 1); (fl 80000000000 1); (fl 75193 20)];
  [(fl 185971 100000); (fl 297 10000000); (fl 69 200000000); (fl 83 200000000); (fl 200000000000 1); (fl 80000000000 1); (fl 2117280 1)];
  [(fl 319589 100000); (fl 469 100000000000); (fl 83 50000000000); (fl 0 1); (fl 200000000000 1); (fl 80000000000 1); (fl 43368 125)];
  [(fl 459777 50000); (fl 101 25000000); (fl 29 100000000); (fl 291 5000000000); (fl 200000000000 1); (fl 80000000000 1); (fl 481261 10)];
  [(fl 113551 50000); (fl 143 500000); (fl 33 2000000); (fl 71 10000000); (fl 200000000000 1); (fl 80000000000 1); (fl 21022000 1)];
  [(fl 102159 100000); (fl 451 5000000); (fl 163 100000000); (fl 99 50000000); (fl 200000000000 1); (fl 80000000000 1); (fl 25712600 1)];
  [(fl 913501 100000); (fl 173 100000000); (fl 141 1000000000); (fl 0 1); (fl 200000000000 1); (fl 80000000000 1); (fl 214849 10)];
  [(fl 388773 50000); (fl 117 200000000); (fl 11 100000000); (fl 0 1); (fl 200000000000 1); (fl 80000000000 1); (fl 64823 5)];
  [(fl 373183 100000); (fl 51 20000000); (fl 337 5000000000); (fl 367 10000000000); (fl 200000000000 1); (fl 80000000000 1); (fl 618783 10)];
  [(fl 700531 100000); (fl 21 500000); (fl 827 1000000000); (fl 603 1000000000); (fl 200000000000 1); (fl 80000000000 1); (fl 390824 1)];
  [(fl 339407 50000); (fl 857 1000000000); (fl 11 100000000); (fl 0 1); (fl 200000000000 1); (fl 80000000000 1); (fl 17974 1)];
  [(fl 790351 100000); (fl 117 1250000000); (fl 11 625000000); (fl 0 1); (fl 200000000000 1); (fl 80000000000 1); (fl 51018 25)];
  [(fl 21723 20000); (fl 129 100000000); (fl 549 10000000000); (fl 459 100000000000); (fl 200000000000 1); (fl 80000000000 1); (fl 161422 1)];
  [(fl 19169 2000); (fl 33 20000000); (fl 101 1000000000); (fl 53 5000000000); (fl 200000000000 1); (fl 80000000000 1); (fl 34325 2)];
  [(fl 563679 100000); (fl 97 2500000); (fl 293 500000000); (fl 557 1000000000); (fl 200000000000 1); (fl 80000000000 1); (fl 443184 1)];
  [(fl 118441 50000); (fl 729 10000000); (fl 29 31250000); (fl 39 25000000); (fl 200000000000 1); (fl 80000000000 1); (fl 3997080 1)];
  [(fl 3707 3125); (fl 171 1000000); (fl 79 50000000); (fl 143 25000000); (fl 200000000000 1); (fl 80000000000 1); (fl 44215500 1)];
  [(fl 357471 50000); (fl 303 10000000000); (fl 37 12500000000); (fl 0 1); (fl 200000000000 1); (fl 80000000000 1); (fl 131597 250)];
  [(fl 928371 1000000); (fl 427 1000000); (fl 3 156250); (fl 81 5000000); (fl 200000000000 1); (fl 80000000000 1); (fl 194387000 1)];
  [(fl 831483 100000); (fl 393 10000000); (fl 39 25000000); (fl 69 20000000); (fl 200000000000 1); (fl 80000000000 1); (fl 500557 1)];
  [(fl 10083 2500); (fl 141 500000000); (fl 419 10000000000); (fl 0 1); (fl 200000000000 1); (fl 80000000000 1); (fl 10710 1)];
  [(fl 868449 100000); (fl 57 50000000); (fl 193 5000000000); (fl 13 1250000000); (fl 200000000000 1); (fl 80000000000 1); (fl 50064 5)];
  [(fl 45067 12500); (fl 59 5000000); (fl 53 50000000); (fl 0 1); (fl 200000000000 1); (fl 80000000000 1); (fl 389812 1)];
  [(fl 810943 100000); (fl 587 10000000000); (fl 387 100000000000); (fl 0 1); (fl 200000000000 1); (fl 80000000000 1); (fl 369287 500)];
  [(fl 38043 12500); (fl 417 10000000); (fl 921 1000000000); (fl 157 25000000); (fl 200000000000 1); (fl 80000000000 1); (fl 3542300 1)];
  [(fl 90793 20000); (fl 333 5000000000); (fl 27 6250000000); (fl 0 1); (fl 200000000000 1); (fl 80000000000 1); (fl 148479 100)];
  [(fl 900473 100000); (fl 291 500000000); (fl 317 10000000000); (fl 0 1); (fl 200000000000 1); (fl 80000000000 1); (fl 599419 100)];
  [(fl 105809 100000); (fl 337 1000000000); (fl 201 5000000000); (fl 57 50000000000); (fl 200000000000 1); (fl 80000000000 1); (fl 557239 10)];
  [(fl 103681 12500); (fl 417 500000); (fl 11 500000); (fl 7 25000); (fl 200000000000 1); (fl 80000000000 1); (fl 15308400 1)];
  [(fl 288927 100000); (fl 901 100000000); (fl 233 1000000000); (fl 197 1000000000); (fl 200000000000 1); (fl 80000000000 1); (fl 372767 1)];
  [(fl 308937 50000); (fl 187 1000000000); (fl 7 625000000); (fl 0 1); (fl 200000000000 1); (fl 80000000000 1); (fl 147167 50)]].
Example t02_ok : forallb (fun r => match r with [l; i; j; w; e; g; m] => ok d4 (ns5_6_1_M_o tpow l i j w (fl 0 1) e g) m | _ => false end) t02 = true.
Proof. vm_compute. reflexivity. Qed.

(** tests/test_AS4100_5.py test_s5_6_1_M_o_β_x_rand: 46 cases. *)
Definition t03 : list (list pynum) := [
  [(fl 167937 25000); (fl 103 5000000000); (fl 7 8000000000); (fl 0 1); (fl 128173 1000000); (fl 200000000000 1); (fl 80000000000 1); (fl 157729 500)];
  [(fl 20007 4000); (fl 153 50000000); (fl 87 500000000); (fl 0 1); (fl (-71157) 500000); (fl 200000000000 1); (fl 80000000000 1); (fl 432847 10)];
  [(fl 20987 2500); (fl 107 1000000); (fl 63 25000000); (fl 239 100000000); (fl 178449 1000000); (fl 200000000000 1); (fl 80000000000 1); (fl 1203540 1)];
  [(fl 24628 3125); (fl 53 500000000); (fl 39 2000000000); (fl 0 1); (fl 245703 1000000); (fl 200000000000 1); (fl 80000000000 1); (fl 137169 50)];
  [(fl 81589 10000); (fl 971 10000000); (fl 201 50000000); (fl 23 2000000); (fl (-148817) 1000000); (fl 200000000000 1); (fl 80000000000 1); (fl 1183520 1)];
  [(fl 222059 50000); (fl 867 10000000); (fl 299 100000000); (fl 67 5000000); (fl 2969 15625); (fl 200000000000 1); (fl 80000000000 1); (fl 4617840 1)];
  [(fl 169919 50000); (fl 107 500000); (fl 77 25000000); (fl 731 100000000); (fl (-308997) 10000000); (fl 200000000000 1); (fl 80000000000 1); (fl 6853160 1)];
  [(fl 77067 10000); (fl 149 10000000); (fl 9 4000000); (fl 0 1); (fl 56853 250000); (fl 200000000000 1); (fl 80000000000 1); (fl 360126 1)];
  [(fl 160749 100000); (fl 153 20000000); (fl 157 1000000000); (fl 33 200000000); (fl (-431823) 10000000); (fl 200000000000 1); (fl 80000000000 1); (fl 782603 1)];
  [(fl 96761 100000); (fl 1 8000); (fl 381 100000000); (fl 143 50000000); (fl 23283 100000); (fl 200000000000 1); (fl 80000000000 1); (fl 81773600 1)];
  [(fl 439861 100000); (fl 53 2000000000); (fl 7 1250000000); (fl 0 1); (fl 781551 10000000); (fl 200000000000 1); (fl 80000000000 1); (fl 60563 50)];
  [(fl 11541 3125); (fl 171 500000); (fl 249 25000000); (fl 113 1000000); (fl (-36239) 200000); (fl 200000000000 1); (fl 80000000000 1); (fl 24994600 1)];
  [(fl 22197 2500); (fl 39 40000000); (fl 7 156250000); (fl 17 2500000000); (fl (-203927) 1000000); (fl 200000000000 1); (fl 80000000000 1); (fl 740267 100)];
  [(fl 264963 100000); (fl 521 1000000); (fl 637 100000000); (fl 147 5000000); (fl 10927 156250); (fl 200000000000 1); (fl 80000000000 1); (fl 41340600 1)];
  [(fl 901857 100000); (fl 111 2000000); (fl 299 50000000); (fl 63 100000000); (fl (-86509) 500000); (fl 200000000000 1); (fl 80000000000 1); (fl 707217 1)];
  [(fl 117319 20000); (fl 77 500000000); (fl 1 50000000); (fl 0 1); (fl 161423 1000000); (fl 200000000000 1); (fl 80000000000 1); (fl 45397 10)];
  [(fl 185971 100000); (fl 297 10000000); (fl 69 200000000); (fl 83 200000000); (fl (-8931) 50000); (fl 200000000000 1); (fl 80000000000 1); (fl 1088940 1)];
  [(fl 319589 100000); (fl 469 100000000000); (fl 83 50000000000); (fl 0 1); (fl (-116781) 1000000); (fl 200000000000 1); (fl 80000000000 1); (fl 37254 125)];
  [(fl 459777 50000); (fl 101 25000000); (fl 29 100000000); (fl 291 5000000000); (fl 241341 5000000); (fl 200000000000 1); (fl 80000000000 1); (fl 504559 10)];
  [(fl 113551 50000); (fl 143 500000); (fl 33 2000000); (fl 71 10000000); (fl (-15351) 125000); (fl 200000000000 1); (fl 80000000000 1); (fl 15349100 1)];
  [(fl 102159 100000); (fl 451 5000000); (fl 163 100000000); (fl 99 50000000); (fl 203569 5000000); (fl 200000000000 1); (fl 80000000000 1); (fl 29419000 1)];
  [(fl 913501 100000); (fl 173 100000000); (fl 141 1000000000); (fl 0 1); (fl 4777 78125); (fl 200000000000 1); (fl 80000000000 1); (fl 113862 5)];
  [(fl 388773 50000); (fl 117 200000000); (fl 11 100000000); (fl 0 1); (fl 26619 125000); (fl 200000000000 1); (fl 80000000000 1); (fl 75784 5)];
  [(fl 373183 100000); (fl 51 20000000); (fl 337 5000000000); (fl 367 10000000000); (fl (-125923) 1000000); (fl 200000000000 1); (fl 80000000000 1); (fl 215869 5)];
  [(fl 700531 100000); (fl 21 500000); (fl 827 1000000000); (fl 603 1000000000); (fl (-191473) 5000000); (fl 200000000000 1); (fl 80000000000 1); (fl 359813 1)];
  [(fl 339407 50000); (fl 857 1000000000); (fl 11 100000000); (fl 0 1); (fl 22979 200000); (fl 200000000000 1); (fl 80000000000 1); (fl 101032 5)];
  [(fl 790351 100000); (fl 117 1250000000); (fl 11 625000000); (fl 0 1); (fl (-437137) 50000000); (fl 200000000000 1); (fl 80000000000 1); (fl 50696 25)];
  [(fl 21723 20000); (fl 129 100000000); (fl 549 10000000000); (fl 459 100000000000); (fl (-3469) 20000); (fl 200000000000 1); (fl 80000000000 1); (fl 299939 5)];
  [(fl 19169 2000); (fl 33 20000000); (fl 101 1000000000); (fl 53 5000000000); (fl 235091 1000000); (fl 200000000000 1); (fl 80000000000 1); (fl 109144 5)];
  [(fl 563679 100000); (fl 97 2500000); (fl 293 500000000); (fl 557 1000000000); (fl 94733 5000000); (fl 200000000000 1); (fl 80000000000 1); (fl 466607 1)];
  [(fl 118441 50000); (fl 729 10000000); (fl 29 31250000); (fl 39 25000000); (fl 74197 500000); (fl 200000000000 1); (fl 80000000000 1); (fl 6329590 1)];
  [(fl 3707 3125); (fl 171 1000000); (fl 79 50000000); (fl 143 25000000); (fl (-244949) 1000000); (fl 200000000000 1); (fl 80000000000 1); (fl 23707400 1)];
  [(fl 357471 50000); (fl 303 10000000000); (fl 37 12500000000); (fl 0 1); (fl 33171 250000); (fl 200000000000 1); (fl 80000000000 1); (fl 609709 1000)];
  [(fl 928371 1000000); (fl 427 1000000); (fl 3 156250); (fl 81 5000000); (fl 893709 10000000); (fl 200000000000 1); (fl 80000000000 1); (fl 242938000 1)];
  [(fl 831483 100000); (fl 393 10000000); (fl 39 25000000); (fl 69 20000000); (fl 472989 10000000); (fl 200000000000 1); (fl 80000000000 1); (fl 527796 1)];
  [(fl 10083 2500); (fl 141 500000000); (fl 419 10000000000); (fl 0 1); (fl (-430083) 10000000); (fl 200000000000 1); (fl 80000000000 1); (fl 999943 100)];
  [(fl 868449 100000); (fl 57 50000000); (fl 193 5000000000); (fl 13 1250000000); (fl (-144619) 1000000); (fl 200000000000 1); (fl 80000000000 1); (fl 808513 100)];
  [(fl 45067 12500); (fl 59 5000000); (fl 53 50000000); (fl 0 1); (fl 90967 2000000); (fl 200000000000 1); (fl 80000000000 1); (fl 432687 1)];
  [(fl 810943 100000); (fl 587 10000000000); (fl 387 100000000000); (fl 0 1); (fl (-131337) 1000000); (fl 200000000000 1); (fl 80000000000 1); (fl 631879 1000)];
  [(fl 38043 12500); (fl 417 10000000); (fl 921 1000000000); (fl 157 25000000); (fl 514391 10000000); (fl 200000000000 1); (fl 80000000000 1); (fl 3778220 1)];
  [(fl 90793 20000); (fl 333 5000000000); (fl 27 6250000000); (fl 0 1); (fl (-26009) 200000); (fl 200000000000 1); (fl 80000000000 1); (fl 56343 50)];
  [(fl 900473 100000); (fl 291 500000000); (fl 317 10000000000); (fl 0 1); (fl (-856207) 10000000); (fl 200000000000 1); (fl 80000000000 1); (fl 270913 50)];
  [(fl 105809 100000); (fl 337 1000000000); (fl 201 5000000000); (fl 57 50000000000); (fl (-69419) 500000); (fl 200000000000 1); (fl 80000000000 1); (fl 140408 5)];
  [(fl 103681 12500); (fl 417 500000); (fl 11 500000); (fl 7 25000); (fl 410427 5000000); (fl 200000000000 1); (fl 80000000000 1); (fl 16321900 1)];
  [(fl 288927 100000); (fl 901 100000000); (fl 233 1000000000); (fl 197 1000000000); (fl 110207 1000000); (fl 200000000000 1); (fl 80000000000 1); (fl 508213 1)];
  [(fl 308937 50000); (fl 187 1000000000); (fl 7 625000000); (fl 0 1); (fl 186297 1000000); (fl 200000000000 1); (fl 80000000000 1); (fl 99467 25)]].
Example t03_ok : forallb (fun r => match r with [l; i; j; w; b; e; g; m] => ok d4 (ns5_6_1_M_o tpow l i j w b e g) m | _ => false end) t03 = true.
Proof. vm_compute. reflexivity. Qed.

(** tests/test_AS4100_5.py test_s5_6_1_α_m: 46 cases. *)
Definition t04 : list (list pynum) := [
  [(fl 467469 1); (fl (-467469) 1); (fl 309832 1); (fl (-367540) 1); (fl 5 2); (fl 59259 50000)];
  [(fl 349510 1); (fl (-142941) 1); (fl 349510 1); (fl (-272333) 1); (fl 5 2); (fl 63811 50000)];
  [(fl 347664 1); (fl 337893 10); (fl 399423 10); (fl 134665 1); (fl 5 2); (fl 5 2)];
  [(fl 267263 1); (fl (-396544) 5); (fl (-267263) 1); (fl (-171207) 1); (fl 5 2); (fl 69439 50000)];
  [(fl 232884 1); (fl 232884 1); (fl 152122 1); (fl (-166917) 2); (fl 5 2); (fl 136323 100000)];
  [(fl 344566 1); (fl (-330326) 1); (fl 344566 1); (fl 289678 5); (fl 5 2); (fl 121823 100000)];
  [(fl 272960 1); (fl (-225569) 1); (fl 272960 1); (fl (-169507) 1); (fl 5 2); (fl 591 500)];
  [(fl 164726 1); (fl 148658 1); (fl (-151186) 1); (fl 23350 1); (fl 5 2); (fl 1641 1250)];
  [(fl 200472 1); (fl 185336 1); (fl (-200472) 1); (fl 135106 1); (fl 5 2); (fl 111879 100000)];
  [(fl 420864 1); (fl 299774 1); (fl 126566 5); (fl (-420864) 1); (fl 5 2); (fl 1383 1000)];
  [(fl 426130 1); (fl (-166170) 1); (fl (-426130) 1); (fl (-366534) 1); (fl 5 2); (fl 61797 50000)];
  [(fl 424465 1); (fl 184504 1); (fl 75179 2); (fl (-240353) 1); (fl 5 2); (fl 118167 50000)];
  [(fl 407899 1); (fl (-284170) 1); (fl (-349868) 1); (fl (-407899) 1); (fl 5 2); (fl 114069 100000)];
  [(fl 287867 1); (fl (-287867) 1); (fl 232965 1); (fl (-166892) 1); (fl 5 2); (fl 60239 50000)];
  [(fl 414763 1); (fl (-414763) 1); (fl 354572 1); (fl (-231913) 1); (fl 5 2); (fl 118923 100000)];
  [(fl 282995 1); (fl 278503 1); (fl (-282995) 1); (fl 110074 5); (fl 5 2); (fl 6049 5000)];
  [(fl 478969 1); (fl 478969 1); (fl (-335897) 1); (fl 234881 1); (fl 5 2); (fl 129163 100000)];
  [(fl 400384 1); (fl (-198291) 1); (fl 165104 1); (fl (-400384) 1); (fl 5 2); (fl 8931 6250)];
  [(fl 198507 2); (fl 198507 2); (fl (-946127) 10); (fl (-426201) 100); (fl 5 2); (fl 122991 100000)];
  [(fl 189387 1); (fl 657249 10); (fl (-10143) 10); (fl 189387 1); (fl 5 2); (fl 160601 100000)];
  [(fl 460724 1); (fl 432001 1); (fl (-345896) 1); (fl 460724 1); (fl 5 2); (fl 3399 3125)];
  [(fl 486889 1); (fl 328003 1); (fl 486889 1); (fl (-127297) 1); (fl 5 2); (fl 137789 100000)];
  [(fl 291128 1); (fl 145176 1); (fl (-288577) 1); (fl 291128 1); (fl 5 2); (fl 113809 100000)];
  [(fl 304559 1); (fl (-304559) 1); (fl 160939 1); (fl (-321222) 5); (fl 5 2); (fl 147757 100000)];
  [(fl 467600 1); (fl (-443804) 1); (fl (-310001) 1); (fl 427759 1); (fl 5 2); (fl 115213 100000)];
  [(fl 360335 1); (fl 360335 1); (fl 142948 5); (fl 78905 2); (fl 5 2); (fl 168467 100000)];
  [(fl 488652 1); (fl (-488652) 1); (fl (-160857) 1); (fl (-133635) 1); (fl 5 2); (fl 156289 100000)];
  [(fl 496792 1); (fl 188432 1); (fl (-496792) 1); (fl (-218382) 1); (fl 5 2); (fl 147017 100000)];
  [(fl 386504 1); (fl (-350844) 1); (fl (-297685) 1); (fl (-386504) 1); (fl 5 2); (fl 3417 3125)];
  [(fl 457667 1); (fl 457667 1); (fl (-35565) 1); (fl (-224250) 1); (fl 5 2); (fl 152289 100000)];
  [(fl 439645 1); (fl (-279432) 1); (fl (-708319) 10); (fl (-246608) 1); (fl 5 2); (fl 39403 20000)];
  [(fl 393075 1); (fl 281968 5); (fl 223977 1); (fl 393075 1); (fl 5 2); (fl 14657 10000)];
  [(fl 451891 5); (fl 285457 10); (fl 212876 5); (fl 451891 5); (fl 5 2); (fl 4621 3125)];
  [(fl 393286 1); (fl (-70999) 2); (fl 69561 2); (fl (-149941) 1); (fl 5 2); (fl 5 2)];
  [(fl 440849 1); (fl (-214387) 1); (fl (-440849) 1); (fl 165647 1); (fl 5 2); (fl 36209 25000)];
  [(fl 328920 1); (fl 190845 1); (fl 328920 1); (fl 232781 1); (fl 5 2); (fl 125411 100000)];
  [(fl 456775 1); (fl 456775 1); (fl (-231485) 1); (fl 425411 1); (fl 5 2); (fl 116641 100000)];
  [(fl 412964 1); (fl (-189878) 1); (fl (-396210) 1); (fl (-412964) 1); (fl 5 2); (fl 11643 10000)];
  [(fl 401556 1); (fl (-125864) 1); (fl 141539 1); (fl (-364551) 1); (fl 5 2); (fl 166167 100000)];
  [(fl 461276 1); (fl (-191055) 1); (fl 461276 1); (fl (-444435) 1); (fl 5 2); (fl 23463 20000)];
  [(fl 465965 1); (fl 361256 1); (fl (-116695) 1); (fl 187597 1); (fl 5 2); (fl 37413 20000)];
  [(fl 485649 1); (fl (-280688) 1); (fl 485649 1); (fl (-229443) 1); (fl 5 2); (fl 136229 100000)];
  [(fl 269758 1); (fl 269758 1); (fl 44876 1); (fl 253479 1); (fl 5 2); (fl 30747 25000)];
  [(fl 276627 1); (fl 145844 1); (fl 276627 1); (fl (-123990) 1); (fl 5 2); (fl 139793 100000)];
  [(fl 430286 1); (fl 246583 5); (fl 395937 1); (fl (-430286) 1); (fl 5 2); (fl 24931 20000)];
  [(fl 485566 1); (fl (-366316) 1); (fl (-252989) 1); (fl 305971 1); (fl 5 2); (fl 152809 100000)]].
Example t04_ok : forallb (fun r => match r with [m; a; b; c; h; x] => ok d4 (ns5_6_1_alpha_m tpow m a b c h) x | _ => false end) t04 = true.
Proof. vm_compute. reflexivity. Qed.

(** tests/test_AS4100_5.py test_s5_6_α_s: 46 cases. *)
Definition t05 : list (list pynum) := [
  [(fl 5104 5); (fl 157729 500); (fl 130317 500000)];
  [(fl 46500 1); (fl 432847 10); (fl 23133 40000)];
  [(fl 644000 1); (fl 1203540 1); (fl 9583 12500)];
  [(fl 5440 1); (fl 137169 50); (fl 389961 1000000)];
  [(fl 1789200 1); (fl 1183520 1); (fl 236173 500000)];
  [(fl 1915200 1); (fl 4617840 1); (fl 204941 250000)];
  [(fl 1023000 1); (fl 6853160 1); (fl 476759 500000)];
  [(fl 168560 1); (fl 360126 1); (fl 795673 1000000)];
  [(fl 202560 1); (fl 782603 1); (fl 895473 1000000)];
  [(fl 750400 1); (fl 81773600 1); (fl 51687 50000)];
  [(fl 8464 5); (fl 60563 50); (fl 49681 100000)];
  [(fl 5544000 1); (fl 24994600 1); (fl 114329 125000)];
  [(fl 50240 1); (fl 740267 100); (fl 3263 25000)];
  [(fl 1876000 1); (fl 41340600 1); (fl 25309 25000)];
  [(fl 476000 1); (fl 707217 1); (fl 7111 10000)];
  [(fl 6144 1); (fl 45397 10); (fl 126707 250000)];
  [(fl 239040 1); (fl 1088940 1); (fl 915833 1000000)];
  [(fl 2352 5); (fl 37254 125); (fl 229493 500000)];
  [(fl 191760 1); (fl 504559 10); (fl 56411 250000)];
  [(fl 1778400 1); (fl 15349100 1); (fl 194407 200000)];
  [(fl 663000 1); (fl 29419000 1); (fl 5129 5000)];
  [(fl 37060 1); (fl 113862 5); (fl 56193 125000)];
  [(fl 22984 1); (fl 75784 5); (fl 471391 1000000)];
  [(fl 114840 1); (fl 215869 5); (fl 30853 100000)];
  [(fl 363800 1); (fl 359813 1); (fl 59669 100000)];
  [(fl 23766 1); (fl 101032 5); (fl 55049 100000)];
  [(fl 5076 1); (fl 50696 25); (fl 324491 1000000)];
  [(fl 46440 1); (fl 299939 5); (fl 336909 500000)];
  [(fl 75140 1); (fl 109144 5); (fl 246721 1000000)];
  [(fl 332180 1); (fl 466607 1); (fl 139289 200000)];
  [(fl 527000 1); (fl 6329590 1); (fl 39619 40000)];
  [(fl 915800 1); (fl 23707400 1); (fl 101631 100000)];
  [(fl 9576 5); (fl 609709 1000); (fl 26753 100000)];
  [(fl 2556000 1); (fl 242938000 1); (fl 51647 50000)];
  [(fl 1251200 1); (fl 527796 1); (fl 339203 1000000)];
  [(fl 10980 1); (fl 999943 100); (fl 571637 1000000)];
  [(fl 64800 1); (fl 808513 100); (fl 27753 250000)];
  [(fl 159460 1); (fl 432687 1); (fl 420687 500000)];
  [(fl 13662 5); (fl 631879 1000); (fl 20039 100000)];
  [(fl 1649200 1); (fl 3778220 1); (fl 809823 1000000)];
  [(fl 15588 5); (fl 56343 50); (fl 37309 125000)];
  [(fl 15444 1); (fl 270913 50); (fl 290993 1000000)];
  [(fl 28908 1); (fl 140408 5); (fl 147817 250000)];
  [(fl 10116000 1); (fl 16321900 1); (fl 182973 250000)];
  [(fl 247860 1); (fl 508213 1); (fl 393509 500000)];
  [(fl 6624 1); (fl 99467 25); (fl 8851 20000)]].
Example t05_ok : forallb (fun r => match r with [s; o; x] => ok d4 (ns5_6_alpha_s tpow s o) x | _ => false end) t05 = true.
Proof. vm_compute. reflexivity. Qed.

(** tests/test_AS4100_5.py test_s5_6_3_k_t: 80 cases. *)
Definition t06 : list (list pynum * restraint) := [
  ([(fl 347 1250); (fl 213 100); (fl 217 10000); (fl 69 5000); (PInt 1); (fl 106333 100000)], PL);
  ([(fl 33 50); (fl 3369 500); (fl 7 250); (fl 1 100); (PInt 1); (fl 63439 50000)], PL);
  ([(fl 19 25); (fl 2 1); (fl 1 40); (fl 1 100); (PInt 1); (fl 43551 25000)], FP);
  ([(fl 7 20); (fl 2213 250); (fl 1 50); (fl 1 50); (PInt 1); (fl 50247 50000)], FP);
  ([(fl 709 2500); (fl 1293 200); (fl 51 5000); (fl 61 10000); (PInt 1); (fl 1 1)], FF);
  ([(fl 277 1000); (fl 4929 1000); (fl 1 40); (fl 157 10000); (PInt 1); (fl 25709 25000)], PU);
  ([(fl 28 25); (fl 1733 500); (fl 4 125); (fl 2 125); (PInt 1); (fl 164627 100000)], PP);
  ([(fl 159 1000); (fl 2363 500); (fl 1 125); (fl 1 200); (PInt 1); (fl 20689 20000)], PP);
  ([(fl 9 20); (fl 3959 5000); (fl 1 40); (fl 1 50); (PInt 1); (fl 127751 100000)], PP);
  ([(fl 181 1000); (fl 991 200); (fl 4 125); (fl 1 40); (PInt 1); (fl 1 1)], FF);
  ([(fl 1129 5000); (fl 4767 5000); (fl 53 5000); (fl 53 5000); (PInt 1); (fl 1 1)], LL);
  ([(fl 67 250); (fl 2401 1000); (fl 2 125); (fl 1 125); (PInt 1); (fl 111161 100000)], PL);
  ([(fl 11 40); (fl 8997 1000); (fl 1 25); (fl 7 250); (PInt 1); (fl 1 1)], FF);
  ([(fl 347 1250); (fl 2187 500); (fl 187 10000); (fl 119 10000); (PInt 1); (fl 51539 50000)], PL);
  ([(fl 29 125); (fl 559 125); (fl 1 125); (fl 1 200); (PInt 1); (fl 3208 3125)], PL);
  ([(fl 1127 5000); (fl 4559 500); (fl 143 10000); (fl 143 10000); (PInt 1); (fl 100309 100000)], PL);
  ([(fl 131 1000); (fl 5871 1000); (fl 19 2000); (fl 3 500); (PInt 1); (fl 1 1)], FU);
  ([(fl 22 125); (fl 2807 500); (fl 3 250); (fl 3 500); (PInt 1); (fl 20627 20000)], PU);
  ([(fl 141 625); (fl 5843 1000); (fl 71 5000); (fl 43 5000); (PInt 1); (fl 102173 100000)], FP);
  ([(fl 693 2500); (fl 493 100); (fl 77 5000); (fl 99 10000); (PInt 1); (fl 1 1)], LL);
  ([(fl 7 20); (fl 7537 1000); (fl 2 125); (fl 2 125); (PInt 1); (fl 1 1)], FL);
  ([(fl 7 20); (fl 7459 1000); (fl 1 25); (fl 7 250); (PInt 1); (fl 10171 10000)], FP);
  ([(fl 358 625); (fl 8461 10000); (fl 49 2500); (fl 119 10000); (PInt 1); (fl 34453 25000)], PL);
  ([(fl 23 125); (fl 427 1250); (fl 7 1000); (fl 9 2000); (PInt 1); (fl 1 1)], LL);
  ([(fl 19 25); (fl 1493 250); (fl 2 125); (fl 1 100); (PInt 1); (fl 1 1)], FU);
  ([(fl 27 250); (fl 1049 1000); (fl 17 2000); (fl 1 200); (PInt 1); (fl 1 1)], FL);
  ([(fl 28 25); (fl 1337 250); (fl 1 25); (fl 2 125); (PInt 1); (fl 1 1)], FL);
  ([(fl 1417 5000); (fl 1349 200); (fl 59 5000); (fl 67 10000); (PInt 1); (fl 102869 100000)], PL);
  ([(fl 181 1000); (fl 4671 1000); (fl 11 1000); (fl 73 10000); (PInt 1); (fl 101657 100000)], PL);
  ([(fl 587 2500); (fl 1961 1000); (fl 43 5000); (fl 61 10000); (PInt 1); (fl 52097 50000)], PL);
  ([(fl 9 20); (fl 651 2500); (fl 4 125); (fl 1 40); (PInt 1); (fl 1 1)], FU);
  ([(fl 107 250); (fl 9017 1000); (fl 2 125); (fl 99 10000); (PInt 1); (fl 105009 100000)], PP);
  ([(fl 11 125); (fl 2931 1000); (fl 3 500); (fl 1 250); (PInt 1); (fl 1 1)], FF);
  ([(fl 1127 5000); (fl 2949 500); (fl 173 10000); (fl 21 2000); (PInt 1); (fl 102137 100000)], FP);
  ([(fl 107 250); (fl 3937 500); (fl 29 2000); (fl 91 10000); (PInt 1); (fl 102749 100000)], PL);
  ([(fl 433 5000); (fl 8199 1000); (fl 67 10000); (fl 21 5000); (PInt 1); (fl 1 1)], LL);
  ([(fl 1171 5000); (fl 901 200); (fl 109 10000); (fl 4 625); (PInt 1); (fl 1 1)], FF);
  ([(fl 7 20); (fl 287 125); (fl 1 40); (fl 1 50); (PInt 1); (fl 51861 50000)], PU);
  ([(fl 159 1000); (fl 1791 5000); (fl 7 1000); (fl 9 2000); (PInt 1); (fl 120887 100000)], PU);
  ([(fl 28 25); (fl 1799 500); (fl 1 40); (fl 2 125); (PInt 1); (fl 22969 20000)], FP);
  ([(fl 1663 5000); (fl 73 40); (fl 97 10000); (fl 69 10000); (PInt 1); (fl 112661 100000)], PP);
  ([(fl 11 40); (fl 137 50); (fl 9 250); (fl 7 250); (PInt 1); (fl 1 1)], LL);
  ([(fl 347 1250); (fl 213 100); (fl 217 10000); (fl 69 5000); (PInt 3); (fl 102111 100000)], PL);
  ([(fl 33 50); (fl 3369 500); (fl 7 250); (fl 1 100); (PInt 1); (fl 63439 50000)], PL);
  ([(fl 19 25); (fl 2 1); (fl 1 40); (fl 1 100); (PInt 2); (fl 68551 50000)], FP);
  ([(fl 7 20); (fl 2213 250); (fl 1 50); (fl 1 50); (PInt 1); (fl 50247 50000)], FP);
  ([(fl 709 2500); (fl 1293 200); (fl 51 5000); (fl 61 10000); (PInt 2); (fl 1 1)], FF);
  ([(fl 277 1000); (fl 4929 1000); (fl 1 40); (fl 157 10000); (PInt 3); (fl 20189 20000)], PU);
  ([(fl 159 1000); (fl 2363 500); (fl 1 125); (fl 1 200); (PInt 3); (fl 25287 25000)], PP);
  ([(fl 9 20); (fl 3959 5000); (fl 1 40); (fl 1 50); (PInt 3); (fl 437 400)], PP);
  ([(fl 181 1000); (fl 991 200); (fl 4 125); (fl 1 40); (PInt 3); (fl 1 1)], FF);
  ([(fl 1129 5000); (fl 4767 5000); (fl 53 5000); (fl 53 5000); (PInt 1); (fl 1 1)], LL);
  ([(fl 67 250); (fl 2401 1000); (fl 2 125); (fl 1 125); (PInt 3); (fl 2593 2500)], PL);
  ([(fl 11 40); (fl 8997 1000); (fl 1 25); (fl 7 250); (PInt 3); (fl 1 1)], FF);
  ([(fl 347 1250); (fl 2187 500); (fl 187 10000); (fl 119 10000); (PInt 2); (fl 101539 100000)], PL);
  ([(fl 1127 5000); (fl 4559 500); (fl 143 10000); (fl 143 10000); (PInt 3); (fl 100103 100000)], PL);
  ([(fl 131 1000); (fl 5871 1000); (fl 19 2000); (fl 3 500); (PInt 2); (fl 1 1)], FU);
  ([(fl 22 125); (fl 2807 500); (fl 3 250); (fl 3 500); (PInt 3); (fl 20209 20000)], PU);
  ([(fl 141 625); (fl 5843 1000); (fl 71 5000); (fl 43 5000); (PInt 1); (fl 102173 100000)], FP);
  ([(fl 693 2500); (fl 493 100); (fl 77 5000); (fl 99 10000); (PInt 1); (fl 1 1)], LL);
  ([(fl 7 20); (fl 7537 1000); (fl 2 125); (fl 2 125); (PInt 1); (fl 1 1)], FL);
  ([(fl 358 625); (fl 8461 10000); (fl 49 2500); (fl 119 10000); (PInt 2); (fl 59453 50000)], PL);
  ([(fl 23 125); (fl 427 1250); (fl 7 1000); (fl 9 2000); (PInt 2); (fl 1 1)], LL);
  ([(fl 19 25); (fl 1493 250); (fl 2 125); (fl 1 100); (PInt 1); (fl 1 1)], FU);
  ([(fl 27 250); (fl 1049 1000); (fl 17 2000); (fl 1 200); (PInt 3); (fl 1 1)], FL);
  ([(fl 28 25); (fl 1337 250); (fl 1 25); (fl 2 125); (PInt 2); (fl 1 1)], FL);
  ([(fl 1417 5000); (fl 1349 200); (fl 59 5000); (fl 67 10000); (PInt 1); (fl 102869 100000)], PL);
  ([(fl 181 1000); (fl 4671 1000); (fl 11 1000); (fl 73 10000); (PInt 3); (fl 12569 12500)], PL);
  ([(fl 587 2500); (fl 1961 1000); (fl 43 5000); (fl 61 10000); (PInt 3); (fl 50699 50000)], PL);
  ([(fl 9 20); (fl 651 2500); (fl 4 125); (fl 1 40); (PInt 3); (fl 1 1)], FU);
  ([(fl 11 125); (fl 2931 1000); (fl 3 500); (fl 1 250); (PInt 1); (fl 1 1)], FF);
  ([(fl 1127 5000); (fl 2949 500); (fl 173 10000); (fl 21 2000); (PInt 2); (fl 25267 25000)], FP);
  ([(fl 107 250); (fl 3937 500); (fl 29 2000); (fl 91 10000); (PInt 2); (fl 50687 50000)], PL);
  ([(fl 433 5000); (fl 8199 1000); (fl 67 10000); (fl 21 5000); (PInt 2); (fl 1 1)], LL);
  ([(fl 1171 5000); (fl 901 200); (fl 109 10000); (fl 4 625); (PInt 1); (fl 1 1)], FF);
  ([(fl 7 20); (fl 287 125); (fl 1 40); (fl 1 50); (PInt 3); (fl 101241 100000)], PU);
  ([(fl 159 1000); (fl 1791 5000); (fl 7 1000); (fl 9 2000); (PInt 1); (fl 120887 100000)], PU);
  ([(fl 28 25); (fl 1799 500); (fl 1 40); (fl 2 125); (PInt 1); (fl 22969 20000)], FP);
  ([(fl 17 125); (fl 4013 500); (fl 7 1000); (fl 1 200); (PInt 3); (fl 1 1)], LL);
  ([(fl 11 40); (fl 137 50); (fl 9 250); (fl 7 250); (PInt 3); (fl 1 1)], LL)].
Example t06_ok : forallb (fun r => match r with ([d; l; f; w; n; x], c) => ok d4 (ns5_6_3_k_t tpow d l f w n c) x | _ => false end) t06 = true.
Proof. vm_compute. reflexivity. Qed.

(** tests/test_AS4100_5.py test_s5_6_3_l_e: 80 cases. *)
Definition t07 : list (list pynum) := [
  [(fl 106517 50000); (fl 10633 10000); (fl 1 1); (fl 1 1); (fl 113263 50000)];
  [(fl 134759 20000); (fl 793 625); (fl 2 1); (fl 1 1); (fl 8549 500)];
  [(fl 200041 100000); (fl 871 500); (fl 7 5); (fl 17 20); (fl 41469 10000)];
  [(fl 885161 100000); (fl 10049 10000); (fl 2 1); (fl 1 1); (fl 177907 10000)];
  [(fl 129293 20000); (fl 1 1); (fl 7 5); (fl 17 20); (fl 769293 100000)];
  [(fl 61617 12500); (fl 2571 2500); (fl 2 1); (fl 17 20); (fl 430879 50000)];
  [(fl 346603 100000); (fl 16463 10000); (fl 7 5); (fl 17 20); (fl 679017 100000)];
  [(fl 472563 100000); (fl 2069 2000); (fl 7 5); (fl 17 20); (fl 23269 4000)];
  [(fl 79179 100000); (fl 511 400); (fl 2 1); (fl 17 20); (fl 85979 50000)];
  [(fl 99099 20000); (fl 1 1); (fl 2 1); (fl 7 10); (fl 173423 25000)];
  [(fl 476707 500000); (fl 1 1); (fl 1 1); (fl 1 1); (fl 476707 500000)];
  [(fl 48023 20000); (fl 2779 2500); (fl 7 5); (fl 17 20); (fl 79407 25000)];
  [(fl 35987 4000); (fl 1 1); (fl 2 1); (fl 1 1); (fl 35987 2000)];
  [(fl 437433 100000); (fl 2577 2500); (fl 2 1); (fl 17 20); (fl 23954 3125)];
  [(fl 447163 100000); (fl 5133 5000); (fl 2 1); (fl 17 20); (fl 78037 10000)];
  [(fl 5699 625); (fl 10031 10000); (fl 7 5); (fl 7 10); (fl 224091 25000)];
  [(fl 4697 800); (fl 1 1); (fl 2 1); (fl 17 20); (fl 998113 100000)];
  [(fl 22457 4000); (fl 10313 10000); (fl 2 1); (fl 17 20); (fl 984343 100000)];
  [(fl 292157 50000); (fl 10217 10000); (fl 1 1); (fl 1 1); (fl 37313 6250)];
  [(fl 98601 20000); (fl 1 1); (fl 7 5); (fl 17 20); (fl 146669 25000)];
  [(fl 753731 100000); (fl 1 1); (fl 2 1); (fl 1 1); (fl 75373 5000)];
  [(fl 745913 100000); (fl 10171 10000); (fl 7 5); (fl 17 20); (fl 180563 20000)];
  [(fl 846077 1000000); (fl 13781 10000); (fl 7 5); (fl 7 10); (fl 28567 25000)];
  [(fl 42699 125000); (fl 1 1); (fl 1 1); (fl 1 1); (fl 42699 125000)];
  [(fl 74649 12500); (fl 1 1); (fl 1 1); (fl 1 1); (fl 74649 12500)];
  [(fl 104903 100000); (fl 1 1); (fl 7 5); (fl 7 10); (fl 20561 20000)];
  [(fl 534757 100000); (fl 1 1); (fl 2 1); (fl 17 20); (fl 909087 100000)];
  [(fl 134903 20000); (fl 10287 10000); (fl 1 1); (fl 17 20); (fl 589787 100000)];
  [(fl 233537 50000); (fl 5083 5000); (fl 2 1); (fl 17 20); (fl 403593 50000)];
  [(fl 98059 50000); (fl 10419 10000); (fl 2 1); (fl 17 20); (fl 347383 100000)];
  [(fl 260397 1000000); (fl 1 1); (fl 1 1); (fl 7 10); (fl 91139 500000)];
  [(fl 450873 50000); (fl 10501 10000); (fl 1 1); (fl 17 20); (fl 804877 100000)];
  [(fl 146559 50000); (fl 1 1); (fl 7 5); (fl 17 20); (fl 34881 10000)];
  [(fl 147447 25000); (fl 5107 5000); (fl 1 1); (fl 17 20); (fl 512031 100000)];
  [(fl 787351 100000); (fl 411 400); (fl 7 5); (fl 17 20); (fl 60169 6250)];
  [(fl 819891 100000); (fl 1 1); (fl 7 5); (fl 7 10); (fl 401747 50000)];
  [(fl 14078 3125); (fl 1 1); (fl 1 1); (fl 17 20); (fl 191461 50000)];
  [(fl 57397 25000); (fl 2593 2500); (fl 2 1); (fl 1 1); (fl 238133 50000)];
  [(fl 89543 250000); (fl 12089 10000); (fl 7 5); (fl 7 10); (fl 424323 1000000)];
  [(fl 1439 400); (fl 2297 2000); (fl 7 5); (fl 7 10); (fl 404893 100000)];
  [(fl 91229 50000); (fl 5633 5000); (fl 2 1); (fl 7 10); (fl 143891 50000)];
  [(fl 273999 100000); (fl 1 1); (fl 1 1); (fl 1 1); (fl 273999 100000)];
  [(fl 106517 50000); (fl 10211 10000); (fl 7 5); (fl 17 20); (fl 258863 100000)];
  [(fl 134759 20000); (fl 793 625); (fl 7 5); (fl 7 10); (fl 837801 100000)];
  [(fl 200041 100000); (fl 1371 1000); (fl 2 1); (fl 1 1); (fl 13713 2500)];
  [(fl 885161 100000); (fl 10049 10000); (fl 2 1); (fl 1 1); (fl 177907 10000)];
  [(fl 129293 20000); (fl 1 1); (fl 7 5); (fl 17 20); (fl 769293 100000)];
  [(fl 61617 12500); (fl 2019 2000); (fl 1 1); (fl 1 1); (fl 124399 25000)];
  [(fl 472563 100000); (fl 2023 2000); (fl 1 1); (fl 17 20); (fl 406291 100000)];
  [(fl 79179 100000); (fl 437 400); (fl 7 5); (fl 17 20); (fl 102939 100000)];
  [(fl 99099 20000); (fl 1 1); (fl 7 5); (fl 1 1); (fl 173423 25000)];
  [(fl 476707 500000); (fl 1 1); (fl 1 1); (fl 7 10); (fl 66739 100000)];
  [(fl 48023 20000); (fl 2593 2500); (fl 2 1); (fl 7 10); (fl 348667 100000)];
  [(fl 35987 4000); (fl 1 1); (fl 7 5); (fl 7 10); (fl 440841 50000)];
  [(fl 437433 100000); (fl 5077 5000); (fl 7 5); (fl 1 1); (fl 621833 100000)];
  [(fl 5699 625); (fl 1001 1000); (fl 2 1); (fl 1 1); (fl 45639 2500)];
  [(fl 4697 800); (fl 1 1); (fl 2 1); (fl 17 20); (fl 998113 100000)];
  [(fl 22457 4000); (fl 1263 1250); (fl 1 1); (fl 1 1); (fl 141823 25000)];
  [(fl 292157 50000); (fl 10217 10000); (fl 2 1); (fl 17 20); (fl 101491 10000)];
  [(fl 98601 20000); (fl 1 1); (fl 1 1); (fl 17 20); (fl 209527 50000)];
  [(fl 753731 100000); (fl 1 1); (fl 2 1); (fl 1 1); (fl 75373 5000)];
  [(fl 846077 1000000); (fl 11891 10000); (fl 2 1); (fl 1 1); (fl 201207 100000)];
  [(fl 42699 125000); (fl 1 1); (fl 1 1); (fl 7 10); (fl 119557 500000)];
  [(fl 74649 12500); (fl 1 1); (fl 7 5); (fl 17 20); (fl 710659 100000)];
  [(fl 104903 100000); (fl 1 1); (fl 2 1); (fl 1 1); (fl 104903 50000)];
  [(fl 534757 100000); (fl 1 1); (fl 7 5); (fl 17 20); (fl 636361 100000)];
  [(fl 134903 20000); (fl 10287 10000); (fl 1 1); (fl 7 10); (fl 485707 100000)];
  [(fl 233537 50000); (fl 2011 2000); (fl 1 1); (fl 1 1); (fl 93931 20000)];
  [(fl 98059 50000); (fl 507 500); (fl 1 1); (fl 17 20); (fl 169031 100000)];
  [(fl 260397 1000000); (fl 1 1); (fl 7 5); (fl 7 10); (fl 255189 1000000)];
  [(fl 146559 50000); (fl 1 1); (fl 2 1); (fl 17 20); (fl 4983 1000)];
  [(fl 147447 25000); (fl 10107 10000); (fl 7 5); (fl 7 10); (fl 584167 100000)];
  [(fl 787351 100000); (fl 10137 10000); (fl 7 5); (fl 7 10); (fl 78221 10000)];
  [(fl 819891 100000); (fl 1 1); (fl 2 1); (fl 7 10); (fl 22957 2000)];
  [(fl 14078 3125); (fl 1 1); (fl 7 5); (fl 1 1); (fl 126139 20000)];
  [(fl 57397 25000); (fl 2531 2500); (fl 2 1); (fl 1 1); (fl 464873 100000)];
  [(fl 89543 250000); (fl 12089 10000); (fl 7 5); (fl 1 1); (fl 18943 31250)];
  [(fl 1439 400); (fl 2297 2000); (fl 1 1); (fl 1 1); (fl 103289 25000)];
  [(fl 16051 2000); (fl 1 1); (fl 2 1); (fl 1 1); (fl 16051 1000)];
  [(fl 273999 100000); (fl 1 1); (fl 1 1); (fl 1 1); (fl 273999 100000)]].
Example t07_ok : forallb (fun r => match r with [l; t; a; r; x] => is d4 (ns5_6_3_l_e t a r l) x | _ => false end) t07 = true.
Proof. vm_compute. reflexivity. Qed.

(** tests/test_AS4100_5.py test_s5_6_1_Mb: 46 cases. *)
Definition t08 : list (list pynum) := [
  [(fl 130317 500000); (fl 59259 50000); (fl 5104 5); (fl 315323 1000)];
  [(fl 23133 40000); (fl 63811 50000); (fl 46500 1); (fl 343201 10)];
  [(fl 9583 12500); (fl 5 2); (fl 644000 1); (fl 1234290 1)];
  [(fl 389961 1000000); (fl 69439 50000); (fl 5440 1); (fl 294613 100)];
  [(fl 236173 500000); (fl 136323 100000); (fl 1789200 1); (fl 1152090 1)];
  [(fl 204941 250000); (fl 121823 100000); (fl 1915200 1); (fl 1912640 1)];
  [(fl 476759 500000); (fl 591 500); (fl 1023000 1); (fl 1152980 1)];
  [(fl 795673 1000000); (fl 1641 1250); (fl 168560 1); (fl 176071 1)];
  [(fl 895473 1000000); (fl 111879 100000); (fl 202560 1); (fl 202933 1)];
  [(fl 51687 50000); (fl 1383 1000); (fl 750400 1); (fl 1072820 1)];
  [(fl 49681 100000); (fl 61797 50000); (fl 8464 5); (fl 103943 100)];
  [(fl 114329 125000); (fl 118167 50000); (fl 5544000 1); (fl 11983800 1)];
  [(fl 3263 25000); (fl 114069 100000); (fl 50240 1); (fl 747989 100)];
  [(fl 25309 25000); (fl 60239 50000); (fl 1876000 1); (fl 2288100 1)];
  [(fl 7111 10000); (fl 118923 100000); (fl 476000 1); (fl 402535 1)];
  [(fl 126707 250000); (fl 6049 5000); (fl 6144 1); (fl 188363 50)];
  [(fl 915833 1000000); (fl 129163 100000); (fl 239040 1); (fl 282765 1)];
  [(fl 229493 500000); (fl 8931 6250); (fl 2352 5); (fl 77131 250)];
  [(fl 56411 250000); (fl 122991 100000); (fl 191760 1); (fl 266088 5)];
  [(fl 194407 200000); (fl 160601 100000); (fl 1778400 1); (fl 2776270 1)];
  [(fl 5129 5000); (fl 3399 3125); (fl 663000 1); (fl 739734 1)];
  [(fl 56193 125000); (fl 137789 100000); (fl 37060 1); (fl 114779 5)];
  [(fl 471391 1000000); (fl 113809 100000); (fl 22984 1); (fl 61653 5)];
  [(fl 30853 100000); (fl 147757 100000); (fl 114840 1); (fl 523527 10)];
  [(fl 59669 100000); (fl 115213 100000); (fl 363800 1); (fl 250099 1)];
  [(fl 55049 100000); (fl 168467 100000); (fl 23766 1); (fl 44081 2)];
  [(fl 324491 1000000); (fl 156289 100000); (fl 5076 1); (fl 257427 100)];
  [(fl 336909 500000); (fl 147017 100000); (fl 46440 1); (fl 230023 5)];
  [(fl 246721 1000000); (fl 3417 3125); (fl 75140 1); (fl 101354 5)];
  [(fl 139289 200000); (fl 152289 100000); (fl 332180 1); (fl 352313 1)];
  [(fl 39619 40000); (fl 39403 20000); (fl 527000 1); (fl 1028380 1)];
  [(fl 101631 100000); (fl 14657 10000); (fl 915800 1); (fl 1364180 1)];
  [(fl 26753 100000); (fl 4621 3125); (fl 9576 5); (fl 378829 500)];
  [(fl 51647 50000); (fl 5 2); (fl 2556000 1); (fl 6600470 1)];
  [(fl 339203 1000000); (fl 36209 25000); (fl 1251200 1); (fl 614697 1)];
  [(fl 571637 1000000); (fl 125411 100000); (fl 10980 1); (fl 196787 25)];
  [(fl 27753 250000); (fl 116641 100000); (fl 64800 1); (fl 209766 25)];
  [(fl 420687 500000); (fl 11643 10000); (fl 159460 1); (fl 156208 1)];
  [(fl 20039 100000); (fl 166167 100000); (fl 13662 5); (fl 22746 25)];
  [(fl 809823 1000000); (fl 23463 20000); (fl 1649200 1); (fl 1566810 1)];
  [(fl 37309 125000); (fl 37413 20000); (fl 15588 5); (fl 174067 100)];
  [(fl 290993 1000000); (fl 136229 100000); (fl 15444 1); (fl 612227 100)];
  [(fl 147817 250000); (fl 30747 25000); (fl 28908 1); (fl 42043 2)];
  [(fl 182973 250000); (fl 139793 100000); (fl 10116000 1); (fl 10350000 1)];
  [(fl 393509 500000); (fl 24931 20000); (fl 247860 1); (fl 243165 1)];
  [(fl 8851 20000); (fl 152809 100000); (fl 6624 1); (fl 111988 25)]].
Example t08_ok : forallb (fun r => match r with [s; m; n; x] => is d4 (ns5_6_1_Mb n m s) x | _ => false end) t08 = true.
Proof. vm_compute. reflexivity. Qed.

(** tests/test_AS4100_6.py test_s6_2_A_e: 55 cases. *)
Definition t09 : list (list pynum) := [
  [(fl 189 100000); (PInt 1); (fl 189 100000)];
  [(fl 189 100000); (PInt 1); (fl 189 100000)];
  [(fl 189 100000); (PInt 1); (fl 189 100000)];
  [(fl 189 100000); (PInt 1); (fl 189 100000)];
  [(fl 579 10000); (fl 837 1000); (fl 484623 10000000)];
  [(fl 579 10000); (fl 837 1000); (fl 484623 10000000)];
  [(fl 579 10000); (fl 837 1000); (fl 484623 10000000)];
  [(fl 579 10000); (fl 837 1000); (fl 484623 10000000)];
  [(fl 579 10000); (fl 837 1000); (fl 484623 10000000)];
  [(fl 579 10000); (fl 837 1000); (fl 484623 10000000)];
  [(fl 117 100000); (fl 103 125); (fl 12051 12500000)];
  [(fl 117 100000); (fl 103 125); (fl 12051 12500000)];
  [(fl 117 100000); (fl 103 125); (fl 12051 12500000)];
  [(fl 117 100000); (fl 103 125); (fl 12051 12500000)];
  [(fl 117 100000); (fl 103 125); (fl 12051 12500000)];
  [(fl 117 100000); (fl 103 125); (fl 12051 12500000)];
  [(fl 279 100000); (fl 479 500); (fl 133641 50000000)];
  [(fl 279 100000); (fl 479 500); (fl 133641 50000000)];
  [(fl 279 100000); (fl 479 500); (fl 133641 50000000)];
  [(fl 279 100000); (fl 479 500); (fl 133641 50000000)];
  [(fl 279 100000); (fl 479 500); (fl 133641 50000000)];
  [(fl 279 100000); (fl 479 500); (fl 133641 50000000)];
  [(fl 143 1000000); (PInt 1); (fl 143 1000000)];
  [(fl 143 1000000); (PInt 1); (fl 143 1000000)];
  [(fl 143 1000000); (PInt 1); (fl 143 1000000)];
  [(fl 143 1000000); (PInt 1); (fl 143 1000000)];
  [(fl 143 1000000); (PInt 1); (fl 143 1000000)];
  [(fl 251 10000); (PInt 1); (fl 251 10000)];
  [(fl 251 10000); (PInt 1); (fl 251 10000)];
  [(fl 251 10000); (PInt 1); (fl 251 10000)];
  [(fl 251 10000); (PInt 1); (fl 251 10000)];
  [(fl 251 10000); (PInt 1); (fl 251 10000)];
  [(fl 703 100000); (PInt 1); (fl 703 100000)];
  [(fl 703 100000); (PInt 1); (fl 703 100000)];
  [(fl 703 100000); (PInt 1); (fl 703 100000)];
  [(fl 703 100000); (PInt 1); (fl 703 100000)];
  [(fl 703 100000); (PInt 1); (fl 703 100000)];
  [(fl 2 125); (fl 19 20); (fl 19 1250)];
  [(fl 2 125); (fl 19 20); (fl 19 1250)];
  [(fl 2 125); (fl 19 20); (fl 19 1250)];
  [(fl 2 125); (fl 19 20); (fl 19 1250)];
  [(fl 2 125); (fl 19 20); (fl 19 1250)];
  [(fl 377 500000); (PInt 1); (fl 377 500000)];
  [(fl 377 500000); (PInt 1); (fl 377 500000)];
  [(fl 377 500000); (PInt 1); (fl 377 500000)];
  [(fl 377 500000); (PInt 1); (fl 377 500000)];
  [(fl 377 500000); (PInt 1); (fl 377 500000)];
  [(fl 11 1000); (PInt 1); (fl 11 1000)];
  [(fl 11 1000); (PInt 1); (fl 11 1000)];
  [(fl 11 1000); (PInt 1); (fl 11 1000)];
  [(fl 11 1000); (PInt 1); (fl 11 1000)];
  [(fl 13 1000); (PInt 1); (fl 13 1000)];
  [(fl 13 1000); (PInt 1); (fl 13 1000)];
  [(fl 13 1000); (PInt 1); (fl 13 1000)];
  [(fl 13 1000); (PInt 1); (fl 13 1000)]].
Example t09_ok : forallb (fun r => match r with [a; k; x] => is d5 (ns6_2_A_e a k) x | _ => false end) t09 = true.
Proof. vm_compute. reflexivity. Qed.

(** tests/test_AS4100_6.py test_s6_2_N_s: 55 cases. *)
Definition t10 : list (list pynum) := [
  [(fl 189 100000); (PInt 1); (fl 320000000 1); (fl 604800 1)];
  [(fl 189 100000); (PInt 1); (fl 320000000 1); (fl 604800 1)];
  [(fl 189 100000); (PInt 1); (fl 320000000 1); (fl 604800 1)];
  [(fl 189 100000); (PInt 1); (fl 320000000 1); (fl 604800 1)];
  [(fl 579 10000); (fl 837 1000); (fl 280000000 1); (fl 13569444 1)];
  [(fl 579 10000); (fl 837 1000); (fl 280000000 1); (fl 13569444 1)];
  [(fl 579 10000); (fl 837 1000); (fl 280000000 1); (fl 13569444 1)];
  [(fl 579 10000); (fl 837 1000); (fl 280000000 1); (fl 13569444 1)];
  [(fl 579 10000); (fl 837 1000); (fl 280000000 1); (fl 13569444 1)];
  [(fl 579 10000); (fl 837 1000); (fl 280000000 1); (fl 13569444 1)];
  [(fl 117 100000); (fl 103 125); (fl 320000000 1); (fl 1542528 5)];
  [(fl 117 100000); (fl 103 125); (fl 320000000 1); (fl 1542528 5)];
  [(fl 117 100000); (fl 103 125); (fl 320000000 1); (fl 1542528 5)];
  [(fl 117 100000); (fl 103 125); (fl 320000000 1); (fl 1542528 5)];
  [(fl 117 100000); (fl 103 125); (fl 320000000 1); (fl 1542528 5)];
  [(fl 117 100000); (fl 103 125); (fl 320000000 1); (fl 1542528 5)];
  [(fl 279 100000); (fl 479 500); (fl 320000000 1); (fl 4276512 5)];
  [(fl 279 100000); (fl 479 500); (fl 320000000 1); (fl 4276512 5)];
  [(fl 279 100000); (fl 479 500); (fl 320000000 1); (fl 4276512 5)];
  [(fl 279 100000); (fl 479 500); (fl 320000000 1); (fl 4276512 5)];
  [(fl 279 100000); (fl 479 500); (fl 320000000 1); (fl 4276512 5)];
  [(fl 279 100000); (fl 479 500); (fl 320000000 1); (fl 4276512 5)];
  [(fl 143 1000000); (PInt 1); (fl 320000000 1); (fl 45760 1)];
  [(fl 143 1000000); (PInt 1); (fl 320000000 1); (fl 45760 1)];
  [(fl 143 1000000); (PInt 1); (fl 320000000 1); (fl 45760 1)];
  [(fl 143 1000000); (PInt 1); (fl 320000000 1); (fl 45760 1)];
  [(fl 143 1000000); (PInt 1); (fl 320000000 1); (fl 45760 1)];
  [(fl 251 10000); (PInt 1); (fl 280000000 1); (fl 7028000 1)];
  [(fl 251 10000); (PInt 1); (fl 280000000 1); (fl 7028000 1)];
  [(fl 251 10000); (PInt 1); (fl 280000000 1); (fl 7028000 1)];
  [(fl 251 10000); (PInt 1); (fl 280000000 1); (fl 7028000 1)];
  [(fl 251 10000); (PInt 1); (fl 280000000 1); (fl 7028000 1)];
  [(fl 703 100000); (PInt 1); (fl 280000000 1); (fl 1968400 1)];
  [(fl 703 100000); (PInt 1); (fl 280000000 1); (fl 1968400 1)];
  [(fl 703 100000); (PInt 1); (fl 280000000 1); (fl 1968400 1)];
  [(fl 703 100000); (PInt 1); (fl 280000000 1); (fl 1968400 1)];
  [(fl 703 100000); (PInt 1); (fl 280000000 1); (fl 1968400 1)];
  [(fl 2 125); (fl 19 20); (fl 280000000 1); (fl 4256000 1)];
  [(fl 2 125); (fl 19 20); (fl 280000000 1); (fl 4256000 1)];
  [(fl 2 125); (fl 19 20); (fl 280000000 1); (fl 4256000 1)];
  [(fl 2 125); (fl 19 20); (fl 280000000 1); (fl 4256000 1)];
  [(fl 2 125); (fl 19 20); (fl 280000000 1); (fl 4256000 1)];
  [(fl 377 500000); (PInt 1); (fl 320000000 1); (fl 241280 1)];
  [(fl 377 500000); (PInt 1); (fl 320000000 1); (fl 241280 1)];
  [(fl 377 500000); (PInt 1); (fl 320000000 1); (fl 241280 1)];
  [(fl 377 500000); (PInt 1); (fl 320000000 1); (fl 241280 1)];
  [(fl 377 500000); (PInt 1); (fl 320000000 1); (fl 241280 1)];
  [(fl 11 1000); (PInt 1); (fl 300000000 1); (fl 3300000 1)];
  [(fl 11 1000); (PInt 1); (fl 300000000 1); (fl 3300000 1)];
  [(fl 11 1000); (PInt 1); (fl 300000000 1); (fl 3300000 1)];
  [(fl 11 1000); (PInt 1); (fl 300000000 1); (fl 3300000 1)];
  [(fl 13 1000); (PInt 1); (fl 300000000 1); (fl 3900000 1)];
  [(fl 13 1000); (PInt 1); (fl 300000000 1); (fl 3900000 1)];
  [(fl 13 1000); (PInt 1); (fl 300000000 1); (fl 3900000 1)];
  [(fl 13 1000); (PInt 1); (fl 300000000 1); (fl 3900000 1)]].
Example t10_ok : forallb (fun r => match r with [a; k; f; x] => is d5 (ns6_2_N_s (ns6_2_A_e a k) f) x | _ => false end) t10 = true.
Proof. vm_compute. reflexivity. Qed.

(** tests/test_AS4100_6.py test_N_euler: 55 cases. *)
Definition t11 : list (list pynum) := [
  [(fl 200000000000 1); (fl 159 50000000); (PInt 10); (fl 57 50000000); (PInt 10); (fl 15692671 250); (fl 11251349 500)];
  [(fl 200000000000 1); (fl 159 50000000); (PInt 5); (fl 57 50000000); (PInt 5); (fl 31385342 125); (fl 900107921 10000)];
  [(fl 200000000000 1); (fl 159 50000000); (PInt 1); (fl 57 50000000); (PInt 1); (fl 31385342 5); (fl 11251349 5)];
  [(fl 200000000000 1); (fl 159 50000000); (fl 1 2); (fl 57 50000000); (fl 1 2); (fl 125541368 5); (fl 900107921 100)];
  [(fl 200000000000 1); (fl 153 10000); (PInt 80); (fl 417 500000); (PInt 80); (fl 23594523 5); (fl 51445313 200)];
  [(fl 200000000000 1); (fl 153 10000); (PInt 40); (fl 417 500000); (PInt 40); (fl 94378092 5); (fl 51445313 50)];
  [(fl 200000000000 1); (fl 153 10000); (PInt 20); (fl 417 500000); (PInt 20); (fl 755024737 10); (fl 102890626 25)];
  [(fl 200000000000 1); (fl 153 10000); (PInt 10); (fl 417 500000); (PInt 10); (fl 302009895 1); (fl 164625001 10)];
  [(fl 200000000000 1); (fl 153 10000); (PInt 5); (fl 417 500000); (PInt 5); (fl 1208039580 1); (fl 329250003 5)];
  [(fl 200000000000 1); (fl 153 10000); (PInt 1); (fl 417 500000); (PInt 1); (fl 30200989500 1); (fl 1646250010 1)];
  [(fl 200000000000 1); (fl 21 10000000); (PInt 20); (fl 63 200000000); (PInt 20); (fl 51815423 5000); (fl 155446269 100000)];
  [(fl 200000000000 1); (fl 21 10000000); (PInt 10); (fl 63 200000000); (PInt 10); (fl 82904677 2000); (fl 621785077 100000)];
  [(fl 200000000000 1); (fl 21 10000000); (PInt 5); (fl 63 200000000); (PInt 5); (fl 82904677 500); (fl 248714031 10000)];
  [(fl 200000000000 1); (fl 21 10000000); (PInt 1); (fl 63 200000000); (PInt 1); (fl 82904677 20); (fl 621785077 1000)];
  [(fl 200000000000 1); (fl 21 10000000); (fl 1 2); (fl 63 200000000); (fl 1 2); (fl 82904677 5); (fl 248714031 100)];
  [(fl 200000000000 1); (fl 21 10000000); (fl 1 10); (fl 63 200000000); (fl 1 10); (fl 414523385 1); (fl 621785077 10)];
  [(fl 200000000000 1); (fl 961 100000000); (PInt 20); (fl 31 12500000); (PInt 20); (fl 474234491 10000); (fl 24476619 2000)];
  [(fl 200000000000 1); (fl 961 100000000); (PInt 10); (fl 31 12500000); (PInt 10); (fl 189693797 1000); (fl 244766189 5000)];
  [(fl 200000000000 1); (fl 961 100000000); (PInt 5); (fl 31 12500000); (PInt 5); (fl 379387593 500); (fl 195812951 1000)];
  [(fl 200000000000 1); (fl 961 100000000); (PInt 1); (fl 31 12500000); (PInt 1); (fl 189693797 10); (fl 244766189 50)];
  [(fl 200000000000 1); (fl 961 100000000); (fl 1 2); (fl 31 12500000); (fl 1 2); (fl 379387593 5); (fl 195812951 10)];
  [(fl 200000000000 1); (fl 961 100000000); (fl 1 10); (fl 31 12500000); (fl 1 10); (fl 1896937970 1); (fl 489532378 1)];
  [(fl 200000000000 1); (fl 121 10000000000); (PInt 10); (fl 319 100000000000); (PInt 10); (fl 238844427 1000000); (fl 629680761 10000000)];
  [(fl 200000000000 1); (fl 121 10000000000); (PInt 5); (fl 319 100000000000); (PInt 5); (fl 477688853 500000); (fl 15742019 62500)];
  [(fl 200000000000 1); (fl 121 10000000000); (PInt 1); (fl 319 100000000000); (PInt 1); (fl 238844427 10000); (fl 629680761 100000)];
  [(fl 200000000000 1); (fl 121 10000000000); (fl 1 2); (fl 319 100000000000); (fl 1 2); (fl 477688853 5000); (fl 15742019 625)];
  [(fl 200000000000 1); (fl 121 10000000000); (fl 1 10); (fl 319 100000000000); (fl 1 10); (fl 238844427 100); (fl 629680761 1000)];
  [(fl 200000000000 1); (fl 243 500000); (PInt 40); (fl 1 5000); (PInt 40); (fl 599578467 1000); (fl 24674011 100)];
  [(fl 200000000000 1); (fl 243 500000); (PInt 20); (fl 1 5000); (PInt 20); (fl 239831387 100); (fl 24674011 25)];
  [(fl 200000000000 1); (fl 243 500000); (PInt 10); (fl 1 5000); (PInt 10); (fl 239831387 25); (fl 98696044 25)];
  [(fl 200000000000 1); (fl 243 500000); (PInt 5); (fl 1 5000); (PInt 5); (fl 383730219 10); (fl 15791367 1)];
  [(fl 200000000000 1); (fl 243 500000); (PInt 1); (fl 1 5000); (PInt 1); (fl 959325548 1); (fl 394784176 1)];
  [(fl 200000000000 1); (fl 19 125000); (PInt 20); (fl 81 12500000); (PInt 20); (fl 375044967 500); (fl 319775183 10000)];
  [(fl 200000000000 1); (fl 19 125000); (PInt 10); (fl 81 12500000); (PInt 10); (fl 150017987 50); (fl 127910073 1000)];
  [(fl 200000000000 1); (fl 19 125000); (PInt 5); (fl 81 12500000); (PInt 5); (fl 12001439 1); (fl 127910073 250)];
  [(fl 200000000000 1); (fl 19 125000); (PInt 1); (fl 81 12500000); (PInt 1); (fl 300035974 1); (fl 127910073 10)];
  [(fl 200000000000 1); (fl 19 125000); (fl 1 2); (fl 81 12500000); (fl 1 2); (fl 1200143900 1); (fl 255820146 5)];
  [(fl 200000000000 1); (fl 493 500000); (PInt 40); (fl 393 10000000); (PInt 40); (fl 60821437 50); (fl 121211079 2500)];
  [(fl 200000000000 1); (fl 493 500000); (PInt 20); (fl 393 10000000); (PInt 20); (fl 486571497 100); (fl 96968863 500)];
  [(fl 200000000000 1); (fl 493 500000); (PInt 10); (fl 393 10000000); (PInt 10); (fl 194628599 10); (fl 387875453 500)];
  [(fl 200000000000 1); (fl 493 500000); (PInt 5); (fl 393 10000000); (PInt 5); (fl 155702879 2); (fl 155150181 50)];
  [(fl 200000000000 1); (fl 493 500000); (PInt 1); (fl 393 10000000); (PInt 1); (fl 1946285990 1); (fl 387875453 5)];
  [(fl 200000000000 1); (fl 683 1000000000); (PInt 10); (fl 3 25000000); (PInt 10); (fl 33704699 2500); (fl 118435253 50000)];
  [(fl 200000000000 1); (fl 683 1000000000); (PInt 5); (fl 3 25000000); (PInt 5); (fl 33704699 625); (fl 947482023 100000)];
  [(fl 200000000000 1); (fl 683 1000000000); (PInt 1); (fl 3 25000000); (PInt 1); (fl 33704699 25); (fl 118435253 500)];
  [(fl 200000000000 1); (fl 683 1000000000); (fl 1 2); (fl 3 25000000); (fl 1 2); (fl 134818796 25); (fl 947482023 1000)];
  [(fl 200000000000 1); (fl 683 1000000000); (fl 1 10); (fl 3 25000000); (fl 1 10); (fl 134818796 1); (fl 118435253 5)];
  [(fl 200000000000 1); (fl 30336553 62500000000); (PInt 10); (fl 150416667 10000000000000); (PInt 10); (fl 958111287 100); (fl 296910599 1000)];
  [(fl 200000000000 1); (fl 30336553 62500000000); (PInt 5); (fl 150416667 10000000000000); (PInt 5); (fl 76648903 2); (fl 5938212 5)];
  [(fl 200000000000 1); (fl 30336553 62500000000); (PInt 1); (fl 150416667 10000000000000); (PInt 1); (fl 958111287 1); (fl 296910599 10)];
  [(fl 200000000000 1); (fl 30336553 62500000000); (fl 1 2); (fl 150416667 10000000000000); (fl 1 2); (fl 3832445150 1); (fl 118764240 1)];
  [(fl 200000000000 1); (fl 210008333 1000000000000); (PInt 10); (fl 66775641 2500000000000); (PInt 10); (fl 207269917 50); (fl 65904916 125)];
  [(fl 200000000000 1); (fl 210008333 1000000000000); (PInt 5); (fl 66775641 2500000000000); (PInt 5); (fl 82907967 5); (fl 210895731 100)];
  [(fl 200000000000 1); (fl 210008333 1000000000000); (PInt 1); (fl 66775641 2500000000000); (PInt 1); (fl 414539834 1); (fl 263619664 5)];
  [(fl 200000000000 1); (fl 210008333 1000000000000); (fl 1 2); (fl 66775641 2500000000000); (fl 1 2); (fl 1658159340 1); (fl 210895731 1)]].
Example t11_ok : forallb (fun r => match r with [e; ix; lx; iy; ly; x; y] => ok d5 (nN_euler e ix lx) x && ok d5 (nN_euler e iy ly) y | _ => false end) t11 = true.
Proof. vm_compute. reflexivity. Qed.

(** tests/test_AS4100_6.py test_f_euler: 55 cases. *)
Definition t12 : list (list pynum) := [
  [(fl 200000000000 1); (PInt 10); (fl 411 10000); (PInt 10); (fl 49 2000); (fl 333436689 10); (fl 118484601 10)];
  [(fl 200000000000 1); (PInt 5); (fl 411 10000); (PInt 5); (fl 49 2000); (fl 133374676 1); (fl 473938403 10)];
  [(fl 200000000000 1); (PInt 1); (fl 411 10000); (PInt 1); (fl 49 2000); (fl 3334366890 1); (fl 1184846010 1)];
  [(fl 200000000000 1); (fl 1 2); (fl 411 10000); (fl 1 2); (fl 49 2000); (fl 13337467600 1); (fl 4739384030 1)];
  [(fl 200000000000 1); (PInt 80); (fl 103 200); (PInt 80); (fl 3 25); (fl 818020571 10); (fl 222066099 50)];
  [(fl 200000000000 1); (PInt 40); (fl 103 200); (PInt 40); (fl 3 25); (fl 327208228 1); (fl 177652879 10)];
  [(fl 200000000000 1); (PInt 20); (fl 103 200); (PInt 20); (fl 3 25); (fl 1308832910 1); (fl 710611517 10)];
  [(fl 200000000000 1); (PInt 10); (fl 103 200); (PInt 10); (fl 3 25); (fl 5235331650 1); (fl 284244607 1)];
  [(fl 200000000000 1); (PInt 5); (fl 103 200); (PInt 5); (fl 3 25); (fl 20941326600 1); (fl 1136978430 1)];
  [(fl 200000000000 1); (PInt 1); (fl 103 200); (PInt 1); (fl 3 25); (fl 523533165000 1); (fl 28424460700 1)];
  [(fl 200000000000 1); (PInt 20); (fl 17 400); (PInt 20); (fl 41 2500); (fl 891348647 100); (fl 6636322 5)];
  [(fl 200000000000 1); (PInt 10); (fl 17 400); (PInt 10); (fl 41 2500); (fl 356539459 10); (fl 26545288 5)];
  [(fl 200000000000 1); (PInt 5); (fl 17 400); (PInt 5); (fl 41 2500); (fl 142615784 1); (fl 106181152 5)];
  [(fl 200000000000 1); (PInt 1); (fl 17 400); (PInt 1); (fl 41 2500); (fl 3565394590 1); (fl 530905760 1)];
  [(fl 200000000000 1); (fl 1 2); (fl 17 400); (fl 1 2); (fl 41 2500); (fl 14261578400 1); (fl 2123623040 1)];
  [(fl 200000000000 1); (fl 1 10); (fl 17 400); (fl 1 10); (fl 41 2500); (fl 356539459000 1); (fl 53090576000 1)];
  [(fl 200000000000 1); (PInt 20); (fl 587 10000); (PInt 20); (fl 149 5000); (fl 85018993 5); (fl 17529207 4)];
  [(fl 200000000000 1); (PInt 10); (fl 587 10000); (PInt 10); (fl 149 5000); (fl 340075972 5); (fl 17529207 1)];
  [(fl 200000000000 1); (PInt 5); (fl 587 10000); (PInt 5); (fl 149 5000); (fl 272060778 1); (fl 701168279 10)];
  [(fl 200000000000 1); (PInt 1); (fl 587 10000); (PInt 1); (fl 149 5000); (fl 6801519440 1); (fl 1752920700 1)];
  [(fl 200000000000 1); (fl 1 2); (fl 587 10000); (fl 1 2); (fl 149 5000); (fl 27206077800 1); (fl 7011682790 1)];
  [(fl 200000000000 1); (fl 1 10); (fl 587 10000); (fl 1 10); (fl 149 5000); (fl 680151944000 1); (fl 175292070000 1)];
  [(fl 200000000000 1); (PInt 10); (fl 461 50000); (PInt 10); (fl 473 100000); (fl 41949964 25); (fl 88324669 200)];
  [(fl 200000000000 1); (PInt 5); (fl 461 50000); (PInt 5); (fl 473 100000); (fl 671199423 100); (fl 88324669 50)];
  [(fl 200000000000 1); (PInt 1); (fl 461 50000); (PInt 1); (fl 473 100000); (fl 167799856 1); (fl 88324669 2)];
  [(fl 200000000000 1); (fl 1 2); (fl 461 50000); (fl 1 2); (fl 473 100000); (fl 671199423 1); (fl 176649338 1)];
  [(fl 200000000000 1); (fl 1 10); (fl 461 50000); (fl 1 10); (fl 473 100000); (fl 16779985600 1); (fl 4416233450 1)];
  [(fl 200000000000 1); (PInt 40); (fl 139 1000); (PInt 40); (fl 893 10000); (fl 238363283 10); (fl 98381327 10)];
  [(fl 200000000000 1); (PInt 20); (fl 139 1000); (PInt 20); (fl 893 10000); (fl 953453133 10); (fl 196762654 5)];
  [(fl 200000000000 1); (PInt 10); (fl 139 1000); (PInt 10); (fl 893 10000); (fl 381381253 1); (fl 157410123 1)];
  [(fl 200000000000 1); (PInt 5); (fl 139 1000); (PInt 5); (fl 893 10000); (fl 1525525010 1); (fl 629640493 1)];
  [(fl 200000000000 1); (PInt 1); (fl 139 1000); (PInt 1); (fl 893 10000); (fl 38138125300 1); (fl 15741012300 1)];
  [(fl 200000000000 1); (PInt 20); (fl 147 1000); (PInt 20); (fl 19 625); (fl 106636141 1); (fl 22802734 5)];
  [(fl 200000000000 1); (PInt 10); (fl 147 1000); (PInt 10); (fl 19 625); (fl 426544563 1); (fl 91210936 5)];
  [(fl 200000000000 1); (PInt 5); (fl 147 1000); (PInt 5); (fl 19 625); (fl 1706178250 1); (fl 364843744 5)];
  [(fl 200000000000 1); (PInt 1); (fl 147 1000); (PInt 1); (fl 19 625); (fl 42654456300 1); (fl 1824218720 1)];
  [(fl 200000000000 1); (fl 1 2); (fl 147 1000); (fl 1 2); (fl 19 625); (fl 170617825000 1); (fl 7296874880 1)];
  [(fl 200000000000 1); (PInt 40); (fl 249 1000); (PInt 40); (fl 31 625); (fl 382453339 5); (fl 12140403 4)];
  [(fl 200000000000 1); (PInt 20); (fl 249 1000); (PInt 20); (fl 31 625); (fl 305962671 1); (fl 12140403 1)];
  [(fl 200000000000 1); (PInt 10); (fl 249 1000); (PInt 10); (fl 31 625); (fl 1223850680 1); (fl 485616119 10)];
  [(fl 200000000000 1); (PInt 5); (fl 249 1000); (PInt 5); (fl 31 625); (fl 4895402740 1); (fl 194246448 1)];
  [(fl 200000000000 1); (PInt 1); (fl 249 1000); (PInt 1); (fl 31 625); (fl 122385068000 1); (fl 4856161190 1)];
  [(fl 200000000000 1); (PInt 10); (fl 301 10000); (PInt 10); (fl 63 5000); (fl 89419603 5); (fl 313379679 100)];
  [(fl 200000000000 1); (PInt 5); (fl 301 10000); (PInt 5); (fl 63 5000); (fl 715356823 10); (fl 62675936 5)];
  [(fl 200000000000 1); (PInt 1); (fl 301 10000); (PInt 1); (fl 63 5000); (fl 1788392060 1); (fl 313379679 1)];
  [(fl 200000000000 1); (fl 1 2); (fl 301 10000); (fl 1 2); (fl 63 5000); (fl 7153568230 1); (fl 1253518720 1)];
  [(fl 200000000000 1); (fl 1 10); (fl 301 10000); (fl 1 10); (fl 63 5000); (fl 178839206000 1); (fl 31337967900 1)];
  [(fl 200000000000 1); (PInt 10); (fl 21 100); (PInt 10); (fl 36979 1000000); (fl 870499108 1); (fl 134961554 5)];
  [(fl 200000000000 1); (PInt 5); (fl 21 100); (PInt 5); (fl 36979 1000000); (fl 3481996430 1); (fl 107969243 1)];
  [(fl 200000000000 1); (PInt 1); (fl 21 100); (PInt 1); (fl 36979 1000000); (fl 87049910800 1); (fl 2699231080 1)];
  [(fl 200000000000 1); (fl 1 2); (fl 21 100); (fl 1 2); (fl 36979 1000000); (fl 348199643000 1); (fl 10796924300 1)];
  [(fl 200000000000 1); (PInt 10); (fl 7943769 62500000); (PInt 10); (fl 45328083 1000000000); (fl 318876795 1); (fl 202784357 5)];
  [(fl 200000000000 1); (PInt 5); (fl 7943769 62500000); (PInt 5); (fl 45328083 1000000000); (fl 1275507180 1); (fl 162227486 1)];
  [(fl 200000000000 1); (PInt 1); (fl 7943769 62500000); (PInt 1); (fl 45328083 1000000000); (fl 31887679500 1); (fl 4055687140 1)];
  [(fl 200000000000 1); (fl 1 2); (fl 7943769 62500000); (fl 1 2); (fl 45328083 1000000000); (fl 127550718000 1); (fl 16222748600 1)]].
Example t12_ok : forallb (fun r => match r with [e; lx; rx; ly; ry; x; y] => ok d5 (nf_euler e lx rx) x && ok d5 (nf_euler e ly ry) y | _ => false end) t12 = true.
Proof. vm_compute. reflexivity. Qed.

(** tests/test_AS4100_6.py test_r_ol: 55 cases. *)
Definition t13 : list (list pynum) := [
  [(fl 411 10000); (fl 49 2000); (fl 0 1); (fl 0 1); (fl 23924151 500000000)];
  [(fl 411 10000); (fl 49 2000); (fl 0 1); (fl 0 1); (fl 23924151 500000000)];
  [(fl 411 10000); (fl 49 2000); (fl 0 1); (fl 0 1); (fl 23924151 500000000)];
  [(fl 411 10000); (fl 49 2000); (fl 0 1); (fl 0 1); (fl 23924151 500000000)];
  [(fl 103 200); (fl 3 25); (fl 0 1); (fl 0 1); (fl 264397901 500000000)];
  [(fl 103 200); (fl 3 25); (fl 0 1); (fl 0 1); (fl 264397901 500000000)];
  [(fl 103 200); (fl 3 25); (fl 0 1); (fl 0 1); (fl 264397901 500000000)];
  [(fl 103 200); (fl 3 25); (fl 0 1); (fl 0 1); (fl 264397901 500000000)];
  [(fl 103 200); (fl 3 25); (fl 0 1); (fl 0 1); (fl 264397901 500000000)];
  [(fl 103 200); (fl 3 25); (fl 0 1); (fl 0 1); (fl 264397901 500000000)];
  [(fl 17 400); (fl 41 2500); (fl 0 1); (fl 0 1); (fl 455544729 10000000000)];
  [(fl 17 400); (fl 41 2500); (fl 0 1); (fl 0 1); (fl 455544729 10000000000)];
  [(fl 17 400); (fl 41 2500); (fl 0 1); (fl 0 1); (fl 455544729 10000000000)];
  [(fl 17 400); (fl 41 2500); (fl 0 1); (fl 0 1); (fl 455544729 10000000000)];
  [(fl 17 400); (fl 41 2500); (fl 0 1); (fl 0 1); (fl 455544729 10000000000)];
  [(fl 17 400); (fl 41 2500); (fl 0 1); (fl 0 1); (fl 455544729 10000000000)];
  [(fl 587 10000); (fl 149 5000); (fl 0 1); (fl 0 1); (fl 658310717 10000000000)];
  [(fl 587 10000); (fl 149 5000); (fl 0 1); (fl 0 1); (fl 658310717 10000000000)];
  [(fl 587 10000); (fl 149 5000); (fl 0 1); (fl 0 1); (fl 658310717 10000000000)];
  [(fl 587 10000); (fl 149 5000); (fl 0 1); (fl 0 1); (fl 658310717 10000000000)];
  [(fl 587 10000); (fl 149 5000); (fl 0 1); (fl 0 1); (fl 658310717 10000000000)];
  [(fl 587 10000); (fl 149 5000); (fl 0 1); (fl 0 1); (fl 658310717 10000000000)];
  [(fl 461 50000); (fl 473 100000); (fl 0 1); (fl 0 1); (fl 103624949 10000000000)];
  [(fl 461 50000); (fl 473 100000); (fl 0 1); (fl 0 1); (fl 103624949 10000000000)];
  [(fl 461 50000); (fl 473 100000); (fl 0 1); (fl 0 1); (fl 103624949 10000000000)];
  [(fl 461 50000); (fl 473 100000); (fl 0 1); (fl 0 1); (fl 103624949 10000000000)];
  [(fl 461 50000); (fl 473 100000); (fl 0 1); (fl 0 1); (fl 103624949 10000000000)];
  [(fl 139 1000); (fl 893 10000); (fl 0 1); (fl 0 1); (fl 41303367 250000000)];
  [(fl 139 1000); (fl 893 10000); (fl 0 1); (fl 0 1); (fl 41303367 250000000)];
  [(fl 139 1000); (fl 893 10000); (fl 0 1); (fl 0 1); (fl 41303367 250000000)];
  [(fl 139 1000); (fl 893 10000); (fl 0 1); (fl 0 1); (fl 41303367 250000000)];
  [(fl 139 1000); (fl 893 10000); (fl 0 1); (fl 0 1); (fl 41303367 250000000)];
  [(fl 147 1000); (fl 19 625); (fl 567 10000); (fl 0 1); (fl 160461989 1000000000)];
  [(fl 147 1000); (fl 19 625); (fl 567 10000); (fl 0 1); (fl 160461989 1000000000)];
  [(fl 147 1000); (fl 19 625); (fl 567 10000); (fl 0 1); (fl 160461989 1000000000)];
  [(fl 147 1000); (fl 19 625); (fl 567 10000); (fl 0 1); (fl 160461989 1000000000)];
  [(fl 147 1000); (fl 19 625); (fl 567 10000); (fl 0 1); (fl 160461989 1000000000)];
  [(fl 249 1000); (fl 31 625); (fl 0 1); (fl 0 1); (fl 31736503 125000000)];
  [(fl 249 1000); (fl 31 625); (fl 0 1); (fl 0 1); (fl 31736503 125000000)];
  [(fl 249 1000); (fl 31 625); (fl 0 1); (fl 0 1); (fl 31736503 125000000)];
  [(fl 249 1000); (fl 31 625); (fl 0 1); (fl 0 1); (fl 31736503 125000000)];
  [(fl 249 1000); (fl 31 625); (fl 0 1); (fl 0 1); (fl 31736503 125000000)];
  [(fl 301 10000); (fl 63 5000); (fl 17 625); (fl 0 1); (fl 84961403 2000000000)];
  [(fl 301 10000); (fl 63 5000); (fl 17 625); (fl 0 1); (fl 84961403 2000000000)];
  [(fl 301 10000); (fl 63 5000); (fl 17 625); (fl 0 1); (fl 84961403 2000000000)];
  [(fl 301 10000); (fl 63 5000); (fl 17 625); (fl 0 1); (fl 84961403 2000000000)];
  [(fl 301 10000); (fl 63 5000); (fl 17 625); (fl 0 1); (fl 84961403 2000000000)];
  [(fl 21 100); (fl 36979 1000000); (fl 0 1); (fl 19285631 125000000); (fl 263194457 1000000000)];
  [(fl 21 100); (fl 36979 1000000); (fl 0 1); (fl 19285631 125000000); (fl 263194457 1000000000)];
  [(fl 21 100); (fl 36979 1000000); (fl 0 1); (fl 19285631 125000000); (fl 263194457 1000000000)];
  [(fl 21 100); (fl 36979 1000000); (fl 0 1); (fl 19285631 125000000); (fl 263194457 1000000000)];
  [(fl 7943769 62500000); (fl 45328083 1000000000); (fl 220614081 10000000000); (fl 0 1); (fl 8545793 62500000)];
  [(fl 7943769 62500000); (fl 45328083 1000000000); (fl 220614081 10000000000); (fl 0 1); (fl 8545793 62500000)];
  [(fl 7943769 62500000); (fl 45328083 1000000000); (fl 220614081 10000000000); (fl 0 1); (fl 8545793 62500000)];
  [(fl 7943769 62500000); (fl 45328083 1000000000); (fl 220614081 10000000000); (fl 0 1); (fl 8545793 62500000)]].
Example t13_ok : forallb (fun r => match r with [a; b; c; d; x] => ok d5 (nr_ol tpow a b c d) x | _ => false end) t13 = true.
Proof. vm_compute. reflexivity. Qed.

(** tests/test_AS4100_6.py test_f_euler_torsion: 55 cases. *)
Definition t14 : list (list pynum) := [
  [(fl 189 100000); (PInt 10); (fl 411 10000); (fl 49 2000); (fl 0 1); (fl 0 1); (fl 349 10000000000); (fl 23 10000000000); (fl 200000000000 1); (fl 80000000000 1); (fl 655731018 1)];
  [(fl 189 100000); (PInt 5); (fl 411 10000); (fl 49 2000); (fl 0 1); (fl 0 1); (fl 349 10000000000); (fl 23 10000000000); (fl 200000000000 1); (fl 80000000000 1); (fl 687207339 1)];
  [(fl 189 100000); (PInt 1); (fl 411 10000); (fl 49 2000); (fl 0 1); (fl 0 1); (fl 349 10000000000); (fl 23 10000000000); (fl 200000000000 1); (fl 80000000000 1); (fl 1694449620 1)];
  [(fl 189 100000); (fl 1 2); (fl 411 10000); (fl 49 2000); (fl 0 1); (fl 0 1); (fl 349 10000000000); (fl 23 10000000000); (fl 200000000000 1); (fl 80000000000 1); (fl 4842081730 1)];
  [(fl 579 10000); (PInt 80); (fl 103 200); (fl 3 25); (fl 0 1); (fl 0 1); (fl 11 500000); (fl 7 25000); (fl 200000000000 1); (fl 80000000000 1); (fl 114041152 1)];
  [(fl 579 10000); (PInt 40); (fl 103 200); (fl 3 25); (fl 0 1); (fl 0 1); (fl 11 500000); (fl 7 25000); (fl 200000000000 1); (fl 80000000000 1); (fl 130043160 1)];
  [(fl 579 10000); (PInt 20); (fl 103 200); (fl 3 25); (fl 0 1); (fl 0 1); (fl 11 500000); (fl 7 25000); (fl 200000000000 1); (fl 80000000000 1); (fl 194051194 1)];
  [(fl 579 10000); (PInt 10); (fl 103 200); (fl 3 25); (fl 0 1); (fl 0 1); (fl 11 500000); (fl 7 25000); (fl 200000000000 1); (fl 80000000000 1); (fl 450083327 1)];
  [(fl 579 10000); (PInt 5); (fl 103 200); (fl 3 25); (fl 0 1); (fl 0 1); (fl 11 500000); (fl 7 25000); (fl 200000000000 1); (fl 80000000000 1); (fl 1474211860 1)];
  [(fl 579 10000); (PInt 1); (fl 103 200); (fl 3 25); (fl 0 1); (fl 0 1); (fl 11 500000); (fl 7 25000); (fl 200000000000 1); (fl 80000000000 1); (fl 34246324900 1)];
  [(fl 117 100000); (PInt 20); (fl 17 400); (fl 41 2500); (fl 0 1); (fl 0 1); (fl 37 2500000000); (fl 0 1); (fl 200000000000 1); (fl 80000000000 1); (fl 487645015 1)];
  [(fl 117 100000); (PInt 10); (fl 17 400); (fl 41 2500); (fl 0 1); (fl 0 1); (fl 37 2500000000); (fl 0 1); (fl 200000000000 1); (fl 80000000000 1); (fl 487645015 1)];
  [(fl 117 100000); (PInt 5); (fl 17 400); (fl 41 2500); (fl 0 1); (fl 0 1); (fl 37 2500000000); (fl 0 1); (fl 200000000000 1); (fl 80000000000 1); (fl 487645015 1)];
  [(fl 117 100000); (PInt 1); (fl 17 400); (fl 41 2500); (fl 0 1); (fl 0 1); (fl 37 2500000000); (fl 0 1); (fl 200000000000 1); (fl 80000000000 1); (fl 487645015 1)];
  [(fl 117 100000); (fl 1 2); (fl 17 400); (fl 41 2500); (fl 0 1); (fl 0 1); (fl 37 2500000000); (fl 0 1); (fl 200000000000 1); (fl 80000000000 1); (fl 487645015 1)];
  [(fl 117 100000); (fl 1 10); (fl 17 400); (fl 41 2500); (fl 0 1); (fl 0 1); (fl 37 2500000000); (fl 0 1); (fl 200000000000 1); (fl 80000000000 1); (fl 487645015 1)];
  [(fl 279 100000); (PInt 20); (fl 587 10000); (fl 149 5000); (fl 0 1); (fl 0 1); (fl 889 10000000000); (fl 0 1); (fl 200000000000 1); (fl 80000000000 1); (fl 588200913 1)];
  [(fl 279 100000); (PInt 10); (fl 587 10000); (fl 149 5000); (fl 0 1); (fl 0 1); (fl 889 10000000000); (fl 0 1); (fl 200000000000 1); (fl 80000000000 1); (fl 588200913 1)];
  [(fl 279 100000); (PInt 5); (fl 587 10000); (fl 149 5000); (fl 0 1); (fl 0 1); (fl 889 10000000000); (fl 0 1); (fl 200000000000 1); (fl 80000000000 1); (fl 588200913 1)];
  [(fl 279 100000); (PInt 1); (fl 587 10000); (fl 149 5000); (fl 0 1); (fl 0 1); (fl 889 10000000000); (fl 0 1); (fl 200000000000 1); (fl 80000000000 1); (fl 588200913 1)];
  [(fl 279 100000); (fl 1 2); (fl 587 10000); (fl 149 5000); (fl 0 1); (fl 0 1); (fl 889 10000000000); (fl 0 1); (fl 200000000000 1); (fl 80000000000 1); (fl 588200913 1)];
  [(fl 279 100000); (fl 1 10); (fl 587 10000); (fl 149 5000); (fl 0 1); (fl 0 1); (fl 889 10000000000); (fl 0 1); (fl 200000000000 1); (fl 80000000000 1); (fl 588200913 1)];
  [(fl 143 1000000); (PInt 10); (fl 461 50000); (fl 473 100000); (fl 0 1); (fl 0 1); (fl 103 200000000000); (fl 0 1); (fl 200000000000 1); (fl 80000000000 1); (fl 2683073200 1)];
  [(fl 143 1000000); (PInt 5); (fl 461 50000); (fl 473 100000); (fl 0 1); (fl 0 1); (fl 103 200000000000); (fl 0 1); (fl 200000000000 1); (fl 80000000000 1); (fl 2683073200 1)];
  [(fl 143 1000000); (PInt 1); (fl 461 50000); (fl 473 100000); (fl 0 1); (fl 0 1); (fl 103 200000000000); (fl 0 1); (fl 200000000000 1); (fl 80000000000 1); (fl 2683073200 1)];
  [(fl 143 1000000); (fl 1 2); (fl 461 50000); (fl 473 100000); (fl 0 1); (fl 0 1); (fl 103 200000000000); (fl 0 1); (fl 200000000000 1); (fl 80000000000 1); (fl 2683073200 1)];
  [(fl 143 1000000); (fl 1 10); (fl 461 50000); (fl 473 100000); (fl 0 1); (fl 0 1); (fl 103 200000000000); (fl 0 1); (fl 200000000000 1); (fl 80000000000 1); (fl 2683073200 1)];
  [(fl 251 10000); (PInt 40); (fl 139 1000); (fl 893 10000); (fl 0 1); (fl 0 1); (fl 23 4000000); (fl 23 5000000); (fl 200000000000 1); (fl 80000000000 1); (fl 679701656 1)];
  [(fl 251 10000); (PInt 20); (fl 139 1000); (fl 893 10000); (fl 0 1); (fl 0 1); (fl 23 4000000); (fl 23 5000000); (fl 200000000000 1); (fl 80000000000 1); (fl 704551532 1)];
  [(fl 251 10000); (PInt 10); (fl 139 1000); (fl 893 10000); (fl 0 1); (fl 0 1); (fl 23 4000000); (fl 23 5000000); (fl 200000000000 1); (fl 80000000000 1); (fl 803951036 1)];
  [(fl 251 10000); (PInt 5); (fl 139 1000); (fl 893 10000); (fl 0 1); (fl 0 1); (fl 23 4000000); (fl 23 5000000); (fl 200000000000 1); (fl 80000000000 1); (fl 1201549050 1)];
  [(fl 251 10000); (PInt 1); (fl 139 1000); (fl 893 10000); (fl 0 1); (fl 0 1); (fl 23 4000000); (fl 23 5000000); (fl 200000000000 1); (fl 80000000000 1); (fl 13924685600 1)];
  [(fl 703 100000); (PInt 20); (fl 147 1000); (fl 19 625); (fl 567 10000); (fl 0 1); (fl 59 125000000); (fl 151 1000000000); (fl 200000000000 1); (fl 80000000000 1); (fl 212725331 1)];
  [(fl 703 100000); (PInt 10); (fl 147 1000); (fl 19 625); (fl 567 10000); (fl 0 1); (fl 59 125000000); (fl 151 1000000000); (fl 200000000000 1); (fl 80000000000 1); (fl 225075369 1)];
  [(fl 703 100000); (PInt 5); (fl 147 1000); (fl 19 625); (fl 567 10000); (fl 0 1); (fl 59 125000000); (fl 151 1000000000); (fl 200000000000 1); (fl 80000000000 1); (fl 274475520 1)];
  [(fl 703 100000); (PInt 1); (fl 147 1000); (fl 19 625); (fl 567 10000); (fl 0 1); (fl 59 125000000); (fl 151 1000000000); (fl 200000000000 1); (fl 80000000000 1); (fl 1855280340 1)];
  [(fl 703 100000); (fl 1 2); (fl 147 1000); (fl 19 625); (fl 567 10000); (fl 0 1); (fl 59 125000000); (fl 151 1000000000); (fl 200000000000 1); (fl 80000000000 1); (fl 6795295420 1)];
  [(fl 2 125); (PInt 40); (fl 249 1000); (fl 31 625); (fl 0 1); (fl 0 1); (fl 39 25000000); (fl 69 20000000); (fl 200000000000 1); (fl 80000000000 1); (fl 125129872 1)];
  [(fl 2 125); (PInt 20); (fl 249 1000); (fl 31 625); (fl 0 1); (fl 0 1); (fl 39 25000000); (fl 69 20000000); (fl 200000000000 1); (fl 80000000000 1); (fl 137510196 1)];
  [(fl 2 125); (PInt 10); (fl 249 1000); (fl 31 625); (fl 0 1); (fl 0 1); (fl 39 25000000); (fl 69 20000000); (fl 200000000000 1); (fl 80000000000 1); (fl 187031491 1)];
  [(fl 2 125); (PInt 5); (fl 249 1000); (fl 31 625); (fl 0 1); (fl 0 1); (fl 39 25000000); (fl 69 20000000); (fl 200000000000 1); (fl 80000000000 1); (fl 385116675 1)];
  [(fl 2 125); (PInt 1); (fl 249 1000); (fl 31 625); (fl 0 1); (fl 0 1); (fl 39 25000000); (fl 69 20000000); (fl 200000000000 1); (fl 80000000000 1); (fl 6723842540 1)];
  [(fl 377 500000); (PInt 10); (fl 301 10000); (fl 63 5000); (fl 17 625); (fl 0 1); (fl 813 100000000000); (fl 53 500000000000); (fl 200000000000 1); (fl 80000000000 1); (fl 479535455 1)];
  [(fl 377 500000); (PInt 5); (fl 301 10000); (fl 63 5000); (fl 17 625); (fl 0 1); (fl 813 100000000000); (fl 53 500000000000); (fl 200000000000 1); (fl 80000000000 1); (fl 484148654 1)];
  [(fl 377 500000); (PInt 1); (fl 301 10000); (fl 63 5000); (fl 17 625); (fl 0 1); (fl 813 100000000000); (fl 53 500000000000); (fl 200000000000 1); (fl 80000000000 1); (fl 631771010 1)];
  [(fl 377 500000); (fl 1 2); (fl 301 10000); (fl 63 5000); (fl 17 625); (fl 0 1); (fl 813 100000000000); (fl 53 500000000000); (fl 200000000000 1); (fl 80000000000 1); (fl 1093090870 1)];
  [(fl 377 500000); (fl 1 10); (fl 301 10000); (fl 63 5000); (fl 17 625); (fl 0 1); (fl 813 100000000000); (fl 53 500000000000); (fl 200000000000 1); (fl 80000000000 1); (fl 15855326500 1)];
  [(fl 11 1000); (PInt 10); (fl 21 100); (fl 36979 1000000); (fl 0 1); (fl 19285631 125000000); (fl 114798501 125000000000000); (fl 201454537 500000000000000); (fl 200000000000 1); (fl 80000000000 1); (fl 106858003 1)];
  [(fl 11 1000); (PInt 5); (fl 21 100); (fl 36979 1000000); (fl 0 1); (fl 19285631 125000000); (fl 114798501 125000000000000); (fl 201454537 500000000000000); (fl 200000000000 1); (fl 80000000000 1); (fl 138170080 1)];
  [(fl 11 1000); (PInt 1); (fl 21 100); (fl 36979 1000000); (fl 0 1); (fl 19285631 125000000); (fl 114798501 125000000000000); (fl 201454537 500000000000000); (fl 200000000000 1); (fl 80000000000 1); (fl 1140156550 1)];
  [(fl 11 1000); (fl 1 2); (fl 21 100); (fl 36979 1000000); (fl 0 1); (fl 19285631 125000000); (fl 114798501 125000000000000); (fl 201454537 500000000000000); (fl 200000000000 1); (fl 80000000000 1); (fl 4271364290 1)];
  [(fl 13 1000); (PInt 10); (fl 7943769 62500000); (fl 45328083 1000000000); (fl 220614081 10000000000); (fl 0 1); (fl 79237781 50000000000000); (fl 306344239 10000000000000000); (fl 200000000000 1); (fl 80000000000 1); (fl 524120012 1)];
  [(fl 13 1000); (PInt 5); (fl 7943769 62500000); (fl 45328083 1000000000); (fl 220614081 10000000000); (fl 0 1); (fl 79237781 50000000000000); (fl 306344239 10000000000000000); (fl 200000000000 1); (fl 80000000000 1); (fl 531584030 1)];
  [(fl 13 1000); (PInt 1); (fl 7943769 62500000); (fl 45328083 1000000000); (fl 220614081 10000000000); (fl 0 1); (fl 79237781 50000000000000); (fl 306344239 10000000000000000); (fl 200000000000 1); (fl 80000000000 1); (fl 770432594 1)];
  [(fl 13 1000); (fl 1 2); (fl 7943769 62500000); (fl 45328083 1000000000); (fl 220614081 10000000000); (fl 0 1); (fl 79237781 50000000000000); (fl 306344239 10000000000000000); (fl 200000000000 1); (fl 80000000000 1); (fl 1516834360 1)]].
Example t14_ok : forallb (fun r => match r with [a; l; rx; ry; xo; yo; j; w; e; g; x] => ok d5 (nf_euler_torsion tpow a l rx ry xo yo j w e g) x | _ => false end) t14 = true.
Proof. vm_compute. reflexivity. Qed.

(** tests/test_AS4100_6.py test_s6_3_3_λ_n: 55 cases. *)
Definition t15 : list (list pynum) := [
  [(PInt 1); (PInt 10); (fl 411 10000); (PInt 320000000); (PInt 250000000); (fl 11010908514827 40000000000)];
  [(PInt 1); (PInt 5); (fl 411 10000); (PInt 320000000); (PInt 250000000); (fl 68818178217669 500000000000)];
  [(PInt 1); (PInt 1); (fl 411 10000); (PInt 320000000); (PInt 250000000); (fl 11010908514827 400000000000)];
  [(PInt 1); (fl 1 2); (fl 411 10000); (PInt 320000000); (PInt 250000000); (fl 68818178217669 5000000000000)];
  [(fl 837 1000); (PInt 80); (fl 103 200); (PInt 280000000); (PInt 250000000); (fl 75201153568103 500000000000)];
  [(fl 837 1000); (PInt 40); (fl 103 200); (PInt 280000000); (PInt 250000000); (fl 752011535681031 10000000000000)];
  [(fl 837 1000); (PInt 20); (fl 103 200); (PInt 280000000); (PInt 250000000); (fl 75201153568103 2000000000000)];
  [(fl 837 1000); (PInt 10); (fl 103 200); (PInt 280000000); (PInt 250000000); (fl 94001441960129 5000000000000)];
  [(fl 837 1000); (PInt 5); (fl 103 200); (PInt 280000000); (PInt 250000000); (fl 117501802450161 12500000000000)];
  [(fl 837 1000); (PInt 1); (fl 103 200); (PInt 280000000); (PInt 250000000); (fl 94001441960129 50000000000000)];
  [(fl 103 125); (PInt 20); (fl 17 400); (PInt 320000000); (PInt 250000000); (fl 483292055668893 1000000000000)];
  [(fl 103 125); (PInt 10); (fl 17 400); (PInt 320000000); (PInt 250000000); (fl 120823013917223 500000000000)];
  [(fl 103 125); (PInt 5); (fl 17 400); (PInt 320000000); (PInt 250000000); (fl 120823013917223 1000000000000)];
  [(fl 103 125); (PInt 1); (fl 17 400); (PInt 320000000); (PInt 250000000); (fl 120823013917223 5000000000000)];
  [(fl 103 125); (fl 1 2); (fl 17 400); (PInt 320000000); (PInt 250000000); (fl 120823013917223 10000000000000)];
  [(fl 103 125); (fl 1 10); (fl 17 400); (PInt 320000000); (PInt 250000000); (fl 241646027834447 100000000000000)];
  [(fl 479 500); (PInt 20); (fl 587 10000); (PInt 320000000); (PInt 250000000); (fl 377293769768957 1000000000000)];
  [(fl 479 500); (PInt 10); (fl 587 10000); (PInt 320000000); (PInt 250000000); (fl 188646884884479 1000000000000)];
  [(fl 479 500); (PInt 5); (fl 587 10000); (PInt 320000000); (PInt 250000000); (fl 943234424422393 10000000000000)];
  [(fl 479 500); (PInt 1); (fl 587 10000); (PInt 320000000); (PInt 250000000); (fl 188646884884479 10000000000000)];
  [(fl 479 500); (fl 1 2); (fl 587 10000); (PInt 320000000); (PInt 250000000); (fl 943234424422393 100000000000000)];
  [(fl 479 500); (fl 1 10); (fl 587 10000); (PInt 320000000); (PInt 250000000); (fl 188646884884479 100000000000000)];
  [(PInt 1); (PInt 10); (fl 461 50000); (PInt 320000000); (PInt 250000000); (fl 122708335129987 100000000000)];
  [(PInt 1); (PInt 5); (fl 461 50000); (PInt 320000000); (PInt 250000000); (fl 613541675649933 1000000000000)];
  [(PInt 1); (PInt 1); (fl 461 50000); (PInt 320000000); (PInt 250000000); (fl 122708335129987 1000000000000)];
  [(PInt 1); (fl 1 2); (fl 461 50000); (PInt 320000000); (PInt 250000000); (fl 613541675649933 10000000000000)];
  [(PInt 1); (fl 1 10); (fl 461 50000); (PInt 320000000); (PInt 250000000); (fl 122708335129987 10000000000000)];
  [(PInt 1); (PInt 40); (fl 139 1000); (PInt 280000000); (PInt 250000000); (fl 152273456751919 500000000000)];
  [(PInt 1); (PInt 20); (fl 139 1000); (PInt 280000000); (PInt 250000000); (fl 152273456751919 1000000000000)];
  [(PInt 1); (PInt 10); (fl 139 1000); (PInt 280000000); (PInt 250000000); (fl 380683641879797 5000000000000)];
  [(PInt 1); (PInt 5); (fl 139 1000); (PInt 280000000); (PInt 250000000); (fl 380683641879797 10000000000000)];
  [(PInt 1); (PInt 1); (fl 139 1000); (PInt 280000000); (PInt 250000000); (fl 380683641879797 50000000000000)];
  [(PInt 1); (PInt 20); (fl 147 1000); (PInt 280000000); (PInt 250000000); (fl 143986465908277 1000000000000)];
  [(PInt 1); (PInt 10); (fl 147 1000); (PInt 280000000); (PInt 250000000); (fl 143986465908277 2000000000000)];
  [(PInt 1); (PInt 5); (fl 147 1000); (PInt 280000000); (PInt 250000000); (fl 359966164770693 10000000000000)];
  [(PInt 1); (PInt 1); (fl 147 1000); (PInt 280000000); (PInt 250000000); (fl 143986465908277 20000000000000)];
  [(PInt 1); (fl 1 2); (fl 147 1000); (PInt 280000000); (PInt 250000000); (fl 359966164770693 100000000000000)];
  [(fl 19 20); (PInt 40); (fl 249 1000); (PInt 280000000); (PInt 250000000); (fl 16570341472421 100000000000)];
  [(fl 19 20); (PInt 20); (fl 249 1000); (PInt 280000000); (PInt 250000000); (fl 207129268405263 2500000000000)];
  [(fl 19 20); (PInt 10); (fl 249 1000); (PInt 280000000); (PInt 250000000); (fl 207129268405263 5000000000000)];
  [(fl 19 20); (PInt 5); (fl 249 1000); (PInt 280000000); (PInt 250000000); (fl 207129268405263 10000000000000)];
  [(fl 19 20); (PInt 1); (fl 249 1000); (PInt 280000000); (PInt 250000000); (fl 207129268405263 50000000000000)];
  [(PInt 1); (PInt 10); (fl 301 10000); (PInt 320000000); (PInt 250000000); (fl 75174142850397 200000000000)];
  [(PInt 1); (PInt 5); (fl 301 10000); (PInt 320000000); (PInt 250000000); (fl 187935357125993 1000000000000)];
  [(PInt 1); (PInt 1); (fl 301 10000); (PInt 320000000); (PInt 250000000); (fl 75174142850397 2000000000000)];
  [(PInt 1); (fl 1 2); (fl 301 10000); (PInt 320000000); (PInt 250000000); (fl 187935357125993 10000000000000)];
  [(PInt 1); (fl 1 10); (fl 301 10000); (PInt 320000000); (PInt 250000000); (fl 75174142850397 20000000000000)];
  [(PInt 1); (PInt 10); (fl 21 100); (PInt 300000000); (PInt 250000000); (fl 521640530957301 10000000000000)];
  [(PInt 1); (PInt 5); (fl 21 100); (PInt 300000000); (PInt 250000000); (fl 260820265478651 10000000000000)];
  [(PInt 1); (PInt 1); (fl 21 100); (PInt 300000000); (PInt 250000000); (fl 521640530957301 100000000000000)];
  [(PInt 1); (fl 1 2); (fl 21 100); (PInt 300000000); (PInt 250000000); (fl 5216405309573 2000000000000)];
  [(PInt 1); (PInt 10); (fl 317750759 2500000000); (PInt 300000000); (PInt 250000000); (fl 861874506970361 10000000000000)];
  [(PInt 1); (PInt 5); (fl 317750759 2500000000); (PInt 300000000); (PInt 250000000); (fl 430937253485181 10000000000000)];
  [(PInt 1); (PInt 1); (fl 317750759 2500000000); (PInt 300000000); (PInt 250000000); (fl 861874506970361 100000000000000)];
  [(PInt 1); (fl 1 2); (fl 317750759 2500000000); (PInt 300000000); (PInt 250000000); (fl 430937253485181 100000000000000)]].
Example t15_ok : forallb (fun r => match r with [k; l; r; f; h; x] => ok d5 (ns6_3_3_lambda_n tpow k l r f h) x | _ => false end) t15 = true.
Proof. vm_compute. reflexivity. Qed.

(** tests/test_AS4100_6.py test_s6_3_3_λ_n (y): 55 cases. *)
Definition t16 : list (list pynum) := [
  [(PInt 1); (PInt 10); (fl 49 2000); (PInt 320000000); (PInt 250000000); (fl 1154460051 2500000)];
  [(PInt 1); (PInt 5); (fl 49 2000); (PInt 320000000); (PInt 250000000); (fl 1154460051 5000000)];
  [(PInt 1); (PInt 1); (fl 49 2000); (PInt 320000000); (PInt 250000000); (fl 1154460051 25000000)];
  [(PInt 1); (fl 1 2); (fl 49 2000); (PInt 320000000); (PInt 250000000); (fl 1154460051 50000000)];
  [(fl 837 1000); (PInt 80); (fl 3 25); (PInt 280000000); (PInt 250000000); (fl 6454765681 10000000)];
  [(fl 837 1000); (PInt 40); (fl 3 25); (PInt 280000000); (PInt 250000000); (fl 3227382841 10000000)];
  [(fl 837 1000); (PInt 20); (fl 3 25); (PInt 280000000); (PInt 250000000); (fl 80684571 500000)];
  [(fl 837 1000); (PInt 10); (fl 3 25); (PInt 280000000); (PInt 250000000); (fl 4034228551 50000000)];
  [(fl 837 1000); (PInt 5); (fl 3 25); (PInt 280000000); (PInt 250000000); (fl 4034228551 100000000)];
  [(fl 837 1000); (PInt 1); (fl 3 25); (PInt 280000000); (PInt 250000000); (fl 4034228551 500000000)];
  [(fl 103 125); (PInt 20); (fl 41 2500); (PInt 320000000); (PInt 250000000); (fl 1252433681 1000000)];
  [(fl 103 125); (PInt 10); (fl 41 2500); (PInt 320000000); (PInt 250000000); (fl 1565542101 2500000)];
  [(fl 103 125); (PInt 5); (fl 41 2500); (PInt 320000000); (PInt 250000000); (fl 1565542101 5000000)];
  [(fl 103 125); (PInt 1); (fl 41 2500); (PInt 320000000); (PInt 250000000); (fl 1565542101 25000000)];
  [(fl 103 125); (fl 1 2); (fl 41 2500); (PInt 320000000); (PInt 250000000); (fl 1565542101 50000000)];
  [(fl 103 125); (fl 1 10); (fl 41 2500); (PInt 320000000); (PInt 250000000); (fl 1565542101 250000000)];
  [(fl 479 500); (PInt 20); (fl 149 5000); (PInt 320000000); (PInt 250000000); (fl 7431927613 10000000)];
  [(fl 479 500); (PInt 10); (fl 149 5000); (PInt 320000000); (PInt 250000000); (fl 1857981903 5000000)];
  [(fl 479 500); (PInt 5); (fl 149 5000); (PInt 320000000); (PInt 250000000); (fl 1857981903 10000000)];
  [(fl 479 500); (PInt 1); (fl 149 5000); (PInt 320000000); (PInt 250000000); (fl 1857981903 50000000)];
  [(fl 479 500); (fl 1 2); (fl 149 5000); (PInt 320000000); (PInt 250000000); (fl 1857981903 100000000)];
  [(fl 479 500); (fl 1 10); (fl 149 5000); (PInt 320000000); (PInt 250000000); (fl 1857981903 500000000)];
  [(PInt 1); (PInt 10); (fl 473 100000); (PInt 320000000); (PInt 250000000); (fl 478380909 200000)];
  [(PInt 1); (PInt 5); (fl 473 100000); (PInt 320000000); (PInt 250000000); (fl 1195952273 1000000)];
  [(PInt 1); (PInt 1); (fl 473 100000); (PInt 320000000); (PInt 250000000); (fl 478380909 2000000)];
  [(PInt 1); (fl 1 2); (fl 473 100000); (PInt 320000000); (PInt 250000000); (fl 1195952273 10000000)];
  [(PInt 1); (fl 1 10); (fl 473 100000); (PInt 320000000); (PInt 250000000); (fl 478380909 20000000)];
  [(PInt 1); (PInt 40); (fl 893 10000); (PInt 280000000); (PInt 250000000); (fl 4740427881 10000000)];
  [(PInt 1); (PInt 20); (fl 893 10000); (PInt 280000000); (PInt 250000000); (fl 118510697 500000)];
  [(PInt 1); (PInt 10); (fl 893 10000); (PInt 280000000); (PInt 250000000); (fl 118510697 1000000)];
  [(PInt 1); (PInt 5); (fl 893 10000); (PInt 280000000); (PInt 250000000); (fl 5925534851 100000000)];
  [(PInt 1); (PInt 1); (fl 893 10000); (PInt 280000000); (PInt 250000000); (fl 118510697 10000000)];
  [(PInt 1); (PInt 20); (fl 19 625); (PInt 280000000); (PInt 250000000); (fl 139250069 200000)];
  [(PInt 1); (PInt 10); (fl 19 625); (PInt 280000000); (PInt 250000000); (fl 139250069 400000)];
  [(PInt 1); (PInt 5); (fl 19 625); (PInt 280000000); (PInt 250000000); (fl 1740625863 10000000)];
  [(PInt 1); (PInt 1); (fl 19 625); (PInt 280000000); (PInt 250000000); (fl 139250069 4000000)];
  [(PInt 1); (fl 1 2); (fl 19 625); (PInt 280000000); (PInt 250000000); (fl 1740625863 100000000)];
  [(fl 19 20); (PInt 40); (fl 31 625); (PInt 280000000); (PInt 250000000); (fl 8318578683 10000000)];
  [(fl 19 20); (PInt 20); (fl 31 625); (PInt 280000000); (PInt 250000000); (fl 4159289341 10000000)];
  [(fl 19 20); (PInt 10); (fl 31 625); (PInt 280000000); (PInt 250000000); (fl 2079644671 10000000)];
  [(fl 19 20); (PInt 5); (fl 31 625); (PInt 280000000); (PInt 250000000); (fl 207964467 2000000)];
  [(fl 19 20); (PInt 1); (fl 31 625); (PInt 280000000); (PInt 250000000); (fl 2079644671 100000000)];
  [(PInt 1); (PInt 10); (fl 63 5000); (PInt 320000000); (PInt 250000000); (fl 8979133729 10000000)];
  [(PInt 1); (PInt 5); (fl 63 5000); (PInt 320000000); (PInt 250000000); (fl 897913373 2000000)];
  [(PInt 1); (PInt 1); (fl 63 5000); (PInt 320000000); (PInt 250000000); (fl 8979133729 100000000)];
  [(PInt 1); (fl 1 2); (fl 63 5000); (PInt 320000000); (PInt 250000000); (fl 897913373 20000000)];
  [(PInt 1); (fl 1 10); (fl 63 5000); (PInt 320000000); (PInt 250000000); (fl 8979133729 1000000000)];
  [(PInt 1); (PInt 10); (fl 36979 1000000); (PInt 300000000); (PInt 250000000); (fl 2962343803 10000000)];
  [(PInt 1); (PInt 5); (fl 36979 1000000); (PInt 300000000); (PInt 250000000); (fl 740585951 5000000)];
  [(PInt 1); (PInt 1); (fl 36979 1000000); (PInt 300000000); (PInt 250000000); (fl 2962343803 100000000)];
  [(PInt 1); (fl 1 2); (fl 36979 1000000); (PInt 300000000); (PInt 250000000); (fl 740585951 50000000)];
  [(PInt 1); (PInt 10); (fl 45328083 1000000000); (PInt 300000000); (PInt 250000000); (fl 2416702941 10000000)];
  [(PInt 1); (PInt 5); (fl 45328083 1000000000); (PInt 300000000); (PInt 250000000); (fl 1208351471 10000000)];
  [(PInt 1); (PInt 1); (fl 45328083 1000000000); (PInt 300000000); (PInt 250000000); (fl 2416702941 100000000)];
  [(PInt 1); (fl 1 2); (fl 45328083 1000000000); (PInt 300000000); (PInt 250000000); (fl 1208351471 100000000)]].
Example t16_ok : forallb (fun r => match r with [k; l; r; f; h; x] => ok d5 (ns6_3_3_lambda_n tpow k l r f h) x | _ => false end) t16 = true.
Proof. vm_compute. reflexivity. Qed.

(** tests/test_AS4100_6.py test_s6_3_3_α_c: 55 cases. *)
Definition t17 : list (list pynum) := [
  [(fl 2752727129 10000000); (fl 1154460051 2500000); (PInt 0); (fl 4854328467 50000000000); (fl 1795826767 50000000000)];
  [(fl 344090891 2500000); (fl 1154460051 5000000); (PInt 0); (fl 3388842389 10000000000); (fl 168895321 1250000000)];
  [(fl 2752727129 100000000); (fl 1154460051 25000000); (PInt 0); (fl 9521989787 10000000000); (fl 8782924667 10000000000)];
  [(fl 344090891 25000000); (fl 1154460051 50000000); (PInt 0); (fl 312225237 312500000); (fl 9676914721 10000000000)];
  [(fl 1504023071 10000000); (fl 6454765681 10000000); (fl 1 2); (fl 679689233 2500000000); (fl 1858711429 100000000000)];
  [(fl 7520115357 100000000); (fl 3227382841 10000000); (fl 1 2); (fl 201507407 312500000); (fl 70364599 1000000000)];
  [(fl 1880028839 50000000); (fl 80684571 500000); (fl 1 2); (fl 2193670617 2500000000); (fl 2425254119 10000000000)];
  [(fl 1880028839 100000000); (fl 4034228551 50000000); (fl 1 2); (fl 9733647563 10000000000); (fl 3038758151 5000000000)];
  [(fl 2350036049 250000000); (fl 4034228551 100000000); (fl 1 2); (fl 1 1); (fl 8627009787 10000000000)];
  [(fl 1880028839 1000000000); (fl 4034228551 500000000); (fl 1 2); (fl 1 1); (fl 1 1)];
  [(fl 4832920557 10000000); (fl 1252433681 1000000); (fl 1 2); (fl 3258937687 100000000000); (fl 1262787887 250000000000)];
  [(fl 1208230139 5000000); (fl 1565542101 2500000); (fl 1 2); (fl 240268633 2000000000); (fl 61618297 3125000000)];
  [(fl 1208230139 10000000); (fl 1565542101 5000000); (fl 1 2); (fl 757643567 2000000000); (fl 93097187 1250000000)];
  [(fl 1208230139 50000000); (fl 1565542101 25000000); (fl 1 2); (fl 1893074719 2000000000); (fl 1458352243 2000000000)];
  [(fl 1208230139 100000000); (fl 1565542101 50000000); (fl 1 2); (fl 1 1); (fl 9103435409 10000000000)];
  [(fl 1208230139 500000000); (fl 1565542101 250000000); (fl 1 2); (fl 1 1); (fl 1 1)];
  [(fl 1886468849 5000000); (fl 7431927613 10000000); (fl 1 2); (fl 523758311 10000000000); (fl 1411109107 100000000000)];
  [(fl 1886468849 10000000); (fl 1857981903 5000000); (fl 1 2); (fl 1863432759 10000000000); (fl 5391269351 100000000000)];
  [(fl 2358086061 25000000); (fl 1857981903 10000000); (fl 1 2); (fl 2597292501 5000000000); (fl 38258123 200000000)];
  [(fl 1886468849 100000000); (fl 1857981903 50000000); (fl 1 2); (fl 9730427301 10000000000); (fl 8798157899 10000000000)];
  [(fl 2358086061 250000000); (fl 1857981903 100000000); (fl 1 2); (fl 1 1); (fl 609042083 625000000)];
  [(fl 1886468849 1000000000); (fl 1857981903 500000000); (fl 1 2); (fl 1 1); (fl 1 1)];
  [(fl 1227083351 1000000); (fl 478380909 200000); (fl 1 2); (fl 1314873127 250000000000); (fl 1399879531 1000000000000)];
  [(fl 1533854189 2500000); (fl 1195952273 1000000); (fl 1 2); (fl 2051913039 100000000000); (fl 5533453441 1000000000000)];
  [(fl 1227083351 10000000); (fl 478380909 2000000); (fl 1 2); (fl 3705551033 10000000000); (fl 611894161 5000000000)];
  [(fl 1533854189 25000000); (fl 1195952273 10000000); (fl 1 2); (fl 1843571887 2500000000); (fl 3843249481 10000000000)];
  [(fl 1227083351 100000000); (fl 478380909 20000000); (fl 1 2); (fl 1 1); (fl 4738840999 5000000000)];
  [(fl 609093827 2000000); (fl 4740427881 10000000); (PInt 0); (fl 1602317561 20000000000); (fl 170664701 5000000000)];
  [(fl 190341821 1250000); (fl 118510697 500000); (PInt 0); (fl 357525741 1250000000); (fl 51466947 400000000)];
  [(fl 3806836419 50000000); (fl 118510697 1000000); (PInt 0); (fl 1768560673 2500000000); (fl 2143106049 5000000000)];
  [(fl 3806836419 100000000); (fl 5925534851 100000000); (PInt 0); (fl 1825279097 2000000000); (fl 8128045141 10000000000)];
  [(fl 3806836419 500000000); (fl 118510697 10000000); (PInt 0); (fl 1 1); (fl 1 1)];
  [(fl 1439864659 10000000); (fl 139250069 200000); (fl 1 2); (fl 182079179 625000000); (fl 1603242403 100000000000)];
  [(fl 1439864659 20000000); (fl 139250069 400000); (fl 1 2); (fl 6665838617 10000000000); (fl 6100836679 100000000000)];
  [(fl 224978853 6250000); (fl 1740625863 10000000); (fl 1 2); (fl 8859737757 10000000000); (fl 2137736687 10000000000)];
  [(fl 1439864659 200000000); (fl 139250069 4000000); (fl 1 2); (fl 1 1); (fl 4460976957 5000000000)];
  [(fl 224978853 62500000); (fl 1740625863 100000000); (fl 1 2); (fl 1 1); (fl 4901705653 5000000000)];
  [(fl 1657034147 10000000); (fl 8318578683 10000000); (PInt 0); (fl 493978157 2000000000); (fl 1134699969 100000000000)];
  [(fl 517823171 6250000); (fl 4159289341 10000000); (PInt 0); (fl 1651606877 2500000000); (fl 219974267 5000000000)];
  [(fl 517823171 12500000); (fl 2079644671 10000000); (PInt 0); (fl 280910219 312500000); (fl 12812157 78125000)];
  [(fl 517823171 25000000); (fl 207964467 2000000); (PInt 0); (fl 2439510637 2500000000); (fl 5147423711 10000000000)];
  [(fl 517823171 125000000); (fl 2079644671 100000000); (PInt 0); (fl 1 1); (fl 975520807 1000000000)];
  [(fl 3758707143 10000000); (fl 8979133729 10000000); (fl 1 2); (fl 211014111 4000000000); (fl 973600711 100000000000)];
  [(fl 1879353571 10000000); (fl 897913373 2000000); (fl 1 2); (fl 375123401 2000000000); (fl 3755817947 100000000000)];
  [(fl 3758707143 100000000); (fl 8979133729 100000000); (fl 1 2); (fl 8775402567 10000000000); (fl 342431097 625000000)];
  [(fl 1879353571 100000000); (fl 897913373 20000000); (fl 1 2); (fl 4866992617 5000000000); (fl 8374532731 10000000000)];
  [(fl 3758707143 1000000000); (fl 8979133729 1000000000); (fl 1 2); (fl 1 1); (fl 1 1)];
  [(fl 521640531 10000000); (fl 2962343803 10000000); (fl 1 2); (fl 1987533677 2500000000); (fl 8259588761 100000000000)];
  [(fl 521640531 20000000); (fl 740585951 5000000); (fl 1 2); (fl 2342263057 2500000000); (fl 696491497 2500000000)];
  [(fl 521640531 100000000); (fl 2962343803 100000000); (fl 1 2); (fl 1 1); (fl 9189745589 10000000000)];
  [(fl 521640531 200000000); (fl 740585951 50000000); (fl 1 2); (fl 1 1); (fl 99337381 100000000)];
  [(fl 861874507 10000000); (fl 2416702941 10000000); (fl 1 2); (fl 5712107563 10000000000); (fl 600562189 5000000000)];
  [(fl 861874507 20000000); (fl 1208351471 10000000); (fl 1 2); (fl 8475597267 10000000000); (fl 3787678741 10000000000)];
  [(fl 861874507 100000000); (fl 2416702941 100000000); (fl 1 2); (fl 1 1); (fl 1893050387 2000000000)];
  [(fl 861874507 200000000); (fl 1208351471 100000000); (fl 1 2); (fl 1 1); (fl 1 1)]].
Example t17_ok : forallb (fun r => match r with [lx; ly; b; x; y] => ok d5 (entry 4 (ns6_3_3_alpha_c tpow lx b)) x && ok d5 (entry 4 (ns6_3_3_alpha_c tpow ly b)) y | _ => false end) t17 = true.
Proof. vm_compute. reflexivity. Qed.

(** tests/test_AS4100_6.py test_s6_3_3_N_c: 55 cases. *)
Definition t18 : list (list pynum) := [
  [(fl 189 100000); (PInt 1); (PInt 10); (fl 411 10000); (PInt 10); (fl 49 2000); (fl 320000000 1); (fl 250000000 1); (PInt 0); (fl 5871795713 100000); (fl 1086116029 50000)];
  [(fl 189 100000); (PInt 1); (PInt 5); (fl 411 10000); (PInt 5); (fl 49 2000); (fl 320000000 1); (fl 250000000 1); (PInt 0); (fl 2049571877 10000); (fl 8171831213 100000)];
  [(fl 189 100000); (PInt 1); (PInt 1); (fl 411 10000); (PInt 1); (fl 49 2000); (fl 320000000 1); (fl 250000000 1); (PInt 0); (fl 5758899423 10000); (fl 2655956419 5000)];
  [(fl 189 100000); (PInt 1); (fl 1 2); (fl 411 10000); (fl 1 2); (fl 49 2000); (fl 320000000 1); (fl 250000000 1); (PInt 0); (fl 6042682347 10000); (fl 5852598023 10000)];
  [(fl 579 10000); (fl 837 1000); (PInt 80); (fl 103 200); (PInt 80); (fl 3 25); (fl 280000000 1); (fl 250000000 1); (fl 1 2); (fl 3689201993 1000); (fl 157635504 625)];
  [(fl 579 10000); (fl 837 1000); (PInt 40); (fl 103 200); (PInt 40); (fl 3 25); (fl 280000000 1); (fl 250000000 1); (fl 1 2); (fl 8749899119 1000); (fl 4774042429 5000)];
  [(fl 579 10000); (fl 837 1000); (PInt 20); (fl 103 200); (PInt 20); (fl 3 25); (fl 280000000 1); (fl 250000000 1); (fl 1 2); (fl 297668906 25); (fl 822733749 250)];
  [(fl 579 10000); (fl 837 1000); (PInt 10); (fl 103 200); (PInt 10); (fl 3 25); (fl 280000000 1); (fl 250000000 1); (fl 1 2); (fl 264160371 20); (fl 1030856464 125)];
  [(fl 579 10000); (fl 837 1000); (PInt 5); (fl 103 200); (PInt 5); (fl 3 25); (fl 280000000 1); (fl 250000000 1); (fl 1 2); (fl 13569444 1); (fl 585318631 50)];
  [(fl 579 10000); (fl 837 1000); (PInt 1); (fl 103 200); (PInt 1); (fl 3 25); (fl 280000000 1); (fl 250000000 1); (fl 1 2); (fl 13569444 1); (fl 13569444 1)];
  [(fl 117 100000); (fl 103 125); (PInt 20); (fl 17 400); (PInt 20); (fl 41 2500); (fl 320000000 1); (fl 250000000 1); (fl 1 2); (fl 502700263 50000); (fl 1558308539 1000000)];
  [(fl 117 100000); (fl 103 125); (PInt 10); (fl 17 400); (PInt 10); (fl 41 2500); (fl 320000000 1); (fl 250000000 1); (fl 1 2); (fl 3706210939 100000); (fl 3041534349 500000)];
  [(fl 117 100000); (fl 103 125); (PInt 5); (fl 17 400); (PInt 5); (fl 41 2500); (fl 320000000 1); (fl 250000000 1); (fl 1 2); (fl 73042901 625); (fl 2297680283 100000)];
  [(fl 117 100000); (fl 103 125); (PInt 1); (fl 17 400); (PInt 1); (fl 41 2500); (fl 320000000 1); (fl 250000000 1); (fl 1 2); (fl 73003019 250); (fl 2249549169 10000)];
  [(fl 117 100000); (fl 103 125); (fl 1 2); (fl 17 400); (fl 1 2); (fl 41 2500); (fl 320000000 1); (fl 250000000 1); (fl 1 2); (fl 1542528 5); (fl 2808460803 10000)];
  [(fl 117 100000); (fl 103 125); (fl 1 10); (fl 17 400); (fl 1 10); (fl 41 2500); (fl 320000000 1); (fl 250000000 1); (fl 1 2); (fl 1542528 5); (fl 1542528 5)];
  [(fl 279 100000); (fl 479 500); (PInt 20); (fl 587 10000); (PInt 20); (fl 149 5000); (fl 320000000 1); (fl 250000000 1); (fl 1 2); (fl 1119929351 25000); (fl 603462503 50000)];
  [(fl 279 100000); (fl 479 500); (PInt 10); (fl 587 10000); (PInt 10); (fl 149 5000); (fl 320000000 1); (fl 250000000 1); (fl 1 2); (fl 1593798511 10000); (fl 922233123 20000)];
  [(fl 279 100000); (fl 479 500); (PInt 5); (fl 587 10000); (PInt 5); (fl 149 5000); (fl 320000000 1); (fl 250000000 1); (fl 1 2); (fl 4442941019 10000); (fl 1636113221 10000)];
  [(fl 279 100000); (fl 479 500); (PInt 1); (fl 587 10000); (PInt 1); (fl 149 5000); (fl 320000000 1); (fl 250000000 1); (fl 1 2); (fl 520153614 625); (fl 7525085567 10000)];
  [(fl 279 100000); (fl 479 500); (fl 1 2); (fl 587 10000); (fl 1 2); (fl 149 5000); (fl 320000000 1); (fl 250000000 1); (fl 1 2); (fl 4276512 5); (fl 1666928497 2000)];
  [(fl 279 100000); (fl 479 500); (fl 1 10); (fl 587 10000); (fl 1 10); (fl 149 5000); (fl 320000000 1); (fl 250000000 1); (fl 1 2); (fl 4276512 5); (fl 4276512 5)];
  [(fl 143 1000000); (PInt 1); (PInt 10); (fl 461 50000); (PInt 10); (fl 473 100000); (fl 320000000 1); (fl 250000000 1); (fl 1 2); (fl 601685943 2500000); (fl 1281169747 20000000)];
  [(fl 143 1000000); (PInt 1); (PInt 5); (fl 461 50000); (PInt 5); (fl 473 100000); (fl 320000000 1); (fl 250000000 1); (fl 1 2); (fl 586847129 625000); (fl 1266054147 5000000)];
  [(fl 143 1000000); (PInt 1); (PInt 1); (fl 461 50000); (PInt 1); (fl 473 100000); (fl 320000000 1); (fl 250000000 1); (fl 1 2); (fl 1695660153 100000); (fl 5600055361 1000000)];
  [(fl 143 1000000); (PInt 1); (fl 1 2); (fl 461 50000); (fl 1 2); (fl 473 100000); (fl 320000000 1); (fl 250000000 1); (fl 1 2); (fl 1687236991 50000); (fl 1758670963 100000)];
  [(fl 143 1000000); (PInt 1); (fl 1 10); (fl 461 50000); (fl 1 10); (fl 473 100000); (fl 320000000 1); (fl 250000000 1); (fl 1 2); (fl 45760 1); (fl 2168493641 50000)];
  [(fl 251 10000); (PInt 1); (PInt 40); (fl 139 1000); (PInt 40); (fl 893 10000); (fl 280000000 1); (fl 250000000 1); (PInt 0); (fl 5630543909 10000); (fl 2398863037 10000)];
  [(fl 251 10000); (PInt 1); (PInt 20); (fl 139 1000); (PInt 20); (fl 893 10000); (fl 280000000 1); (fl 250000000 1); (PInt 0); (fl 1005076363 500); (fl 9042742591 10000)];
  [(fl 251 10000); (PInt 1); (PInt 10); (fl 139 1000); (PInt 10); (fl 893 10000); (fl 280000000 1); (fl 250000000 1); (PInt 0); (fl 1242944441 250); (fl 1506174931 500)];
  [(fl 251 10000); (PInt 1); (PInt 5); (fl 139 1000); (PInt 5); (fl 893 10000); (fl 280000000 1); (fl 250000000 1); (PInt 0); (fl 6414030747 1000); (fl 45699121 8)];
  [(fl 251 10000); (PInt 1); (PInt 1); (fl 139 1000); (PInt 1); (fl 893 10000); (fl 280000000 1); (fl 250000000 1); (PInt 0); (fl 7028000 1); (fl 7028000 1)];
  [(fl 703 100000); (PInt 1); (PInt 20); (fl 147 1000); (PInt 20); (fl 19 625); (fl 280000000 1); (fl 250000000 1); (fl 1 2); (fl 1146894899 2000); (fl 1577911173 50000)];
  [(fl 703 100000); (PInt 1); (PInt 10); (fl 147 1000); (PInt 10); (fl 19 625); (fl 280000000 1); (fl 250000000 1); (fl 1 2); (fl 1312103673 1000); (fl 300222173 2500)];
  [(fl 703 100000); (PInt 1); (PInt 5); (fl 147 1000); (PInt 5); (fl 19 625); (fl 280000000 1); (fl 250000000 1); (fl 1 2); (fl 87197539 50); (fl 841584179 2000)];
  [(fl 703 100000); (PInt 1); (PInt 1); (fl 147 1000); (PInt 1); (fl 19 625); (fl 280000000 1); (fl 250000000 1); (fl 1 2); (fl 1968400 1); (fl 219524676 125)];
  [(fl 703 100000); (PInt 1); (fl 1 2); (fl 147 1000); (fl 1 2); (fl 19 625); (fl 280000000 1); (fl 250000000 1); (fl 1 2); (fl 1968400 1); (fl 1929703481 1000)];
  [(fl 2 125); (fl 19 20); (PInt 40); (fl 249 1000); (PInt 40); (fl 31 625); (fl 280000000 1); (fl 250000000 1); (PInt 0); (fl 525592759 500); (fl 4829283067 100000)];
  [(fl 2 125); (fl 19 20); (PInt 20); (fl 249 1000); (PInt 20); (fl 31 625); (fl 280000000 1); (fl 250000000 1); (PInt 0); (fl 702923887 250); (fl 1872420961 10000)];
  [(fl 2 125); (fl 19 20); (PInt 10); (fl 249 1000); (PInt 10); (fl 31 625); (fl 280000000 1); (fl 250000000 1); (PInt 0); (fl 765154491 200); (fl 872456643 1250)];
  [(fl 2 125); (fl 19 20); (PInt 5); (fl 249 1000); (PInt 5); (fl 31 625); (fl 280000000 1); (fl 250000000 1); (PInt 0); (fl 1038255727 250); (fl 2190743531 1000)];
  [(fl 2 125); (fl 19 20); (PInt 1); (fl 249 1000); (PInt 1); (fl 31 625); (fl 280000000 1); (fl 250000000 1); (PInt 0); (fl 4256000 1); (fl 2075908277 500)];
  [(fl 377 500000); (PInt 1); (PInt 10); (fl 301 10000); (PInt 10); (fl 63 5000); (fl 320000000 1); (fl 250000000 1); (fl 1 2); (fl 636418559 50000); (fl 587275949 250000)];
  [(fl 377 500000); (PInt 1); (PInt 5); (fl 301 10000); (PInt 5); (fl 63 5000); (fl 320000000 1); (fl 250000000 1); (fl 1 2); (fl 4525488709 100000); (fl 4531018771 500000)];
  [(fl 377 500000); (PInt 1); (PInt 1); (fl 301 10000); (PInt 1); (fl 63 5000); (fl 320000000 1); (fl 250000000 1); (fl 1 2); (fl 2117329131 10000); (fl 1321948401 10000)];
  [(fl 377 500000); (PInt 1); (fl 1 2); (fl 301 10000); (fl 1 2); (fl 63 5000); (fl 320000000 1); (fl 250000000 1); (fl 1 2); (fl 2348615957 10000); (fl 2020607257 10000)];
  [(fl 377 500000); (PInt 1); (fl 1 10); (fl 301 10000); (fl 1 10); (fl 63 5000); (fl 320000000 1); (fl 250000000 1); (fl 1 2); (fl 241280 1); (fl 241280 1)];
  [(fl 11 1000); (PInt 1); (PInt 10); (fl 21 100); (PInt 10); (fl 36979 1000000); (fl 300000000 1); (fl 250000000 1); (fl 1 2); (fl 1311772227 500); (fl 2725664291 10000)];
  [(fl 11 1000); (PInt 1); (PInt 5); (fl 21 100); (PInt 5); (fl 36979 1000000); (fl 300000000 1); (fl 250000000 1); (fl 1 2); (fl 618357447 200); (fl 9193687761 10000)];
  [(fl 11 1000); (PInt 1); (PInt 1); (fl 21 100); (PInt 1); (fl 36979 1000000); (fl 300000000 1); (fl 250000000 1); (fl 1 2); (fl 3300000 1); (fl 758154011 250)];
  [(fl 11 1000); (PInt 1); (fl 1 2); (fl 21 100); (fl 1 2); (fl 36979 1000000); (fl 300000000 1); (fl 250000000 1); (fl 1 2); (fl 3300000 1); (fl 3278133573 1000)];
  [(fl 13 1000); (PInt 1); (PInt 10); (fl 317750759 2500000000); (PInt 10); (fl 45328083 1000000000); (fl 300000000 1); (fl 250000000 1); (fl 1 2); (fl 44554439 20); (fl 187375403 400)];
  [(fl 13 1000); (PInt 1); (PInt 5); (fl 317750759 2500000000); (PInt 5); (fl 45328083 1000000000); (fl 300000000 1); (fl 250000000 1); (fl 1 2); (fl 1652741467 500); (fl 1477194709 1000)];
  [(fl 13 1000); (PInt 1); (PInt 1); (fl 317750759 2500000000); (PInt 1); (fl 45328083 1000000000); (fl 300000000 1); (fl 250000000 1); (fl 1 2); (fl 3900000 1); (fl 738289651 200)];
  [(fl 13 1000); (PInt 1); (fl 1 2); (fl 317750759 2500000000); (fl 1 2); (fl 45328083 1000000000); (fl 300000000 1); (fl 250000000 1); (fl 1 2); (fl 3900000 1); (fl 3900000 1)]].
Example t18_ok : forallb (fun r => match r with [a; k; lx; rx; ly; ry; f; h; b; x; y] => ok d5 (ns6_3_3_N_c tpow a k lx rx f h b) x && ok d5 (ns6_3_3_N_c tpow a k ly ry f h b) y | _ => false end) t18 = true.
Proof. vm_compute. reflexivity. Qed.

(** tests/test_AS4100_6.py test_f_oxz: 55 cases. *)
Definition t19 : list (list pynum) := [
  [(fl 189 100000); (PInt 10); (PInt 10); (fl 411 10000); (fl 49 2000); (PInt 0); (PInt 0); (fl 349 10000000000); (fl 23 10000000000); (fl 200000000000 1); (fl 80000000000 1); (fl 33343670 1)];
  [(fl 189 100000); (PInt 5); (PInt 5); (fl 411 10000); (fl 49 2000); (PInt 0); (PInt 0); (fl 349 10000000000); (fl 23 10000000000); (fl 200000000000 1); (fl 80000000000 1); (fl 133374700 1)];
  [(fl 189 100000); (PInt 1); (PInt 1); (fl 411 10000); (fl 49 2000); (PInt 0); (PInt 0); (fl 349 10000000000); (fl 23 10000000000); (fl 200000000000 1); (fl 80000000000 1); (fl 1694450000 1)];
  [(fl 189 100000); (fl 1 2); (fl 1 2); (fl 411 10000); (fl 49 2000); (PInt 0); (PInt 0); (fl 349 10000000000); (fl 23 10000000000); (fl 200000000000 1); (fl 80000000000 1); (fl 4842082000 1)];
  [(fl 579 10000); (PInt 80); (PInt 80); (fl 103 200); (fl 3 25); (PInt 0); (PInt 0); (fl 11 500000); (fl 7 25000); (fl 200000000000 1); (fl 80000000000 1); (fl 81802060 1)];
  [(fl 579 10000); (PInt 40); (PInt 40); (fl 103 200); (fl 3 25); (PInt 0); (PInt 0); (fl 11 500000); (fl 7 25000); (fl 200000000000 1); (fl 80000000000 1); (fl 130043200 1)];
  [(fl 579 10000); (PInt 20); (PInt 20); (fl 103 200); (fl 3 25); (PInt 0); (PInt 0); (fl 11 500000); (fl 7 25000); (fl 200000000000 1); (fl 80000000000 1); (fl 194051200 1)];
  [(fl 579 10000); (PInt 10); (PInt 10); (fl 103 200); (fl 3 25); (PInt 0); (PInt 0); (fl 11 500000); (fl 7 25000); (fl 200000000000 1); (fl 80000000000 1); (fl 450083300 1)];
  [(fl 579 10000); (PInt 5); (PInt 5); (fl 103 200); (fl 3 25); (PInt 0); (PInt 0); (fl 11 500000); (fl 7 25000); (fl 200000000000 1); (fl 80000000000 1); (fl 1474212000 1)];
  [(fl 579 10000); (PInt 1); (PInt 1); (fl 103 200); (fl 3 25); (PInt 0); (PInt 0); (fl 11 500000); (fl 7 25000); (fl 200000000000 1); (fl 80000000000 1); (fl 34246320000 1)];
  [(fl 117 100000); (PInt 20); (PInt 20); (fl 17 400); (fl 41 2500); (PInt 0); (PInt 0); (fl 37 2500000000); (fl 0 1); (fl 200000000000 1); (fl 80000000000 1); (fl 8913486 1)];
  [(fl 117 100000); (PInt 10); (PInt 10); (fl 17 400); (fl 41 2500); (PInt 0); (PInt 0); (fl 37 2500000000); (fl 0 1); (fl 200000000000 1); (fl 80000000000 1); (fl 35653950 1)];
  [(fl 117 100000); (PInt 5); (PInt 5); (fl 17 400); (fl 41 2500); (PInt 0); (PInt 0); (fl 37 2500000000); (fl 0 1); (fl 200000000000 1); (fl 80000000000 1); (fl 142615800 1)];
  [(fl 117 100000); (PInt 1); (PInt 1); (fl 17 400); (fl 41 2500); (PInt 0); (PInt 0); (fl 37 2500000000); (fl 0 1); (fl 200000000000 1); (fl 80000000000 1); (fl 487645000 1)];
  [(fl 117 100000); (fl 1 2); (fl 1 2); (fl 17 400); (fl 41 2500); (PInt 0); (PInt 0); (fl 37 2500000000); (fl 0 1); (fl 200000000000 1); (fl 80000000000 1); (fl 487645000 1)];
  [(fl 117 100000); (fl 1 10); (fl 1 10); (fl 17 400); (fl 41 2500); (PInt 0); (PInt 0); (fl 37 2500000000); (fl 0 1); (fl 200000000000 1); (fl 80000000000 1); (fl 487645000 1)];
  [(fl 279 100000); (PInt 20); (PInt 20); (fl 587 10000); (fl 149 5000); (PInt 0); (PInt 0); (fl 889 10000000000); (fl 0 1); (fl 200000000000 1); (fl 80000000000 1); (fl 17003800 1)];
  [(fl 279 100000); (PInt 10); (PInt 10); (fl 587 10000); (fl 149 5000); (PInt 0); (PInt 0); (fl 889 10000000000); (fl 0 1); (fl 200000000000 1); (fl 80000000000 1); (fl 68015190 1)];
  [(fl 279 100000); (PInt 5); (PInt 5); (fl 587 10000); (fl 149 5000); (PInt 0); (PInt 0); (fl 889 10000000000); (fl 0 1); (fl 200000000000 1); (fl 80000000000 1); (fl 272060800 1)];
  [(fl 279 100000); (PInt 1); (PInt 1); (fl 587 10000); (fl 149 5000); (PInt 0); (PInt 0); (fl 889 10000000000); (fl 0 1); (fl 200000000000 1); (fl 80000000000 1); (fl 588200900 1)];
  [(fl 279 100000); (fl 1 2); (fl 1 2); (fl 587 10000); (fl 149 5000); (PInt 0); (PInt 0); (fl 889 10000000000); (fl 0 1); (fl 200000000000 1); (fl 80000000000 1); (fl 588200900 1)];
  [(fl 279 100000); (fl 1 10); (fl 1 10); (fl 587 10000); (fl 149 5000); (PInt 0); (PInt 0); (fl 889 10000000000); (fl 0 1); (fl 200000000000 1); (fl 80000000000 1); (fl 588200900 1)];
  [(fl 143 1000000); (PInt 10); (PInt 10); (fl 461 50000); (fl 473 100000); (PInt 0); (PInt 0); (fl 103 200000000000); (fl 0 1); (fl 200000000000 1); (fl 80000000000 1); (fl 1677999 1)];
  [(fl 143 1000000); (PInt 5); (PInt 5); (fl 461 50000); (fl 473 100000); (PInt 0); (PInt 0); (fl 103 200000000000); (fl 0 1); (fl 200000000000 1); (fl 80000000000 1); (fl 6711994 1)];
  [(fl 143 1000000); (PInt 1); (PInt 1); (fl 461 50000); (fl 473 100000); (PInt 0); (PInt 0); (fl 103 200000000000); (fl 0 1); (fl 200000000000 1); (fl 80000000000 1); (fl 167799900 1)];
  [(fl 143 1000000); (fl 1 2); (fl 1 2); (fl 461 50000); (fl 473 100000); (PInt 0); (PInt 0); (fl 103 200000000000); (fl 0 1); (fl 200000000000 1); (fl 80000000000 1); (fl 671199400 1)];
  [(fl 143 1000000); (fl 1 10); (fl 1 10); (fl 461 50000); (fl 473 100000); (PInt 0); (PInt 0); (fl 103 200000000000); (fl 0 1); (fl 200000000000 1); (fl 80000000000 1); (fl 2683073000 1)];
  [(fl 251 10000); (PInt 40); (PInt 40); (fl 139 1000); (fl 893 10000); (PInt 0); (PInt 0); (fl 23 4000000); (fl 23 5000000); (fl 200000000000 1); (fl 80000000000 1); (fl 23836330 1)];
  [(fl 251 10000); (PInt 20); (PInt 20); (fl 139 1000); (fl 893 10000); (PInt 0); (PInt 0); (fl 23 4000000); (fl 23 5000000); (fl 200000000000 1); (fl 80000000000 1); (fl 95345310 1)];
  [(fl 251 10000); (PInt 10); (PInt 10); (fl 139 1000); (fl 893 10000); (PInt 0); (PInt 0); (fl 23 4000000); (fl 23 5000000); (fl 200000000000 1); (fl 80000000000 1); (fl 381381300 1)];
  [(fl 251 10000); (PInt 5); (PInt 5); (fl 139 1000); (fl 893 10000); (PInt 0); (PInt 0); (fl 23 4000000); (fl 23 5000000); (fl 200000000000 1); (fl 80000000000 1); (fl 1201549000 1)];
  [(fl 251 10000); (PInt 1); (PInt 1); (fl 139 1000); (fl 893 10000); (PInt 0); (PInt 0); (fl 23 4000000); (fl 23 5000000); (fl 200000000000 1); (fl 80000000000 1); (fl 13924690000 1)];
  [(fl 703 100000); (PInt 20); (PInt 20); (fl 147 1000); (fl 19 625); (fl 567 10000); (PInt 0); (fl 59 125000000); (fl 151 1000000000); (fl 200000000000 1); (fl 80000000000 1); (fl 96602100 1)];
  [(fl 703 100000); (PInt 10); (PInt 10); (fl 147 1000); (fl 19 625); (fl 567 10000); (PInt 0); (fl 59 125000000); (fl 151 1000000000); (fl 200000000000 1); (fl 80000000000 1); (fl 202291100 1)];
  [(fl 703 100000); (PInt 5); (PInt 5); (fl 147 1000); (fl 19 625); (fl 567 10000); (PInt 0); (fl 59 125000000); (fl 151 1000000000); (fl 200000000000 1); (fl 80000000000 1); (fl 268228300 1)];
  [(fl 703 100000); (PInt 1); (PInt 1); (fl 147 1000); (fl 19 625); (fl 567 10000); (PInt 0); (fl 59 125000000); (fl 151 1000000000); (fl 200000000000 1); (fl 80000000000 1); (fl 1844867000 1)];
  [(fl 703 100000); (fl 1 2); (fl 1 2); (fl 147 1000); (fl 19 625); (fl 567 10000); (PInt 0); (fl 59 125000000); (fl 151 1000000000); (fl 200000000000 1); (fl 80000000000 1); (fl 6760469000 1)];
  [(fl 2 125); (PInt 40); (PInt 40); (fl 249 1000); (fl 31 625); (PInt 0); (PInt 0); (fl 39 25000000); (fl 69 20000000); (fl 200000000000 1); (fl 80000000000 1); (fl 76490670 1)];
  [(fl 2 125); (PInt 20); (PInt 20); (fl 249 1000); (fl 31 625); (PInt 0); (PInt 0); (fl 39 25000000); (fl 69 20000000); (fl 200000000000 1); (fl 80000000000 1); (fl 137510200 1)];
  [(fl 2 125); (PInt 10); (PInt 10); (fl 249 1000); (fl 31 625); (PInt 0); (PInt 0); (fl 39 25000000); (fl 69 20000000); (fl 200000000000 1); (fl 80000000000 1); (fl 187031500 1)];
  [(fl 2 125); (PInt 5); (PInt 5); (fl 249 1000); (fl 31 625); (PInt 0); (PInt 0); (fl 39 25000000); (fl 69 20000000); (fl 200000000000 1); (fl 80000000000 1); (fl 385116700 1)];
  [(fl 2 125); (PInt 1); (PInt 1); (fl 249 1000); (fl 31 625); (PInt 0); (PInt 0); (fl 39 25000000); (fl 69 20000000); (fl 200000000000 1); (fl 80000000000 1); (fl 6723843000 1)];
  [(fl 377 500000); (PInt 10); (PInt 10); (fl 301 10000); (fl 63 5000); (fl 17 625); (PInt 0); (fl 813 100000000000); (fl 53 500000000000); (fl 200000000000 1); (fl 80000000000 1); (fl 17608730 1)];
  [(fl 377 500000); (PInt 5); (PInt 5); (fl 301 10000); (fl 63 5000); (fl 17 625); (PInt 0); (fl 813 100000000000); (fl 53 500000000000); (fl 200000000000 1); (fl 80000000000 1); (fl 67108460 1)];
  [(fl 377 500000); (PInt 1); (PInt 1); (fl 301 10000); (fl 63 5000); (fl 17 625); (PInt 0); (fl 813 100000000000); (fl 53 500000000000); (fl 200000000000 1); (fl 80000000000 1); (fl 537208500 1)];
  [(fl 377 500000); (fl 1 2); (fl 1 2); (fl 301 10000); (fl 63 5000); (fl 17 625); (PInt 0); (fl 813 100000000000); (fl 53 500000000000); (fl 200000000000 1); (fl 80000000000 1); (fl 1023092000 1)];
  [(fl 377 500000); (fl 1 10); (fl 1 10); (fl 301 10000); (fl 63 5000); (fl 17 625); (PInt 0); (fl 813 100000000000); (fl 53 500000000000); (fl 200000000000 1); (fl 80000000000 1); (fl 15270830000 1)];
  [(fl 11 1000); (PInt 10); (PInt 10); (fl 21 100); (fl 36979 1000000); (PInt 0); (fl 15428504787 100000000000); (fl 229597 250000000000); (fl 4029091 10000000000000); (fl 200000000000 1); (fl 80000000000 1); (fl 106858000 1)];
  [(fl 11 1000); (PInt 5); (PInt 5); (fl 21 100); (fl 36979 1000000); (PInt 0); (fl 15428504787 100000000000); (fl 229597 250000000000); (fl 4029091 10000000000000); (fl 200000000000 1); (fl 80000000000 1); (fl 138170100 1)];
  [(fl 11 1000); (PInt 1); (PInt 1); (fl 21 100); (fl 36979 1000000); (PInt 0); (fl 15428504787 100000000000); (fl 229597 250000000000); (fl 4029091 10000000000000); (fl 200000000000 1); (fl 80000000000 1); (fl 1140157000 1)];
  [(fl 11 1000); (fl 1 2); (fl 1 2); (fl 21 100); (fl 36979 1000000); (PInt 0); (fl 15428504787 100000000000); (fl 229597 250000000000); (fl 4029091 10000000000000); (fl 200000000000 1); (fl 80000000000 1); (fl 4271364000 1)];
  [(fl 13 1000); (PInt 10); (PInt 10); (fl 317750759 2500000000); (fl 453280830003 10000000000000); (fl 220614080619 10000000000000); (PInt 0); (fl 396189 250000000000); (fl 1531721 50000000000000); (fl 200000000000 1); (fl 80000000000 1); (fl 307511800 1)];
  [(fl 13 1000); (PInt 5); (PInt 5); (fl 317750759 2500000000); (fl 453280830003 10000000000000); (fl 220614080619 10000000000000); (PInt 0); (fl 396189 250000000000); (fl 1531721 50000000000000); (fl 200000000000 1); (fl 80000000000 1); (fl 522162100 1)];
  [(fl 13 1000); (PInt 1); (PInt 1); (fl 317750759 2500000000); (fl 453280830003 10000000000000); (fl 220614080619 10000000000000); (PInt 0); (fl 396189 250000000000); (fl 1531721 50000000000000); (fl 200000000000 1); (fl 80000000000 1); (fl 769936700 1)];
  [(fl 13 1000); (fl 1 2); (fl 1 2); (fl 317750759 2500000000); (fl 453280830003 10000000000000); (fl 220614080619 10000000000000); (PInt 0); (fl 396189 250000000000); (fl 1531721 50000000000000); (fl 200000000000 1); (fl 80000000000 1); (fl 1516359000 1)]].
Example t19_ok : forallb (fun r => match r with [a; lx; lz; rx; ry; xo; yo; j; w; e; g; x] => ok d5 (entry 4 (nf_oxz tpow a lx lz rx ry xo yo j w e g)) x | _ => false end) t19 = true.
Proof. vm_compute. reflexivity. Qed.

(** tests/test_AS4100_6.py test_f_oc_double_symmetric: 20 cases. *)
Definition t20 : list (list pynum) := [
  [(fl 579 10000); (PInt 80); (PInt 80); (fl 103 200); (fl 3 25); (PInt 0); (PInt 0); (fl 11 500000); (fl 7 25000); (fl 200000000000 1); (fl 80000000000 1); (fl 81802057 1)];
  [(fl 579 10000); (PInt 40); (PInt 40); (fl 103 200); (fl 3 25); (PInt 0); (PInt 0); (fl 11 500000); (fl 7 25000); (fl 200000000000 1); (fl 80000000000 1); (fl 130043160 1)];
  [(fl 579 10000); (PInt 20); (PInt 20); (fl 103 200); (fl 3 25); (PInt 0); (PInt 0); (fl 11 500000); (fl 7 25000); (fl 200000000000 1); (fl 80000000000 1); (fl 194051190 1)];
  [(fl 579 10000); (PInt 10); (PInt 10); (fl 103 200); (fl 3 25); (PInt 0); (PInt 0); (fl 11 500000); (fl 7 25000); (fl 200000000000 1); (fl 80000000000 1); (fl 450083330 1)];
  [(fl 579 10000); (PInt 5); (PInt 5); (fl 103 200); (fl 3 25); (PInt 0); (PInt 0); (fl 11 500000); (fl 7 25000); (fl 200000000000 1); (fl 80000000000 1); (fl 1474211900 1)];
  [(fl 579 10000); (PInt 1); (PInt 1); (fl 103 200); (fl 3 25); (PInt 0); (PInt 0); (fl 11 500000); (fl 7 25000); (fl 200000000000 1); (fl 80000000000 1); (fl 34246325000 1)];
  [(fl 251 10000); (PInt 40); (PInt 40); (fl 139 1000); (fl 893 10000); (PInt 0); (PInt 0); (fl 23 4000000); (fl 23 5000000); (fl 200000000000 1); (fl 80000000000 1); (fl 23836328 1)];
  [(fl 251 10000); (PInt 20); (PInt 20); (fl 139 1000); (fl 893 10000); (PInt 0); (PInt 0); (fl 23 4000000); (fl 23 5000000); (fl 200000000000 1); (fl 80000000000 1); (fl 95345313 1)];
  [(fl 251 10000); (PInt 10); (PInt 10); (fl 139 1000); (fl 893 10000); (PInt 0); (PInt 0); (fl 23 4000000); (fl 23 5000000); (fl 200000000000 1); (fl 80000000000 1); (fl 381381250 1)];
  [(fl 251 10000); (PInt 5); (PInt 5); (fl 139 1000); (fl 893 10000); (PInt 0); (PInt 0); (fl 23 4000000); (fl 23 5000000); (fl 200000000000 1); (fl 80000000000 1); (fl 1201549100 1)];
  [(fl 251 10000); (PInt 1); (PInt 1); (fl 139 1000); (fl 893 10000); (PInt 0); (PInt 0); (fl 23 4000000); (fl 23 5000000); (fl 200000000000 1); (fl 80000000000 1); (fl 13924686000 1)];
  [(fl 2 125); (PInt 40); (PInt 40); (fl 249 1000); (fl 31 625); (PInt 0); (PInt 0); (fl 39 25000000); (fl 69 20000000); (fl 200000000000 1); (fl 80000000000 1); (fl 76490668 1)];
  [(fl 2 125); (PInt 20); (PInt 20); (fl 249 1000); (fl 31 625); (PInt 0); (PInt 0); (fl 39 25000000); (fl 69 20000000); (fl 200000000000 1); (fl 80000000000 1); (fl 137510200 1)];
  [(fl 2 125); (PInt 10); (PInt 10); (fl 249 1000); (fl 31 625); (PInt 0); (PInt 0); (fl 39 25000000); (fl 69 20000000); (fl 200000000000 1); (fl 80000000000 1); (fl 187031490 1)];
  [(fl 2 125); (PInt 5); (PInt 5); (fl 249 1000); (fl 31 625); (PInt 0); (PInt 0); (fl 39 25000000); (fl 69 20000000); (fl 200000000000 1); (fl 80000000000 1); (fl 385116670 1)];
  [(fl 2 125); (PInt 1); (PInt 1); (fl 249 1000); (fl 31 625); (PInt 0); (PInt 0); (fl 39 25000000); (fl 69 20000000); (fl 200000000000 1); (fl 80000000000 1); (fl 6723842500 1)];
  [(fl 189 100000); (PInt 10); (PInt 10); (fl 411 10000); (fl 49 2000); (PInt 0); (PInt 0); (fl 349 10000000000); (fl 23 10000000000); (fl 200000000000 1); (fl 80000000000 1); (fl 33343669 1)];
  [(fl 189 100000); (PInt 5); (PInt 5); (fl 411 10000); (fl 49 2000); (PInt 0); (PInt 0); (fl 349 10000000000); (fl 23 10000000000); (fl 200000000000 1); (fl 80000000000 1); (fl 133374680 1)];
  [(fl 189 100000); (PInt 1); (PInt 1); (fl 411 10000); (fl 49 2000); (PInt 0); (PInt 0); (fl 349 10000000000); (fl 23 10000000000); (fl 200000000000 1); (fl 80000000000 1); (fl 1694449600 1)];
  [(fl 189 100000); (fl 1 2); (fl 1 2); (fl 411 10000); (fl 49 2000); (PInt 0); (PInt 0); (fl 349 10000000000); (fl 23 10000000000); (fl 200000000000 1); (fl 80000000000 1); (fl 4842081700 1)]].
Example t20_ok : forallb (fun r => match r with [a; lx; lz; rx; ry; xo; yo; j; w; e; g; x] => ok d5 (nf_oc_double_symmetric tpow a lx lz rx ry xo yo j w e g) x | _ => false end) t20 = true.
Proof. vm_compute. reflexivity. Qed.

(** tests/test_AS4100_6.py test_f_oc_single_symmetric: 29 cases. *)
Definition t21 : list (list pynum * symmetry_t) := [
  ([(fl 279 100000); (PInt 20); (PInt 20); (PInt 20); (fl 587 10000); (fl 149 5000); (PInt 0); (PInt 0); (fl 889 10000000000); (fl 0 1); (fl 200000000000 1); (fl 80000000000 1); (fl 17003799 1)], (Some [AxStr "x"]));
  ([(fl 279 100000); (PInt 10); (PInt 10); (PInt 10); (fl 587 10000); (fl 149 5000); (PInt 0); (PInt 0); (fl 889 10000000000); (fl 0 1); (fl 200000000000 1); (fl 80000000000 1); (fl 68015194 1)], (Some [AxStr "x"]));
  ([(fl 279 100000); (PInt 5); (PInt 5); (PInt 5); (fl 587 10000); (fl 149 5000); (PInt 0); (PInt 0); (fl 889 10000000000); (fl 0 1); (fl 200000000000 1); (fl 80000000000 1); (fl 272060780 1)], (Some [AxStr "x"]));
  ([(fl 279 100000); (PInt 1); (PInt 1); (PInt 1); (fl 587 10000); (fl 149 5000); (PInt 0); (PInt 0); (fl 889 10000000000); (fl 0 1); (fl 200000000000 1); (fl 80000000000 1); (fl 588200910 1)], (Some [AxStr "x"]));
  ([(fl 279 100000); (fl 1 2); (fl 1 2); (fl 1 2); (fl 587 10000); (fl 149 5000); (PInt 0); (PInt 0); (fl 889 10000000000); (fl 0 1); (fl 200000000000 1); (fl 80000000000 1); (fl 588200910 1)], (Some [AxStr "x"]));
  ([(fl 279 100000); (fl 1 10); (fl 1 10); (fl 1 10); (fl 587 10000); (fl 149 5000); (PInt 0); (PInt 0); (fl 889 10000000000); (fl 0 1); (fl 200000000000 1); (fl 80000000000 1); (fl 588200910 1)], (Some [AxStr "x"]));
  ([(fl 143 1000000); (PInt 10); (PInt 10); (PInt 10); (fl 461 50000); (fl 473 100000); (PInt 0); (PInt 0); (fl 103 200000000000); (fl 0 1); (fl 200000000000 1); (fl 80000000000 1); (fl 8389993 5)], (Some [AxStr "x"]));
  ([(fl 143 1000000); (PInt 5); (PInt 5); (PInt 5); (fl 461 50000); (fl 473 100000); (PInt 0); (PInt 0); (fl 103 200000000000); (fl 0 1); (fl 200000000000 1); (fl 80000000000 1); (fl 33559971 5)], (Some [AxStr "x"]));
  ([(fl 143 1000000); (PInt 1); (PInt 1); (PInt 1); (fl 461 50000); (fl 473 100000); (PInt 0); (PInt 0); (fl 103 200000000000); (fl 0 1); (fl 200000000000 1); (fl 80000000000 1); (fl 167799860 1)], (Some [AxStr "x"]));
  ([(fl 143 1000000); (fl 1 2); (fl 1 2); (fl 1 2); (fl 461 50000); (fl 473 100000); (PInt 0); (PInt 0); (fl 103 200000000000); (fl 0 1); (fl 200000000000 1); (fl 80000000000 1); (fl 671199420 1)], (Some [AxStr "x"]));
  ([(fl 143 1000000); (fl 1 10); (fl 1 10); (fl 1 10); (fl 461 50000); (fl 473 100000); (PInt 0); (PInt 0); (fl 103 200000000000); (fl 0 1); (fl 200000000000 1); (fl 80000000000 1); (fl 2683073200 1)], (Some [AxStr "x"]));
  ([(fl 703 100000); (PInt 20); (PInt 20); (PInt 20); (fl 147 1000); (fl 19 625); (fl 567 10000); (PInt 0); (fl 59 125000000); (fl 151 1000000000); (fl 200000000000 1); (fl 80000000000 1); (fl 96602101 1)], (Some [AxStr "x"]));
  ([(fl 703 100000); (PInt 10); (PInt 10); (PInt 10); (fl 147 1000); (fl 19 625); (fl 567 10000); (PInt 0); (fl 59 125000000); (fl 151 1000000000); (fl 200000000000 1); (fl 80000000000 1); (fl 202291060 1)], (Some [AxStr "x"]));
  ([(fl 703 100000); (PInt 5); (PInt 5); (PInt 5); (fl 147 1000); (fl 19 625); (fl 567 10000); (PInt 0); (fl 59 125000000); (fl 151 1000000000); (fl 200000000000 1); (fl 80000000000 1); (fl 268228290 1)], (Some [AxStr "x"]));
  ([(fl 703 100000); (PInt 1); (PInt 1); (PInt 1); (fl 147 1000); (fl 19 625); (fl 567 10000); (PInt 0); (fl 59 125000000); (fl 151 1000000000); (fl 200000000000 1); (fl 80000000000 1); (fl 1844867000 1)], (Some [AxStr "x"]));
  ([(fl 703 100000); (fl 1 2); (fl 1 2); (fl 1 2); (fl 147 1000); (fl 19 625); (fl 567 10000); (PInt 0); (fl 59 125000000); (fl 151 1000000000); (fl 200000000000 1); (fl 80000000000 1); (fl 6760468900 1)], (Some [AxStr "x"]));
  ([(fl 377 500000); (PInt 10); (PInt 10); (PInt 10); (fl 301 10000); (fl 63 5000); (fl 17 625); (PInt 0); (fl 813 100000000000); (fl 53 500000000000); (fl 200000000000 1); (fl 80000000000 1); (fl 17608728 1)], (Some [AxStr "x"]));
  ([(fl 377 500000); (PInt 5); (PInt 5); (PInt 5); (fl 301 10000); (fl 63 5000); (fl 17 625); (PInt 0); (fl 813 100000000000); (fl 53 500000000000); (fl 200000000000 1); (fl 80000000000 1); (fl 67108462 1)], (Some [AxStr "x"]));
  ([(fl 377 500000); (PInt 1); (PInt 1); (PInt 1); (fl 301 10000); (fl 63 5000); (fl 17 625); (PInt 0); (fl 813 100000000000); (fl 53 500000000000); (fl 200000000000 1); (fl 80000000000 1); (fl 537208470 1)], (Some [AxStr "x"]));
  ([(fl 377 500000); (fl 1 2); (fl 1 2); (fl 1 2); (fl 301 10000); (fl 63 5000); (fl 17 625); (PInt 0); (fl 813 100000000000); (fl 53 500000000000); (fl 200000000000 1); (fl 80000000000 1); (fl 1023092200 1)], (Some [AxStr "x"]));
  ([(fl 377 500000); (fl 1 10); (fl 1 10); (fl 1 10); (fl 301 10000); (fl 63 5000); (fl 17 625); (PInt 0); (fl 813 100000000000); (fl 53 500000000000); (fl 200000000000 1); (fl 80000000000 1); (fl 15270832000 1)], (Some [AxStr "x"]));
  ([(fl 11 1000); (PInt 10); (PInt 10); (PInt 10); (fl 21 100); (fl 36979 1000000); (PInt 0); (fl 15428504787 100000000000); (fl 91838801 100000000000000); (fl 40290907 100000000000000); (fl 200000000000 1); (fl 80000000000 1); (fl 24490131 1)], (Some [AxStr "y"]));
  ([(fl 11 1000); (PInt 5); (PInt 5); (PInt 5); (fl 21 100); (fl 36979 1000000); (PInt 0); (fl 15428504787 100000000000); (fl 91838801 100000000000000); (fl 40290907 100000000000000); (fl 200000000000 1); (fl 80000000000 1); (fl 76018511 1)], (Some [AxStr "y"]));
  ([(fl 11 1000); (PInt 1); (PInt 1); (PInt 1); (fl 21 100); (fl 36979 1000000); (PInt 0); (fl 15428504787 100000000000); (fl 91838801 100000000000000); (fl 40290907 100000000000000); (fl 200000000000 1); (fl 80000000000 1); (fl 958698530 1)], (Some [AxStr "y"]));
  ([(fl 11 1000); (fl 1 2); (fl 1 2); (fl 1 2); (fl 21 100); (fl 36979 1000000); (PInt 0); (fl 15428504787 100000000000); (fl 91838801 100000000000000); (fl 40290907 100000000000000); (fl 200000000000 1); (fl 80000000000 1); (fl 3636660900 1)], (Some [AxStr "y"]));
  ([(fl 13 1000); (PInt 10); (PInt 10); (PInt 10); (fl 317750759 2500000000); (fl 453280830003 10000000000000); (fl 220614080619 10000000000000); (PInt 0); (fl 3961889 2500000000000); (fl 3829303 125000000000000); (fl 200000000000 1); (fl 80000000000 1); (fl 307511770 1)], (Some [AxStr "x"]));
  ([(fl 13 1000); (PInt 5); (PInt 5); (PInt 5); (fl 317750759 2500000000); (fl 453280830003 10000000000000); (fl 220614080619 10000000000000); (PInt 0); (fl 3961889 2500000000000); (fl 3829303 125000000000000); (fl 200000000000 1); (fl 80000000000 1); (fl 522162130 1)], (Some [AxStr "x"]));
  ([(fl 13 1000); (PInt 1); (PInt 1); (PInt 1); (fl 317750759 2500000000); (fl 453280830003 10000000000000); (fl 220614080619 10000000000000); (PInt 0); (fl 3961889 2500000000000); (fl 3829303 125000000000000); (fl 200000000000 1); (fl 80000000000 1); (fl 769936660 1)], (Some [AxStr "x"]));
  ([(fl 13 1000); (fl 1 2); (fl 1 2); (fl 1 2); (fl 317750759 2500000000); (fl 453280830003 10000000000000); (fl 220614080619 10000000000000); (PInt 0); (fl 3961889 2500000000000); (fl 3829303 125000000000000); (fl 200000000000 1); (fl 80000000000 1); (fl 1516359400 1)], (Some [AxStr "x"]))].
Example t21_ok : forallb (fun r => match r with ([a; lx; ly; lz; rx; ry; xo; yo; j; w; e; g; x], s) => ok d5 (nf_oc_single_symmetric tpow a lx ly lz rx ry xo yo j w e g s) x | _ => false end) t21 = true.
Proof. vm_compute. reflexivity. Qed.

(** tests/test_AS4100_6.py test_f_oc_point_symmetric: 49 cases. *)
Definition t22 : list (list pynum) := [
  [(fl 189 100000); (PInt 10); (fl 411 10000); (fl 49 2000); (PInt 0); (PInt 0); (fl 349 10000000000); (fl 23 10000000000); (PInt 200000000000); (PInt 80000000000); (fl 65573101807307 100000)];
  [(fl 189 100000); (PInt 5); (fl 411 10000); (fl 49 2000); (PInt 0); (PInt 0); (fl 349 10000000000); (fl 23 10000000000); (PInt 200000000000); (PInt 80000000000); (fl 687207339199749 1000000)];
  [(fl 189 100000); (PInt 1); (fl 411 10000); (fl 49 2000); (PInt 0); (PInt 0); (fl 349 10000000000); (fl 23 10000000000); (PInt 200000000000); (PInt 80000000000); (fl 5295155047667 3125)];
  [(fl 189 100000); (fl 1 2); (fl 411 10000); (fl 49 2000); (PInt 0); (PInt 0); (fl 349 10000000000); (fl 23 10000000000); (PInt 200000000000); (PInt 80000000000); (fl 121052043198031 25000)];
  [(fl 579 10000); (PInt 80); (fl 103 200); (fl 3 25); (PInt 0); (PInt 0); (fl 11 500000); (fl 7 25000); (PInt 200000000000); (PInt 80000000000); (fl 114041152049309 1000000)];
  [(fl 579 10000); (PInt 40); (fl 103 200); (fl 3 25); (PInt 0); (PInt 0); (fl 11 500000); (fl 7 25000); (PInt 200000000000); (PInt 80000000000); (fl 16255395048097 125000)];
  [(fl 579 10000); (PInt 20); (fl 103 200); (fl 3 25); (PInt 0); (PInt 0); (fl 11 500000); (fl 7 25000); (PInt 200000000000); (PInt 80000000000); (fl 194051193726641 1000000)];
  [(fl 579 10000); (PInt 10); (fl 103 200); (fl 3 25); (PInt 0); (PInt 0); (fl 11 500000); (fl 7 25000); (PInt 200000000000); (PInt 80000000000); (fl 450083327094101 1000000)];
  [(fl 579 10000); (PInt 5); (fl 103 200); (fl 3 25); (PInt 0); (PInt 0); (fl 11 500000); (fl 7 25000); (PInt 200000000000); (PInt 80000000000); (fl 73710593028197 50000)];
  [(fl 579 10000); (PInt 1); (fl 103 200); (fl 3 25); (PInt 0); (PInt 0); (fl 11 500000); (fl 7 25000); (PInt 200000000000); (PInt 80000000000); (fl 342463249315989 10000)];
  [(fl 279 100000); (PInt 20); (fl 587 10000); (fl 149 5000); (PInt 0); (PInt 0); (fl 889 10000000000); (PInt 0); (PInt 200000000000); (PInt 80000000000); (fl 588200912990041 1000000)];
  [(fl 279 100000); (PInt 10); (fl 587 10000); (fl 149 5000); (PInt 0); (PInt 0); (fl 889 10000000000); (PInt 0); (PInt 200000000000); (PInt 80000000000); (fl 588200912990041 1000000)];
  [(fl 279 100000); (PInt 5); (fl 587 10000); (fl 149 5000); (PInt 0); (PInt 0); (fl 889 10000000000); (PInt 0); (PInt 200000000000); (PInt 80000000000); (fl 588200912990041 1000000)];
  [(fl 279 100000); (PInt 1); (fl 587 10000); (fl 149 5000); (PInt 0); (PInt 0); (fl 889 10000000000); (PInt 0); (PInt 200000000000); (PInt 80000000000); (fl 588200912990041 1000000)];
  [(fl 279 100000); (fl 1 2); (fl 587 10000); (fl 149 5000); (PInt 0); (PInt 0); (fl 889 10000000000); (PInt 0); (PInt 200000000000); (PInt 80000000000); (fl 588200912990041 1000000)];
  [(fl 279 100000); (fl 1 10); (fl 587 10000); (fl 149 5000); (PInt 0); (PInt 0); (fl 889 10000000000); (PInt 0); (PInt 200000000000); (PInt 80000000000); (fl 588200912990041 1000000)];
  [(fl 143 1000000); (PInt 10); (fl 461 50000); (fl 473 100000); (PInt 0); (PInt 0); (fl 103 200000000000); (PInt 0); (PInt 200000000000); (PInt 80000000000); (fl 8384603747111 3125)];
  [(fl 143 1000000); (PInt 5); (fl 461 50000); (fl 473 100000); (PInt 0); (PInt 0); (fl 103 200000000000); (PInt 0); (PInt 200000000000); (PInt 80000000000); (fl 8384603747111 3125)];
  [(fl 143 1000000); (PInt 1); (fl 461 50000); (fl 473 100000); (PInt 0); (PInt 0); (fl 103 200000000000); (PInt 0); (PInt 200000000000); (PInt 80000000000); (fl 8384603747111 3125)];
  [(fl 143 1000000); (fl 1 2); (fl 461 50000); (fl 473 100000); (PInt 0); (PInt 0); (fl 103 200000000000); (PInt 0); (PInt 200000000000); (PInt 80000000000); (fl 8384603747111 3125)];
  [(fl 143 1000000); (fl 1 10); (fl 461 50000); (fl 473 100000); (PInt 0); (PInt 0); (fl 103 200000000000); (PInt 0); (PInt 200000000000); (PInt 80000000000); (fl 8384603747111 3125)];
  [(fl 251 10000); (PInt 40); (fl 139 1000); (fl 893 10000); (PInt 0); (PInt 0); (fl 23 4000000); (fl 23 5000000); (PInt 200000000000); (PInt 80000000000); (fl 169925413889401 250000)];
  [(fl 251 10000); (PInt 20); (fl 139 1000); (fl 893 10000); (PInt 0); (PInt 0); (fl 23 4000000); (fl 23 5000000); (PInt 200000000000); (PInt 80000000000); (fl 352275765845369 500000)];
  [(fl 251 10000); (PInt 10); (fl 139 1000); (fl 893 10000); (PInt 0); (PInt 0); (fl 23 4000000); (fl 23 5000000); (PInt 200000000000); (PInt 80000000000); (fl 803951036223273 1000000)];
  [(fl 251 10000); (PInt 5); (fl 139 1000); (fl 893 10000); (PInt 0); (PInt 0); (fl 23 4000000); (fl 23 5000000); (PInt 200000000000); (PInt 80000000000); (fl 120154905435341 100000)];
  [(fl 251 10000); (PInt 1); (fl 139 1000); (fl 893 10000); (PInt 0); (PInt 0); (fl 23 4000000); (fl 23 5000000); (PInt 200000000000); (PInt 80000000000); (fl 139246856345179 10000)];
  [(fl 703 100000); (PInt 20); (fl 147 1000); (fl 19 625); (fl 567 10000); (PInt 0); (fl 59 125000000); (fl 151 1000000000); (PInt 200000000000); (PInt 80000000000); (fl 106362665628543 500000)];
  [(fl 703 100000); (PInt 10); (fl 147 1000); (fl 19 625); (fl 567 10000); (PInt 0); (fl 59 125000000); (fl 151 1000000000); (PInt 200000000000); (PInt 80000000000); (fl 112537684472439 500000)];
  [(fl 703 100000); (PInt 5); (fl 147 1000); (fl 19 625); (fl 567 10000); (PInt 0); (fl 59 125000000); (fl 151 1000000000); (PInt 200000000000); (PInt 80000000000); (fl 274475519696047 1000000)];
  [(fl 703 100000); (PInt 1); (fl 147 1000); (fl 19 625); (fl 567 10000); (PInt 0); (fl 59 125000000); (fl 151 1000000000); (PInt 200000000000); (PInt 80000000000); (fl 92764017186673 50000)];
  [(fl 703 100000); (fl 1 2); (fl 147 1000); (fl 19 625); (fl 567 10000); (PInt 0); (fl 59 125000000); (fl 151 1000000000); (PInt 200000000000); (PInt 80000000000); (fl 679529541885039 100000)];
  [(fl 2 125); (PInt 40); (fl 249 1000); (fl 31 625); (PInt 0); (PInt 0); (fl 39 25000000); (fl 69 20000000); (PInt 200000000000); (PInt 80000000000); (fl 125129871710703 1000000)];
  [(fl 2 125); (PInt 20); (fl 249 1000); (fl 31 625); (PInt 0); (PInt 0); (fl 39 25000000); (fl 69 20000000); (PInt 200000000000); (PInt 80000000000); (fl 27502039133309 200000)];
  [(fl 2 125); (PInt 10); (fl 249 1000); (fl 31 625); (PInt 0); (PInt 0); (fl 39 25000000); (fl 69 20000000); (PInt 200000000000); (PInt 80000000000); (fl 187031491489911 1000000)];
  [(fl 2 125); (PInt 5); (fl 249 1000); (fl 31 625); (PInt 0); (PInt 0); (fl 39 25000000); (fl 69 20000000); (PInt 200000000000); (PInt 80000000000); (fl 24069792173961 62500)];
  [(fl 2 125); (PInt 1); (fl 249 1000); (fl 31 625); (PInt 0); (PInt 0); (fl 39 25000000); (fl 69 20000000); (PInt 200000000000); (PInt 80000000000); (fl 26895370160697 4000)];
  [(fl 377 500000); (PInt 10); (fl 301 10000); (fl 63 5000); (fl 17 625); (PInt 0); (fl 813 100000000000); (fl 53 500000000000); (PInt 200000000000); (PInt 80000000000); (fl 47953545510111 100000)];
  [(fl 377 500000); (PInt 5); (fl 301 10000); (fl 63 5000); (fl 17 625); (PInt 0); (fl 813 100000000000); (fl 53 500000000000); (PInt 200000000000); (PInt 80000000000); (fl 96829730748693 200000)];
  [(fl 377 500000); (PInt 1); (fl 301 10000); (fl 63 5000); (fl 17 625); (PInt 0); (fl 813 100000000000); (fl 53 500000000000); (PInt 200000000000); (PInt 80000000000); (fl 315885505149409 500000)];
  [(fl 377 500000); (fl 1 2); (fl 301 10000); (fl 63 5000); (fl 17 625); (PInt 0); (fl 813 100000000000); (fl 53 500000000000); (PInt 200000000000); (PInt 80000000000); (fl 10930908745343 10000)];
  [(fl 377 500000); (fl 1 10); (fl 301 10000); (fl 63 5000); (fl 17 625); (PInt 0); (fl 813 100000000000); (fl 53 500000000000); (PInt 200000000000); (PInt 80000000000); (fl 19819158162587 1250)];
  [(fl 11 1000); (PInt 10); (fl 21 100); (fl 36979 1000000); (PInt 0); (fl 15428504787 100000000000); (fl 11479850099 12500000000000000); (fl 40290907437 100000000000000000); (PInt 200000000000); (PInt 80000000000); (fl 21371600597883 200000)];
  [(fl 11 1000); (PInt 5); (fl 21 100); (fl 36979 1000000); (PInt 0); (fl 15428504787 100000000000); (fl 11479850099 12500000000000000); (fl 40290907437 100000000000000000); (PInt 200000000000); (PInt 80000000000); (fl 69085040151751 500000)];
  [(fl 11 1000); (PInt 1); (fl 21 100); (fl 36979 1000000); (PInt 0); (fl 15428504787 100000000000); (fl 11479850099 12500000000000000); (fl 40290907437 100000000000000000); (PInt 200000000000); (PInt 80000000000); (fl 114015655435429 100000)];
  [(fl 11 1000); (fl 1 2); (fl 21 100); (fl 36979 1000000); (PInt 0); (fl 15428504787 100000000000); (fl 11479850099 12500000000000000); (fl 40290907437 100000000000000000); (PInt 200000000000); (PInt 80000000000); (fl 427136428576301 100000)];
  [(fl 13 1000); (PInt 10); (fl 317750759 2500000000); (fl 453280830003 10000000000000); (fl 220614080619 10000000000000); (PInt 0); (fl 3961889047 2500000000000000); (fl 76586059847 2500000000000000000); (PInt 200000000000); (PInt 80000000000); (fl 131030002986221 250000)];
  [(fl 13 1000); (PInt 5); (fl 317750759 2500000000); (fl 453280830003 10000000000000); (fl 220614080619 10000000000000); (PInt 0); (fl 3961889047 2500000000000000); (fl 76586059847 2500000000000000000); (PInt 200000000000); (PInt 80000000000); (fl 16612000924689 31250)];
  [(fl 13 1000); (PInt 1); (fl 317750759 2500000000); (fl 453280830003 10000000000000); (fl 220614080619 10000000000000); (PInt 0); (fl 3961889047 2500000000000000); (fl 76586059847 2500000000000000000); (PInt 200000000000); (PInt 80000000000); (fl 770432594235289 1000000)];
  [(fl 13 1000); (fl 1 2); (fl 317750759 2500000000); (fl 453280830003 10000000000000); (fl 220614080619 10000000000000); (PInt 0); (fl 3961889047 2500000000000000); (fl 76586059847 2500000000000000000); (PInt 200000000000); (PInt 80000000000); (fl 151683435875167 100000)]].
Example t22_ok : forallb (fun r => match r with [a; lz; rx; ry; xo; yo; j; w; e; g; x] => ok d5 (nf_oc_point_symmetric tpow a lz rx ry xo yo j w e g) x | _ => false end) t22 = true.
Proof. vm_compute. reflexivity. Qed.

(** tests/test_AS4100_6.py test_f_oc_unsymmetric: 55 cases. *)
Definition t23 : list (list pynum) := [
  [(fl 189 100000); (PInt 10); (PInt 10); (PInt 10); (fl 411 10000); (fl 49 2000); (PInt 0); (PInt 0); (fl 349 10000000000); (fl 23 10000000000); (PInt 200000000000); (PInt 80000000000); (fl 114473 50000000); (fl 401183877 250); (fl 68750084170000 1); (fl 593108410300000000000 1); (fl 296211502 25)];
  [(fl 189 100000); (PInt 5); (PInt 5); (PInt 5); (fl 411 10000); (fl 49 2000); (PInt 0); (PInt 0); (fl 349 10000000000); (fl 23 10000000000); (PInt 200000000000); (PInt 80000000000); (fl 114473 50000000); (fl 1987196001 1000); (fl 298881193500000 1); (fl 9945259657000000000000 1); (fl 4739384033 100)];
  [(fl 189 100000); (PInt 1); (PInt 1); (PInt 1); (fl 411 10000); (fl 49 2000); (PInt 0); (PInt 0); (fl 349 10000000000); (fl 23 10000000000); (PInt 200000000000); (PInt 80000000000); (fl 114473 50000000); (fl 711296589 50); (fl 26576715300000000 1); (fl 15326289130000000000000000 1); (fl 1184846008 1)];
  [(fl 189 100000); (fl 1 2); (fl 1 2); (fl 1 2); (fl 411 10000); (fl 49 2000); (PInt 0); (PInt 0); (fl 349 10000000000); (fl 23 10000000000); (PInt 200000000000); (PInt 80000000000); (fl 114473 50000000); (fl 1311799527 25); (fl 345115429400000000 1); (fl 700745718500000000000000000 1); (fl 4739384033 1)];
  [(fl 579 10000); (PInt 80); (PInt 80); (PInt 80); (fl 103 200); (fl 3 25); (PInt 0); (PInt 0); (fl 11 500000); (fl 7 25000); (PInt 200000000000); (PInt 80000000000); (fl 2237 8000); (fl 2800228101 50); (fl 2851784526000000 1); (fl 11585481210000000000000 1); (fl 222066099 50)];
  [(fl 579 10000); (PInt 40); (PInt 40); (PInt 40); (fl 103 200); (fl 3 25); (PInt 0); (PInt 0); (fl 11 500000); (fl 7 25000); (PInt 200000000000); (PInt 80000000000); (fl 2237 8000); (fl 664132691 5); (fl 14169827620000000 1); (fl 211378095000000000000000 1); (fl 444132198 25)];
  [(fl 579 10000); (PInt 20); (PInt 20); (PInt 20); (fl 103 200); (fl 3 25); (PInt 0); (PInt 0); (fl 11 500000); (fl 7 25000); (PInt 200000000000); (PInt 80000000000); (fl 2237 8000); (fl 4401144431 10); (fl 100882342700000000 1); (fl 5046714833000000000000000 1); (fl 7106115169 100)];
  [(fl 579 10000); (PInt 10); (PInt 10); (PInt 10); (fl 103 200); (fl 3 25); (PInt 0); (PInt 0); (fl 11 500000); (fl 7 25000); (PInt 200000000000); (PInt 80000000000); (fl 2237 8000); (fl 1669266062 1); (fl 1110777886000000000 1); (fl 187286017400000000000000000 1); (fl 1421223034 5)];
  [(fl 579 10000); (PInt 5); (PInt 5); (PInt 5); (fl 103 200); (fl 3 25); (PInt 0); (PInt 0); (fl 11 500000); (fl 7 25000); (PInt 200000000000); (PInt 80000000000); (fl 2237 8000); (fl 6585872540 1); (fl 15759087790000000000 1); (fl 9815045404000000000000000000 1); (fl 1136978427 1)];
  [(fl 579 10000); (PInt 1); (PInt 1); (PInt 1); (fl 103 200); (fl 3 25); (PInt 0); (PInt 0); (fl 11 500000); (fl 7 25000); (PInt 200000000000); (PInt 80000000000); (fl 2237 8000); (fl 163917279800 1); (fl 9446758189000000000000 1); (fl 142503785900000000000000000000000 1); (fl 28424460680 1)];
  [(fl 117 100000); (PInt 20); (PInt 20); (PInt 20); (fl 17 400); (fl 41 2500); (PInt 0); (PInt 0); (fl 37 2500000000); (PInt 0); (PInt 200000000000); (PInt 80000000000); (fl 207521 100000000); (fl 1033217521 1000); (fl 10387840660000 1); (fl 11972115450000000000 1); (fl 6636322 5)];
  [(fl 117 100000); (PInt 10); (PInt 10); (PInt 10); (fl 17 400); (fl 41 2500); (PInt 0); (PInt 0); (fl 37 2500000000); (PInt 0); (PInt 200000000000); (PInt 80000000000); (fl 207521 100000000); (fl 548486323 500); (fl 41845973220000 1); (fl 191553847200000000000 1); (fl 5309057599 1000)];
  [(fl 117 100000); (PInt 5); (PInt 5); (PInt 5); (fl 17 400); (fl 41 2500); (PInt 0); (PInt 0); (fl 37 2500000000); (PInt 0); (PInt 200000000000); (PInt 80000000000); (fl 207521 100000000); (fl 27039863 20); (fl 172097662300000 1); (fl 3064861556000000000000 1); (fl 106181152 5)];
  [(fl 117 100000); (PInt 1); (PInt 1); (PInt 1); (fl 17 400); (fl 41 2500); (PInt 0); (PInt 0); (fl 37 2500000000); (PInt 0); (PInt 200000000000); (PInt 80000000000); (fl 207521 100000000); (fl 9512649261 1000); (fl 8073457104000000 1); (fl 1915538472000000000000000 1); (fl 2438225076 5)];
  [(fl 117 100000); (fl 1 2); (fl 1 2); (fl 1 2); (fl 17 400); (fl 41 2500); (PInt 0); (PInt 0); (fl 37 2500000000); (PInt 0); (PInt 200000000000); (PInt 80000000000); (fl 207521 100000000); (fl 3501469961 100); (fl 79431522750000000 1); (fl 30648615560000000000000000 1); (fl 2438225076 5)];
  [(fl 117 100000); (fl 1 10); (fl 1 10); (fl 1 10); (fl 17 400); (fl 41 2500); (PInt 0); (PInt 0); (fl 37 2500000000); (PInt 0); (PInt 200000000000); (PInt 80000000000); (fl 207521 100000000); (fl 8510803107 10); (fl 39695943530000000000 1); (fl 19155384720000000000000000000 1); (fl 2438225076 5)];
  [(fl 279 100000); (PInt 20); (PInt 20); (PInt 20); (fl 587 10000); (fl 149 5000); (PInt 0); (PInt 0); (fl 889 10000000000); (PInt 0); (PInt 200000000000); (PInt 80000000000); (fl 433373 100000000); (fl 2641785527 1000); (fl 54838323950000 1); (fl 189948459100000000000 1); (fl 2191150873 500)];
  [(fl 279 100000); (PInt 10); (PInt 10); (PInt 10); (fl 587 10000); (fl 149 5000); (PInt 0); (PInt 0); (fl 889 10000000000); (PInt 0); (PInt 200000000000); (PInt 80000000000); (fl 433373 100000000); (fl 2919830281 1000); (fl 223228470900000 1); (fl 3039175345000000000000 1); (fl 876460349 50)];
  [(fl 279 100000); (PInt 5); (PInt 5); (PInt 5); (fl 587 10000); (fl 149 5000); (PInt 0); (PInt 0); (fl 889 10000000000); (PInt 0); (PInt 200000000000); (PInt 80000000000); (fl 433373 100000000); (fl 4032009297 1000); (fl 954916684400000 1); (fl 48626805530000000000000 1); (fl 3505841397 50)];
  [(fl 279 100000); (PInt 1); (PInt 1); (PInt 1); (fl 587 10000); (fl 149 5000); (PInt 0); (PInt 0); (fl 889 10000000000); (PInt 0); (PInt 200000000000); (PInt 80000000000); (fl 433373 100000000); (fl 3962173779 100); (fl 73475157890000000 1); (fl 30391753450000000000000000 1); (fl 588200913 1)];
  [(fl 279 100000); (fl 1 2); (fl 1 2); (fl 1 2); (fl 587 10000); (fl 149 5000); (PInt 0); (PInt 0); (fl 889 10000000000); (PInt 0); (PInt 200000000000); (PInt 80000000000); (fl 433373 100000000); (fl 1508396393 10); (fl 913928641400000000 1); (fl 486268055300000000000000000 1); (fl 588200913 1)];
  [(fl 279 100000); (fl 1 10); (fl 1 10); (fl 1 10); (fl 587 10000); (fl 149 5000); (PInt 0); (PInt 0); (fl 889 10000000000); (PInt 0); (PInt 200000000000); (PInt 80000000000); (fl 433373 100000000); (fl 3709812489 1); (fl 518870623900000000000 1); (fl 303917534500000000000000000000 1); (fl 588200913 1)];
  [(fl 143 1000000); (PInt 10); (PInt 10); (PInt 10); (fl 461 50000); (fl 473 100000); (PInt 0); (PInt 0); (fl 103 200000000000); (PInt 0); (PInt 200000000000); (PInt 80000000000); (fl 1073813 10000000000); (fl 2883394959 10000); (fl 610767842500 1); (fl 213503394500000000 1); (fl 2208116723 5000)];
  [(fl 143 1000000); (PInt 5); (PInt 5); (PInt 5); (fl 461 50000); (fl 473 100000); (PInt 0); (PInt 0); (fl 103 200000000000); (PInt 0); (PInt 200000000000); (PInt 80000000000); (fl 1073813 10000000000); (fl 2890223191 10000); (fl 2444026260000 1); (fl 3416054312000000000 1); (fl 883246689 500)];
  [(fl 143 1000000); (PInt 1); (PInt 1); (PInt 1); (fl 461 50000); (fl 473 100000); (PInt 0); (PInt 0); (fl 103 200000000000); (PInt 0); (PInt 200000000000); (PInt 80000000000); (fl 1073813 10000000000); (fl 777181659 2500); (fl 61864568800000 1); (fl 2135033945000000000000 1); (fl 2208116723 50)];
  [(fl 143 1000000); (fl 1 2); (fl 1 2); (fl 1 2); (fl 461 50000); (fl 473 100000); (PInt 0); (PInt 0); (fl 103 200000000000); (PInt 0); (PInt 200000000000); (PInt 80000000000); (fl 1073813 10000000000); (fl 3791549903 10000); (fl 257007178800000 1); (fl 34160543120000000000000 1); (fl 883246689 5)];
  [(fl 143 1000000); (fl 1 10); (fl 1 10); (fl 1 10); (fl 461 50000); (fl 473 100000); (PInt 0); (PInt 0); (fl 103 200000000000); (PInt 0); (PInt 200000000000); (PInt 80000000000); (fl 1073813 10000000000); (fl 1282094721 500); (fl 14064302350000000 1); (fl 21350339450000000000000000 1); (fl 2683073199 1)];
  [(fl 251 10000); (PInt 40); (PInt 40); (PInt 40); (fl 139 1000); (fl 893 10000); (PInt 0); (PInt 0); (fl 23 4000000); (fl 23 5000000); (PInt 200000000000); (PInt 80000000000); (fl 2729549 100000000); (fl 973597533 50); (fl 631156123000000 1); (fl 4350721238000000000000 1); (fl 98381327 10)];
  [(fl 251 10000); (PInt 20); (PInt 20); (PInt 20); (fl 139 1000); (fl 893 10000); (PInt 0); (PInt 0); (fl 23 4000000); (fl 23 5000000); (PInt 200000000000); (PInt 80000000000); (fl 2729549 100000000); (fl 1145386147 50); (fl 2692799765000000 1); (fl 72156536030000000000000 1); (fl 196762654 5)];
  [(fl 251 10000); (PInt 10); (PInt 10); (PInt 10); (fl 139 1000); (fl 893 10000); (PInt 0); (PInt 0); (fl 23 4000000); (fl 23 5000000); (PInt 200000000000); (PInt 80000000000); (fl 2729549 100000000); (fl 366508121 10); (fl 13462003430000000 1); (fl 1317384334000000000000000 1); (fl 787050616 5)];
  [(fl 251 10000); (PInt 5); (PInt 5); (PInt 5); (fl 139 1000); (fl 893 10000); (PInt 0); (PInt 0); (fl 23 4000000); (fl 23 5000000); (PInt 200000000000); (PInt 80000000000); (fl 2729549 100000000); (fl 9162316871 100); (fl 96900883710000000 1); (fl 31502453850000000000000000 1); (fl 3148202464 5)];
  [(fl 251 10000); (PInt 1); (PInt 1); (PInt 1); (fl 139 1000); (fl 893 10000); (PInt 0); (PInt 0); (fl 23 4000000); (fl 23 5000000); (PInt 200000000000); (PInt 80000000000); (fl 2729549 100000000); (fl 1850738580 1); (fl 36864818070000000000 1); (fl 228175123700000000000000000000 1); (fl 13924685630 1)];
  [(fl 703 100000); (PInt 20); (PInt 20); (PInt 20); (fl 147 1000); (fl 19 625); (fl 567 10000); (PInt 0); (fl 59 125000000); (fl 151 1000000000); (PInt 200000000000); (PInt 80000000000); (fl 514961 20000000); (fl 208142467 25); (fl 621575211800000 1); (fl 2663697411000000000000 1); (fl 4559989573 1000)];
  [(fl 703 100000); (PInt 10); (PInt 10); (PInt 10); (fl 147 1000); (fl 19 625); (fl 567 10000); (PInt 0); (fl 59 125000000); (fl 151 1000000000); (PInt 200000000000); (PInt 80000000000); (fl 514961 20000000); (fl 1718899671 100); (fl 2777999539000000 1); (fl 45093467640000000000000 1); (fl 455830532 25)];
  [(fl 703 100000); (PInt 5); (PInt 5); (PInt 5); (fl 147 1000); (fl 19 625); (fl 567 10000); (PInt 0); (fl 59 125000000); (fl 151 1000000000); (PInt 200000000000); (PInt 80000000000); (fl 514961 20000000); (fl 1316054721 25); (fl 15779177220000000 1); (fl 879851262100000000000000 1); (fl 7282205967 100)];
  [(fl 703 100000); (PInt 1); (PInt 1); (PInt 1); (fl 147 1000); (fl 19 625); (fl 567 10000); (PInt 0); (fl 59 125000000); (fl 151 1000000000); (PInt 200000000000); (PInt 80000000000); (fl 514961 20000000); (fl 1187144337 1); (fl 4128222685000000000 1); (fl 3717022637000000000000000000 1); (fl 1711177935 1)];
  [(fl 703 100000); (fl 1 2); (fl 1 2); (fl 1 2); (fl 147 1000); (fl 19 625); (fl 567 10000); (PInt 0); (fl 59 125000000); (fl 151 1000000000); (PInt 200000000000); (PInt 80000000000); (fl 514961 20000000); (fl 4732463550 1); (fl 63184681420000000000 1); (fl 217828142100000000000000000000 1); (fl 6500657993 1)];
  [(fl 2 125); (PInt 40); (PInt 40); (PInt 40); (fl 249 1000); (fl 31 625); (PInt 0); (PInt 0); (fl 39 25000000); (fl 69 20000000); (PInt 200000000000); (PInt 80000000000); (fl 1611529 25000000); (fl 1319233997 100); (fl 656421277700000 1); (fl 1872581290000000000000 1); (fl 607020149 200)];
  [(fl 2 125); (PInt 20); (PInt 20); (PInt 20); (fl 249 1000); (fl 31 625); (PInt 0); (PInt 0); (fl 39 25000000); (fl 69 20000000); (PInt 200000000000); (PInt 80000000000); (fl 1611529 25000000); (fl 2936935989 100); (fl 3059128507000000 1); (fl 32925665610000000000000 1); (fl 607020149 50)];
  [(fl 2 125); (PInt 10); (PInt 10); (PInt 10); (fl 249 1000); (fl 31 625); (PInt 0); (PInt 0); (fl 39 25000000); (fl 69 20000000); (PInt 200000000000); (PInt 80000000000); (fl 1611529 25000000); (fl 1881548791 20); (fl 19171608360000000 1); (fl 716530007600000000000000 1); (fl 4856161193 100)];
  [(fl 2 125); (PInt 5); (PInt 5); (PInt 5); (fl 249 1000); (fl 31 625); (PInt 0); (PInt 0); (fl 39 25000000); (fl 69 20000000); (PInt 200000000000); (PInt 80000000000); (fl 1611529 25000000); (fl 1764548791 5); (fl 187647942800000000 1); (fl 23606519030000000000000000 1); (fl 1942464477 10)];
  [(fl 2 125); (PInt 1); (PInt 1); (PInt 1); (fl 249 1000); (fl 31 625); (PInt 0); (PInt 0); (fl 39 25000000); (fl 69 20000000); (PInt 200000000000); (PInt 80000000000); (fl 1611529 25000000); (fl 8635543955 1); (fl 93460406040000000000 1); (fl 257594852500000000000000000000 1); (fl 4856161193 1)];
  [(fl 377 500000); (PInt 10); (PInt 10); (PInt 10); (fl 301 10000); (fl 63 5000); (fl 17 625); (PInt 0); (fl 813 100000000000); (fl 53 500000000000); (PInt 200000000000); (PInt 80000000000); (fl 180461 100000000); (fl 9009847523 10000); (fl 18289334770000 1); (fl 48499542960000000000 1); (fl 783000879 250)];
  [(fl 377 500000); (PInt 5); (PInt 5); (PInt 5); (fl 301 10000); (fl 63 5000); (fl 17 625); (PInt 0); (fl 813 100000000000); (fl 53 500000000000); (PInt 200000000000); (PInt 80000000000); (fl 180461 100000000); (fl 1016140601 1000); (fl 75070894300000 1); (fl 783457846300000000000 1); (fl 1250631607 100)];
  [(fl 377 500000); (PInt 1); (PInt 1); (PInt 1); (fl 301 10000); (fl 63 5000); (fl 17 625); (PInt 0); (fl 813 100000000000); (fl 53 500000000000); (PInt 200000000000); (PInt 80000000000); (fl 180461 100000000); (fl 4701127753 1000); (fl 3407616517000000 1); (fl 638964333700000000000000 1); (fl 291864554 1)];
  [(fl 377 500000); (fl 1 2); (fl 1 2); (fl 1 2); (fl 301 10000); (fl 63 5000); (fl 17 625); (PInt 0); (fl 813 100000000000); (fl 53 500000000000); (PInt 200000000000); (PInt 80000000000); (fl 180461 100000000); (fl 81083563 5); (fl 32766018060000000 1); (fl 17688588320000000000000000 1); (fl 902413556 1)];
  [(fl 377 500000); (fl 1 10); (fl 1 10); (fl 1 10); (fl 301 10000); (fl 63 5000); (fl 17 625); (PInt 0); (fl 813 100000000000); (fl 53 500000000000); (PInt 200000000000); (PInt 80000000000); (fl 180461 100000000); (fl 1923577139 5); (fl 16127592040000000000 1); (fl 160358547400000000000000000000 1); (fl 14814875410 1)];
  [(fl 11 1000); (PInt 10); (PInt 10); (PInt 10); (fl 21 100); (fl 36979 1000000); (PInt 0); (fl 15428504787 100000000000); (fl 11479850099 12500000000000000); (fl 40290907437 100000000000000000); (PInt 200000000000); (PInt 80000000000); (fl 1731783061 25000000000); (fl 2442567991 50); (fl 8271059853000000 1); (fl 173927770200000000000000 1); (fl 610797769 25)];
  [(fl 11 1000); (PInt 5); (PInt 5); (PInt 5); (fl 21 100); (fl 36979 1000000); (PInt 0); (fl 15428504787 100000000000); (fl 11479850099 12500000000000000); (fl 40290907437 100000000000000000); (PInt 200000000000); (PInt 80000000000); (fl 1731783061 25000000000); (fl 876839414 5); (fl 60402817450000000 1); (fl 3598287567000000000000000 1); (fl 1892991167 25)];
  [(fl 11 1000); (PInt 1); (PInt 1); (PInt 1); (fl 21 100); (fl 36979 1000000); (PInt 0); (fl 15428504787 100000000000); (fl 11479850099 12500000000000000); (fl 40290907437 100000000000000000); (PInt 200000000000); (PInt 80000000000); (fl 1731783061 25000000000); (fl 4223896617 1); (fl 23364932860000000000 1); (fl 18557794610000000000000000000 1); (fl 9573420497 10)];
  [(fl 11 1000); (fl 1 2); (fl 1 2); (fl 1 2); (fl 21 100); (fl 36979 1000000); (PInt 0); (fl 15428504787 100000000000); (fl 11479850099 12500000000000000); (fl 40290907437 100000000000000000); (PInt 200000000000); (PInt 80000000000); (fl 1731783061 25000000000); (fl 16875548910 1); (fl 366645511800000000000 1); (fl 1112367958000000000000000000000 1); (fl 3632020679 1)];
  [(fl 13 1000); (PInt 10); (PInt 10); (PInt 10); (fl 317750759 2500000000); (fl 453280830003 10000000000000); (fl 220614080619 10000000000000); (PInt 0); (fl 3961889047 2500000000000000); (fl 76586059847 2500000000000000000); (PInt 200000000000); (PInt 80000000000); (fl 1869582801 100000000000); (fl 329980567 20); (fl 3763825828000000 1); (fl 126725148600000000000000 1); (fl 1013599419 25)];
  [(fl 13 1000); (PInt 5); (PInt 5); (PInt 5); (fl 317750759 2500000000); (fl 453280830003 10000000000000); (fl 220614080619 10000000000000); (PInt 0); (fl 3961889047 2500000000000000); (fl 76586059847 2500000000000000000); (PInt 200000000000); (PInt 80000000000); (fl 1869582801 100000000000); (fl 3673908661 100); (fl 18157371540000000 1); (fl 2056477558000000000000000 1); (fl 1619583437 10)];
  [(fl 13 1000); (PInt 1); (PInt 1); (PInt 1); (fl 317750759 2500000000); (fl 453280830003 10000000000000); (fl 220614080619 10000000000000); (PInt 0); (fl 3961889047 2500000000000000); (fl 76586059847 2500000000000000000); (PInt 200000000000); (PInt 80000000000); (fl 1869582801 100000000000); (fl 3422104754 5); (fl 2935588873000000000 1); (fl 1862802083000000000000000000 1); (fl 7698206587 10)];
  [(fl 13 1000); (fl 1 2); (fl 1 2); (fl 1 2); (fl 317750759 2500000000); (fl 453280830003 10000000000000); (fl 220614080619 10000000000000); (PInt 0); (fl 3961889047 2500000000000000); (fl 76586059847 2500000000000000000); (PInt 200000000000); (PInt 80000000000); (fl 1869582801 100000000000); (fl 2708426776 1); (fl 42763037790000000000 1); (fl 58680013780000000000000000000 1); (fl 1516310486 1)]].
Example t23_ok : forallb (fun r => match r with [a; lx; ly; lz; rx; ry; xo; yo; j; w; e; g; ca; cb; cc; cd; x] => coeffs d5 a lx ly lz rx ry xo yo j w e g ca cb cc cd && ok d5 (nf_oc_unsymmetric tpow troots a lx ly lz rx ry xo yo j w e g) x | _ => false end) t23 = true.
Proof. vm_compute. reflexivity. Qed.

(** tests/test_AS4100_6.py test_s6_3_3_N_c_torsion (data set 1): 20 cases. *)
Definition t24 : list (list pynum * symmetry_t) := [
  ([(fl 579 10000); (fl 837 1000); (PInt 80); (PInt 80); (PInt 80); (fl 103 200); (fl 3 25); (PInt 0); (PInt 0); (fl 11 500000); (fl 7 25000); (fl 280000000 1); (fl 200000000000 1); (fl 80000000000 1); (fl 14775996 5)], (Some [AxStr "x"; AxStr "y"]));
  ([(fl 579 10000); (fl 837 1000); (PInt 40); (PInt 40); (PInt 40); (fl 103 200); (fl 3 25); (PInt 0); (PInt 0); (fl 11 500000); (fl 7 25000); (fl 280000000 1); (fl 200000000000 1); (fl 80000000000 1); (fl 9367581 2)], (Some [AxStr "x"; AxStr "y"]));
  ([(fl 579 10000); (fl 837 1000); (PInt 20); (PInt 20); (PInt 20); (fl 103 200); (fl 3 25); (PInt 0); (PInt 0); (fl 11 500000); (fl 7 25000); (fl 280000000 1); (fl 200000000000 1); (fl 80000000000 1); (fl 31525778 5)], (Some [AxStr "x"; AxStr "y"]));
  ([(fl 579 10000); (fl 837 1000); (PInt 10); (PInt 10); (PInt 10); (fl 103 200); (fl 3 25); (PInt 0); (PInt 0); (fl 11 500000); (fl 7 25000); (fl 280000000 1); (fl 200000000000 1); (fl 80000000000 1); (fl 44449618 5)], (Some [AxStr "x"; AxStr "y"]));
  ([(fl 579 10000); (fl 837 1000); (PInt 5); (PInt 5); (PInt 5); (fl 103 200); (fl 3 25); (PInt 0); (PInt 0); (fl 11 500000); (fl 7 25000); (fl 280000000 1); (fl 200000000000 1); (fl 80000000000 1); (fl 10652616 1)], (Some [AxStr "x"; AxStr "y"]));
  ([(fl 579 10000); (fl 837 1000); (PInt 1); (PInt 1); (PInt 1); (fl 103 200); (fl 3 25); (PInt 0); (PInt 0); (fl 11 500000); (fl 7 25000); (fl 280000000 1); (fl 200000000000 1); (fl 80000000000 1); (fl 11494624 1)], (Some [AxStr "x"; AxStr "y"]));
  ([(fl 251 10000); (PInt 1); (PInt 40); (PInt 40); (PInt 40); (fl 139 1000); (fl 893 10000); (PInt 0); (PInt 0); (fl 23 4000000); (fl 23 5000000); (fl 280000000 1); (fl 200000000000 1); (fl 80000000000 1); (fl 8919933 20)], (Some [AxStr "x"; AxStr "y"]));
  ([(fl 251 10000); (PInt 1); (PInt 20); (PInt 20); (PInt 20); (fl 139 1000); (fl 893 10000); (PInt 0); (PInt 0); (fl 23 4000000); (fl 23 5000000); (fl 280000000 1); (fl 200000000000 1); (fl 80000000000 1); (fl 8919933 5)], (Some [AxStr "x"; AxStr "y"]));
  ([(fl 251 10000); (PInt 1); (PInt 10); (PInt 10); (PInt 10); (fl 139 1000); (fl 893 10000); (PInt 0); (PInt 0); (fl 23 4000000); (fl 23 5000000); (fl 280000000 1); (fl 200000000000 1); (fl 80000000000 1); (fl 21966808 5)], (Some [AxStr "x"; AxStr "y"]));
  ([(fl 251 10000); (PInt 1); (PInt 5); (PInt 5); (PInt 5); (fl 139 1000); (fl 893 10000); (PInt 0); (PInt 0); (fl 23 4000000); (fl 23 5000000); (fl 280000000 1); (fl 200000000000 1); (fl 80000000000 1); (fl 27093269 5)], (Some [AxStr "x"; AxStr "y"]));
  ([(fl 251 10000); (PInt 1); (PInt 1); (PInt 1); (PInt 1); (fl 139 1000); (fl 893 10000); (PInt 0); (PInt 0); (fl 23 4000000); (fl 23 5000000); (fl 280000000 1); (fl 200000000000 1); (fl 80000000000 1); (fl 29618669 5)], (Some [AxStr "x"; AxStr "y"]));
  ([(fl 2 125); (fl 19 20); (PInt 40); (PInt 40); (PInt 40); (fl 249 1000); (fl 31 625); (PInt 0); (PInt 0); (fl 39 25000000); (fl 69 20000000); (fl 280000000 1); (fl 200000000000 1); (fl 80000000000 1); (fl 21667588 25)], (Some [AxStr "x"; AxStr "y"]));
  ([(fl 2 125); (fl 19 20); (PInt 20); (PInt 20); (PInt 20); (fl 249 1000); (fl 31 625); (PInt 0); (PInt 0); (fl 39 25000000); (fl 69 20000000); (fl 280000000 1); (fl 200000000000 1); (fl 80000000000 1); (fl 7713648 5)], (Some [AxStr "x"; AxStr "y"]));
  ([(fl 2 125); (fl 19 20); (PInt 10); (PInt 10); (PInt 10); (fl 249 1000); (fl 31 625); (PInt 0); (PInt 0); (fl 39 25000000); (fl 69 20000000); (fl 280000000 1); (fl 200000000000 1); (fl 80000000000 1); (fl 19332643 10)], (Some [AxStr "x"; AxStr "y"]));
  ([(fl 2 125); (fl 19 20); (PInt 5); (PInt 5); (PInt 5); (fl 249 1000); (fl 31 625); (PInt 0); (PInt 0); (fl 39 25000000); (fl 69 20000000); (fl 280000000 1); (fl 200000000000 1); (fl 80000000000 1); (fl 13342317 5)], (Some [AxStr "x"; AxStr "y"]));
  ([(fl 2 125); (fl 19 20); (PInt 1); (PInt 1); (PInt 1); (fl 249 1000); (fl 31 625); (PInt 0); (PInt 0); (fl 39 25000000); (fl 69 20000000); (fl 280000000 1); (fl 200000000000 1); (fl 80000000000 1); (fl 35550929 10)], (Some [AxStr "x"; AxStr "y"]));
  ([(fl 189 100000); (PInt 1); (PInt 10); (PInt 10); (PInt 10); (fl 411 10000); (fl 49 2000); (PInt 0); (PInt 0); (fl 349 10000000000); (fl 23 10000000000); (fl 320000000 1); (fl 200000000000 1); (fl 80000000000 1); (fl 5872239 125)], (Some [AxStr "x"; AxStr "y"]));
  ([(fl 189 100000); (PInt 1); (PInt 5); (PInt 5); (PInt 5); (fl 411 10000); (fl 49 2000); (PInt 0); (PInt 0); (fl 349 10000000000); (fl 23 10000000000); (fl 320000000 1); (fl 200000000000 1); (fl 80000000000 1); (fl 3758233 20)], (Some [AxStr "x"; AxStr "y"]));
  ([(fl 189 100000); (PInt 1); (PInt 1); (PInt 1); (PInt 1); (fl 411 10000); (fl 49 2000); (PInt 0); (PInt 0); (fl 349 10000000000); (fl 23 10000000000); (fl 320000000 1); (fl 200000000000 1); (fl 80000000000 1); (fl 47500953 100)], (Some [AxStr "x"; AxStr "y"]));
  ([(fl 189 100000); (PInt 1); (fl 1 2); (fl 1 2); (fl 1 2); (fl 411 10000); (fl 49 2000); (PInt 0); (PInt 0); (fl 349 10000000000); (fl 23 10000000000); (fl 320000000 1); (fl 200000000000 1); (fl 80000000000 1); (fl 50005497 100)], (Some [AxStr "x"; AxStr "y"]))].
Example t24_ok : forallb (fun r => match r with ([a; k; lx; ly; lz; rx; ry; xo; yo; j; w; f; e; g; x], s) => ok d5 (entry 0 (ns6_3_3_N_c_torsion tpow troots (mk_nsect a k rx ry xo yo j w f e g) lx ly lz s (fl 85 100))) x | _ => false end) t24 = true.
Proof. vm_compute. reflexivity. Qed.

(** tests/test_AS4100_6.py test_s6_3_3_N_c_torsion (data set 2): 29 cases. *)
Definition t25 : list (list pynum * symmetry_t) := [
  ([(fl 279 100000); (fl 479 500); (PInt 20); (PInt 20); (PInt 20); (fl 587 10000); (fl 149 5000); (PInt 0); (PInt 0); (fl 889 10000000000); (fl 0 1); (fl 320000000 1); (fl 200000000000 1); (fl 80000000000 1); (fl 33879281 1000)], (Some [AxStr "x"]));
  ([(fl 279 100000); (fl 479 500); (PInt 10); (PInt 10); (PInt 10); (fl 587 10000); (fl 149 5000); (PInt 0); (PInt 0); (fl 889 10000000000); (fl 0 1); (fl 320000000 1); (fl 200000000000 1); (fl 80000000000 1); (fl 3387928 25)], (Some [AxStr "x"]));
  ([(fl 279 100000); (fl 479 500); (PInt 5); (PInt 5); (PInt 5); (fl 587 10000); (fl 149 5000); (PInt 0); (PInt 0); (fl 889 10000000000); (fl 0 1); (fl 320000000 1); (fl 200000000000 1); (fl 80000000000 1); (fl 44435953 100)], (Some [AxStr "x"]));
  ([(fl 279 100000); (fl 479 500); (PInt 1); (PInt 1); (PInt 1); (fl 587 10000); (fl 149 5000); (PInt 0); (PInt 0); (fl 889 10000000000); (fl 0 1); (fl 320000000 1); (fl 200000000000 1); (fl 80000000000 1); (fl 14473972 25)], (Some [AxStr "x"]));
  ([(fl 279 100000); (fl 479 500); (fl 1 2); (fl 1 2); (fl 1 2); (fl 587 10000); (fl 149 5000); (PInt 0); (PInt 0); (fl 889 10000000000); (fl 0 1); (fl 320000000 1); (fl 200000000000 1); (fl 80000000000 1); (fl 14473972 25)], (Some [AxStr "x"]));
  ([(fl 279 100000); (fl 479 500); (fl 1 10); (fl 1 10); (fl 1 10); (fl 587 10000); (fl 149 5000); (PInt 0); (PInt 0); (fl 889 10000000000); (fl 0 1); (fl 320000000 1); (fl 200000000000 1); (fl 80000000000 1); (fl 14473972 25)], (Some [AxStr "x"]));
  ([(fl 143 1000000); (PInt 1); (PInt 10); (PInt 10); (PInt 10); (fl 461 50000); (fl 473 100000); (PInt 0); (PInt 0); (fl 103 200000000000); (fl 0 1); (fl 320000000 1); (fl 200000000000 1); (fl 80000000000 1); (fl 4471839 25000)], (Some [AxStr "x"]));
  ([(fl 143 1000000); (PInt 1); (PInt 5); (PInt 5); (PInt 5); (fl 461 50000); (fl 473 100000); (PInt 0); (PInt 0); (fl 103 200000000000); (fl 0 1); (fl 320000000 1); (fl 200000000000 1); (fl 80000000000 1); (fl 35774711 50000)], (Some [AxStr "x"]));
  ([(fl 143 1000000); (PInt 1); (PInt 1); (PInt 1); (PInt 1); (fl 461 50000); (fl 473 100000); (PInt 0); (PInt 0); (fl 103 200000000000); (fl 0 1); (fl 320000000 1); (fl 200000000000 1); (fl 80000000000 1); (fl 17508767 1000)], (Some [AxStr "x"]));
  ([(fl 143 1000000); (PInt 1); (fl 1 2); (fl 1 2); (fl 1 2); (fl 461 50000); (fl 473 100000); (PInt 0); (PInt 0); (fl 103 200000000000); (fl 0 1); (fl 320000000 1); (fl 200000000000 1); (fl 80000000000 1); (fl 31859767 1000)], (Some [AxStr "x"]));
  ([(fl 143 1000000); (PInt 1); (fl 1 10); (fl 1 10); (fl 1 10); (fl 461 50000); (fl 473 100000); (PInt 0); (PInt 0); (fl 103 200000000000); (fl 0 1); (fl 320000000 1); (fl 200000000000 1); (fl 80000000000 1); (fl 1850101 50)], (Some [AxStr "x"]));
  ([(fl 703 100000); (PInt 1); (PInt 20); (PInt 20); (PInt 20); (fl 147 1000); (fl 19 625); (fl 567 10000); (PInt 0); (fl 59 125000000); (fl 151 1000000000); (fl 280000000 1); (fl 200000000000 1); (fl 80000000000 1); (fl 25312231 50)], (Some [AxStr "x"]));
  ([(fl 703 100000); (PInt 1); (PInt 10); (PInt 10); (PInt 10); (fl 147 1000); (fl 19 625); (fl 567 10000); (PInt 0); (fl 59 125000000); (fl 151 1000000000); (fl 280000000 1); (fl 200000000000 1); (fl 80000000000 1); (fl 46870621 50)], (Some [AxStr "x"]));
  ([(fl 703 100000); (PInt 1); (PInt 5); (PInt 5); (PInt 5); (fl 147 1000); (fl 19 625); (fl 567 10000); (PInt 0); (fl 59 125000000); (fl 151 1000000000); (fl 280000000 1); (fl 200000000000 1); (fl 80000000000 1); (fl 1080888 1)], (Some [AxStr "x"]));
  ([(fl 703 100000); (PInt 1); (PInt 1); (PInt 1); (PInt 1); (fl 147 1000); (fl 19 625); (fl 567 10000); (PInt 0); (fl 59 125000000); (fl 151 1000000000); (fl 280000000 1); (fl 200000000000 1); (fl 80000000000 1); (fl 15701603 10)], (Some [AxStr "x"]));
  ([(fl 703 100000); (PInt 1); (fl 1 2); (fl 1 2); (fl 1 2); (fl 147 1000); (fl 19 625); (fl 567 10000); (PInt 0); (fl 59 125000000); (fl 151 1000000000); (fl 280000000 1); (fl 200000000000 1); (fl 80000000000 1); (fl 16443857 10)], (Some [AxStr "x"]));
  ([(fl 377 500000); (PInt 1); (PInt 10); (PInt 10); (PInt 10); (fl 301 10000); (fl 63 5000); (fl 17 625); (PInt 0); (fl 813 100000000000); (fl 53 500000000000); (fl 320000000 1); (fl 200000000000 1); (fl 80000000000 1); (fl 24743313 2500)], (Some [AxStr "x"]));
  ([(fl 377 500000); (PInt 1); (PInt 5); (PInt 5); (PInt 5); (fl 301 10000); (fl 63 5000); (fl 17 625); (PInt 0); (fl 813 100000000000); (fl 53 500000000000); (fl 320000000 1); (fl 200000000000 1); (fl 80000000000 1); (fl 18859803 500)], (Some [AxStr "x"]));
  ([(fl 377 500000); (PInt 1); (PInt 1); (PInt 1); (PInt 1); (fl 301 10000); (fl 63 5000); (fl 17 625); (PInt 0); (fl 813 100000000000); (fl 53 500000000000); (fl 320000000 1); (fl 200000000000 1); (fl 80000000000 1); (fl 3196631 20)], (Some [AxStr "x"]));
  ([(fl 377 500000); (PInt 1); (fl 1 2); (fl 1 2); (fl 1 2); (fl 301 10000); (fl 63 5000); (fl 17 625); (PInt 0); (fl 813 100000000000); (fl 53 500000000000); (fl 320000000 1); (fl 200000000000 1); (fl 80000000000 1); (fl 4498062 25)], (Some [AxStr "x"]));
  ([(fl 377 500000); (PInt 1); (fl 1 10); (fl 1 10); (fl 1 10); (fl 301 10000); (fl 63 5000); (fl 17 625); (PInt 0); (fl 813 100000000000); (fl 53 500000000000); (fl 320000000 1); (fl 200000000000 1); (fl 80000000000 1); (fl 2032971 10)], (Some [AxStr "x"]));
  ([(fl 11 1000); (PInt 1); (PInt 10); (PInt 10); (PInt 10); (fl 21 100); (fl 36979 1000000); (PInt 0); (fl 15428504787 100000000000); (fl 91838801 100000000000000); (fl 40290907 100000000000000); (fl 300000000 1); (fl 200000000000 1); (fl 80000000000 1); (fl 4016357 20)], (Some [AxStr "y"]));
  ([(fl 11 1000); (PInt 1); (PInt 5); (PInt 5); (PInt 5); (fl 21 100); (fl 36979 1000000); (PInt 0); (fl 15428504787 100000000000); (fl 91838801 100000000000000); (fl 40290907 100000000000000); (fl 300000000 1); (fl 200000000000 1); (fl 80000000000 1); (fl 62334799 100)], (Some [AxStr "y"]));
  ([(fl 11 1000); (PInt 1); (PInt 1); (PInt 1); (PInt 1); (fl 21 100); (fl 36979 1000000); (PInt 0); (fl 15428504787 100000000000); (fl 91838801 100000000000000); (fl 40290907 100000000000000); (fl 300000000 1); (fl 200000000000 1); (fl 80000000000 1); (fl 4921317 2)], (Some [AxStr "y"]));
  ([(fl 11 1000); (PInt 1); (fl 1 2); (fl 1 2); (fl 1 2); (fl 21 100); (fl 36979 1000000); (PInt 0); (fl 15428504787 100000000000); (fl 91838801 100000000000000); (fl 40290907 100000000000000); (fl 300000000 1); (fl 200000000000 1); (fl 80000000000 1); (fl 27098031 10)], (Some [AxStr "y"]));
  ([(fl 13 1000); (PInt 1); (PInt 10); (PInt 10); (PInt 10); (fl 317750759 2500000000); (fl 453280830003 10000000000000); (fl 220614080619 10000000000000); (PInt 0); (fl 3961889 2500000000000); (fl 3829303 125000000000000); (fl 300000000 1); (fl 200000000000 1); (fl 80000000000 1); (fl 22036861 10)], (Some [AxStr "x"]));
  ([(fl 13 1000); (PInt 1); (PInt 5); (PInt 5); (PInt 5); (fl 317750759 2500000000); (fl 453280830003 10000000000000); (fl 220614080619 10000000000000); (PInt 0); (fl 3961889 2500000000000); (fl 3829303 125000000000000); (fl 300000000 1); (fl 200000000000 1); (fl 80000000000 1); (fl 13032211 5)], (Some [AxStr "x"]));
  ([(fl 13 1000); (PInt 1); (PInt 1); (PInt 1); (PInt 1); (fl 317750759 2500000000); (fl 453280830003 10000000000000); (fl 220614080619 10000000000000); (PInt 0); (fl 3961889 2500000000000); (fl 3829303 125000000000000); (fl 300000000 1); (fl 200000000000 1); (fl 80000000000 1); (fl 5632311 2)], (Some [AxStr "x"]));
  ([(fl 13 1000); (PInt 1); (fl 1 2); (fl 1 2); (fl 1 2); (fl 317750759 2500000000); (fl 453280830003 10000000000000); (fl 220614080619 10000000000000); (PInt 0); (fl 3961889 2500000000000); (fl 3829303 125000000000000); (fl 300000000 1); (fl 200000000000 1); (fl 80000000000 1); (fl 30515531 10)], (Some [AxStr "x"]))].
Example t25_ok : forallb (fun r => match r with ([a; k; lx; ly; lz; rx; ry; xo; yo; j; w; f; e; g; x], s) => ok d5 (entry 0 (ns6_3_3_N_c_torsion tpow troots (mk_nsect a k rx ry xo yo j w f e g) lx ly lz s (fl 85 100))) x | _ => false end) t25 = true.
Proof. vm_compute. reflexivity. Qed.

(** tests/test_AS4100_6.py test_s6_3_3_N_c_torsion (data set 3): 49 cases. *)
Definition t26 : list (list pynum * symmetry_t) := [
  ([(fl 189 100000); (PInt 1); (PInt 10); (PInt 10); (PInt 10); (fl 411 10000); (fl 49 2000); (PInt 0); (PInt 0); (fl 349 10000000000); (fl 23 10000000000); (PInt 320000000); (PInt 200000000000); (PInt 80000000000); (fl 6548533683539 15625000)], (Some [AxStr "point"]));
  ([(fl 189 100000); (PInt 1); (PInt 5); (PInt 5); (PInt 5); (fl 411 10000); (fl 49 2000); (PInt 0); (PInt 0); (fl 349 10000000000); (fl 23 10000000000); (PInt 320000000); (PInt 200000000000); (PInt 80000000000); (fl 211522756127927 500000000)], (Some [AxStr "point"]));
  ([(fl 189 100000); (PInt 1); (PInt 1); (PInt 1); (PInt 1); (fl 411 10000); (fl 49 2000); (PInt 0); (PInt 0); (fl 349 10000000000); (fl 23 10000000000); (PInt 320000000); (PInt 200000000000); (PInt 80000000000); (fl 475009533425687 1000000000)], (Some [AxStr "point"]));
  ([(fl 189 100000); (PInt 1); (fl 1 2); (fl 1 2); (fl 1 2); (fl 411 10000); (fl 49 2000); (PInt 0); (PInt 0); (fl 349 10000000000); (fl 23 10000000000); (PInt 320000000); (PInt 200000000000); (PInt 80000000000); (fl 500054974957511 1000000000)], (Some [AxStr "point"]));
  ([(fl 579 10000); (fl 837 1000); (PInt 80); (PInt 80); (PInt 80); (fl 103 200); (fl 3 25); (PInt 0); (PInt 0); (fl 11 500000); (fl 7 25000); (PInt 280000000); (PInt 200000000000); (PInt 80000000000); (fl 411987592303997 100000000)], (Some [AxStr "point"]));
  ([(fl 579 10000); (fl 837 1000); (PInt 40); (PInt 40); (PInt 40); (fl 103 200); (fl 3 25); (PInt 0); (PInt 0); (fl 11 500000); (fl 7 25000); (PInt 280000000); (PInt 200000000000); (PInt 80000000000); (fl 468379047801497 100000000)], (Some [AxStr "point"]));
  ([(fl 579 10000); (fl 837 1000); (PInt 20); (PInt 20); (PInt 20); (fl 103 200); (fl 3 25); (PInt 0); (PInt 0); (fl 11 500000); (fl 7 25000); (PInt 280000000); (PInt 200000000000); (PInt 80000000000); (fl 630515564271461 100000000)], (Some [AxStr "point"]));
  ([(fl 579 10000); (fl 837 1000); (PInt 10); (PInt 10); (PInt 10); (fl 103 200); (fl 3 25); (PInt 0); (PInt 0); (fl 11 500000); (fl 7 25000); (PInt 280000000); (PInt 200000000000); (PInt 80000000000); (fl 44449618145181 5000000)], (Some [AxStr "point"]));
  ([(fl 579 10000); (fl 837 1000); (PInt 5); (PInt 5); (PInt 5); (fl 103 200); (fl 3 25); (PInt 0); (PInt 0); (fl 11 500000); (fl 7 25000); (PInt 280000000); (PInt 200000000000); (PInt 80000000000); (fl 4261046282247 400000)], (Some [AxStr "point"]));
  ([(fl 579 10000); (fl 837 1000); (PInt 1); (PInt 1); (PInt 1); (fl 103 200); (fl 3 25); (PInt 0); (PInt 0); (fl 11 500000); (fl 7 25000); (PInt 280000000); (PInt 200000000000); (PInt 80000000000); (fl 114946243483393 10000000)], (Some [AxStr "point"]));
  ([(fl 279 100000); (fl 479 500); (PInt 20); (PInt 20); (PInt 20); (fl 587 10000); (fl 149 5000); (PInt 0); (PInt 0); (fl 889 10000000000); (PInt 0); (PInt 320000000); (PInt 200000000000); (PInt 80000000000); (fl 9046232563999 15625000)], (Some [AxStr "point"]));
  ([(fl 279 100000); (fl 479 500); (PInt 10); (PInt 10); (PInt 10); (fl 587 10000); (fl 149 5000); (PInt 0); (PInt 0); (fl 889 10000000000); (PInt 0); (PInt 320000000); (PInt 200000000000); (PInt 80000000000); (fl 9046232563999 15625000)], (Some [AxStr "point"]));
  ([(fl 279 100000); (fl 479 500); (PInt 5); (PInt 5); (PInt 5); (fl 587 10000); (fl 149 5000); (PInt 0); (PInt 0); (fl 889 10000000000); (PInt 0); (PInt 320000000); (PInt 200000000000); (PInt 80000000000); (fl 9046232563999 15625000)], (Some [AxStr "point"]));
  ([(fl 279 100000); (fl 479 500); (PInt 1); (PInt 1); (PInt 1); (fl 587 10000); (fl 149 5000); (PInt 0); (PInt 0); (fl 889 10000000000); (PInt 0); (PInt 320000000); (PInt 200000000000); (PInt 80000000000); (fl 9046232563999 15625000)], (Some [AxStr "point"]));
  ([(fl 279 100000); (fl 479 500); (fl 1 2); (fl 1 2); (fl 1 2); (fl 587 10000); (fl 149 5000); (PInt 0); (PInt 0); (fl 889 10000000000); (PInt 0); (PInt 320000000); (PInt 200000000000); (PInt 80000000000); (fl 9046232563999 15625000)], (Some [AxStr "point"]));
  ([(fl 279 100000); (fl 479 500); (fl 1 10); (fl 1 10); (fl 1 10); (fl 587 10000); (fl 149 5000); (PInt 0); (PInt 0); (fl 889 10000000000); (PInt 0); (PInt 320000000); (PInt 200000000000); (PInt 80000000000); (fl 9046232563999 15625000)], (Some [AxStr "point"]));
  ([(fl 143 1000000); (PInt 1); (PInt 10); (PInt 10); (PInt 10); (fl 461 50000); (fl 473 100000); (PInt 0); (PInt 0); (fl 103 200000000000); (PInt 0); (PInt 320000000); (PInt 200000000000); (PInt 80000000000); (fl 370020197682433 10000000000)], (Some [AxStr "point"]));
  ([(fl 143 1000000); (PInt 1); (PInt 5); (PInt 5); (PInt 5); (fl 461 50000); (fl 473 100000); (PInt 0); (PInt 0); (fl 103 200000000000); (PInt 0); (PInt 320000000); (PInt 200000000000); (PInt 80000000000); (fl 370020197682433 10000000000)], (Some [AxStr "point"]));
  ([(fl 143 1000000); (PInt 1); (PInt 1); (PInt 1); (PInt 1); (fl 461 50000); (fl 473 100000); (PInt 0); (PInt 0); (fl 103 200000000000); (PInt 0); (PInt 320000000); (PInt 200000000000); (PInt 80000000000); (fl 370020197682433 10000000000)], (Some [AxStr "point"]));
  ([(fl 143 1000000); (PInt 1); (fl 1 2); (fl 1 2); (fl 1 2); (fl 461 50000); (fl 473 100000); (PInt 0); (PInt 0); (fl 103 200000000000); (PInt 0); (PInt 320000000); (PInt 200000000000); (PInt 80000000000); (fl 370020197682433 10000000000)], (Some [AxStr "point"]));
  ([(fl 143 1000000); (PInt 1); (fl 1 10); (fl 1 10); (fl 1 10); (fl 461 50000); (fl 473 100000); (PInt 0); (PInt 0); (fl 103 200000000000); (PInt 0); (PInt 320000000); (PInt 200000000000); (PInt 80000000000); (fl 370020197682433 10000000000)], (Some [AxStr "point"]));
  ([(fl 251 10000); (PInt 1); (PInt 40); (PInt 40); (PInt 40); (fl 139 1000); (fl 893 10000); (PInt 0); (PInt 0); (fl 23 4000000); (fl 23 5000000); (PInt 280000000); (PInt 200000000000); (PInt 80000000000); (fl 502770356526741 100000000)], (Some [AxStr "point"]));
  ([(fl 251 10000); (PInt 1); (PInt 20); (PInt 20); (PInt 20); (fl 139 1000); (fl 893 10000); (PInt 0); (PInt 0); (fl 23 4000000); (fl 23 5000000); (PInt 280000000); (PInt 200000000000); (PInt 80000000000); (fl 505837186882753 100000000)], (Some [AxStr "point"]));
  ([(fl 251 10000); (PInt 1); (PInt 10); (PInt 10); (PInt 10); (fl 139 1000); (fl 893 10000); (PInt 0); (PInt 0); (fl 23 4000000); (fl 23 5000000); (PInt 280000000); (PInt 200000000000); (PInt 80000000000); (fl 129086972864903 25000000)], (Some [AxStr "point"]));
  ([(fl 251 10000); (PInt 1); (PInt 5); (PInt 5); (PInt 5); (fl 139 1000); (fl 893 10000); (PInt 0); (PInt 0); (fl 23 4000000); (fl 23 5000000); (PInt 280000000); (PInt 200000000000); (PInt 80000000000); (fl 270932687766329 50000000)], (Some [AxStr "point"]));
  ([(fl 251 10000); (PInt 1); (PInt 1); (PInt 1); (PInt 1); (fl 139 1000); (fl 893 10000); (PInt 0); (PInt 0); (fl 23 4000000); (fl 23 5000000); (PInt 280000000); (PInt 200000000000); (PInt 80000000000); (fl 4627917022531 781250)], (Some [AxStr "point"]));
  ([(fl 703 100000); (PInt 1); (PInt 20); (PInt 20); (PInt 20); (fl 147 1000); (fl 19 625); (fl 567 10000); (PInt 0); (fl 59 125000000); (fl 151 1000000000); (PInt 280000000); (PInt 200000000000); (PInt 80000000000); (fl 964432579707819 1000000000)], (Some [AxStr "point"]));
  ([(fl 703 100000); (PInt 1); (PInt 10); (PInt 10); (PInt 10); (fl 147 1000); (fl 19 625); (fl 567 10000); (PInt 0); (fl 59 125000000); (fl 151 1000000000); (PInt 280000000); (PInt 200000000000); (PInt 80000000000); (fl 994031743422623 1000000000)], (Some [AxStr "point"]));
  ([(fl 703 100000); (PInt 1); (PInt 5); (PInt 5); (PInt 5); (fl 147 1000); (fl 19 625); (fl 567 10000); (PInt 0); (fl 59 125000000); (fl 151 1000000000); (PInt 280000000); (PInt 200000000000); (PInt 80000000000); (fl 2729226271041 2500000)], (Some [AxStr "point"]));
  ([(fl 703 100000); (PInt 1); (PInt 1); (PInt 1); (PInt 1); (fl 147 1000); (fl 19 625); (fl 567 10000); (PInt 0); (fl 59 125000000); (fl 151 1000000000); (PInt 280000000); (PInt 200000000000); (PInt 80000000000); (fl 19634002416157 12500000)], (Some [AxStr "point"]));
  ([(fl 703 100000); (PInt 1); (fl 1 2); (fl 1 2); (fl 1 2); (fl 147 1000); (fl 19 625); (fl 567 10000); (PInt 0); (fl 59 125000000); (fl 151 1000000000); (PInt 280000000); (PInt 200000000000); (PInt 80000000000); (fl 41113295776699 25000000)], (Some [AxStr "point"]));
  ([(fl 2 125); (fl 19 20); (PInt 40); (PInt 40); (PInt 40); (fl 249 1000); (fl 31 625); (PInt 0); (PInt 0); (fl 39 25000000); (fl 69 20000000); (PInt 280000000); (PInt 200000000000); (PInt 80000000000); (fl 141797688301673 100000000)], (Some [AxStr "point"]));
  ([(fl 2 125); (fl 19 20); (PInt 20); (PInt 20); (PInt 20); (fl 249 1000); (fl 31 625); (PInt 0); (PInt 0); (fl 39 25000000); (fl 69 20000000); (PInt 280000000); (PInt 200000000000); (PInt 80000000000); (fl 154272959189577 100000000)], (Some [AxStr "point"]));
  ([(fl 2 125); (fl 19 20); (PInt 10); (PInt 10); (PInt 10); (fl 249 1000); (fl 31 625); (PInt 0); (PInt 0); (fl 39 25000000); (fl 69 20000000); (PInt 280000000); (PInt 200000000000); (PInt 80000000000); (fl 193326433901883 100000000)], (Some [AxStr "point"]));
  ([(fl 2 125); (fl 19 20); (PInt 5); (PInt 5); (PInt 5); (fl 249 1000); (fl 31 625); (PInt 0); (PInt 0); (fl 39 25000000); (fl 69 20000000); (PInt 280000000); (PInt 200000000000); (PInt 80000000000); (fl 66711584302439 25000000)], (Some [AxStr "point"]));
  ([(fl 2 125); (fl 19 20); (PInt 1); (PInt 1); (PInt 1); (fl 249 1000); (fl 31 625); (PInt 0); (PInt 0); (fl 39 25000000); (fl 69 20000000); (PInt 280000000); (PInt 200000000000); (PInt 80000000000); (fl 3555092885703 1000000)], (Some [AxStr "point"]));
  ([(fl 377 500000); (PInt 1); (PInt 10); (PInt 10); (PInt 10); (fl 301 10000); (fl 63 5000); (fl 17 625); (PInt 0); (fl 813 100000000000); (fl 53 500000000000); (PInt 320000000); (PInt 200000000000); (PInt 80000000000); (fl 77555057139943 500000000)], (Some [AxStr "point"]));
  ([(fl 377 500000); (PInt 1); (PInt 5); (PInt 5); (PInt 5); (fl 301 10000); (fl 63 5000); (fl 17 625); (PInt 0); (fl 813 100000000000); (fl 53 500000000000); (PInt 320000000); (PInt 200000000000); (PInt 80000000000); (fl 155523464847291 1000000000)], (Some [AxStr "point"]));
  ([(fl 377 500000); (PInt 1); (PInt 1); (PInt 1); (PInt 1); (fl 301 10000); (fl 63 5000); (fl 17 625); (PInt 0); (fl 813 100000000000); (fl 53 500000000000); (PInt 320000000); (PInt 200000000000); (PInt 80000000000); (fl 82954389671369 500000000)], (Some [AxStr "point"]));
  ([(fl 377 500000); (PInt 1); (fl 1 2); (fl 1 2); (fl 1 2); (fl 301 10000); (fl 63 5000); (fl 17 625); (PInt 0); (fl 813 100000000000); (fl 53 500000000000); (PInt 320000000); (PInt 200000000000); (PInt 80000000000); (fl 90718586745933 500000000)], (Some [AxStr "point"]));
  ([(fl 377 500000); (PInt 1); (fl 1 10); (fl 1 10); (fl 1 10); (fl 301 10000); (fl 63 5000); (fl 17 625); (PInt 0); (fl 813 100000000000); (fl 53 500000000000); (PInt 320000000); (PInt 200000000000); (PInt 80000000000); (fl 203362838693571 1000000000)], (Some [AxStr "point"]));
  ([(fl 11 1000); (PInt 1); (PInt 10); (PInt 10); (PInt 10); (fl 21 100); (fl 36979 1000000); (PInt 0); (fl 15428504787 100000000000); (fl 11479850099 12500000000000000); (fl 40290907437 100000000000000000); (PInt 300000000); (PInt 200000000000); (PInt 80000000000); (fl 876230281613051 1000000000)], (Some [AxStr "point"]));
  ([(fl 11 1000); (PInt 1); (PInt 5); (PInt 5); (PInt 5); (fl 21 100); (fl 36979 1000000); (PInt 0); (fl 15428504787 100000000000); (fl 11479850099 12500000000000000); (fl 40290907437 100000000000000000); (PInt 300000000); (PInt 200000000000); (PInt 80000000000); (fl 56523388874707 50000000)], (Some [AxStr "point"]));
  ([(fl 11 1000); (PInt 1); (PInt 1); (PInt 1); (PInt 1); (fl 21 100); (fl 36979 1000000); (PInt 0); (fl 15428504787 100000000000); (fl 11479850099 12500000000000000); (fl 40290907437 100000000000000000); (PInt 300000000); (PInt 200000000000); (PInt 80000000000); (fl 251248884752147 100000000)], (Some [AxStr "point"]));
  ([(fl 11 1000); (PInt 1); (fl 1 2); (fl 1 2); (fl 1 2); (fl 21 100); (fl 36979 1000000); (PInt 0); (fl 15428504787 100000000000); (fl 11479850099 12500000000000000); (fl 40290907437 100000000000000000); (PInt 300000000); (PInt 200000000000); (PInt 80000000000); (fl 136187088245551 50000000)], (Some [AxStr "point"]));
  ([(fl 13 1000); (PInt 1); (PInt 10); (PInt 10); (PInt 10); (fl 317750759 2500000000); (fl 453280830003 10000000000000); (fl 220614080619 10000000000000); (PInt 0); (fl 3961889047 2500000000000000); (fl 76586059847 2500000000000000000); (PInt 300000000); (PInt 200000000000); (PInt 80000000000); (fl 52175691435193 20000000)], (Some [AxStr "point"]));
  ([(fl 13 1000); (PInt 1); (PInt 5); (PInt 5); (PInt 5); (fl 317750759 2500000000); (fl 453280830003 10000000000000); (fl 220614080619 10000000000000); (PInt 0); (fl 3961889047 2500000000000000); (fl 76586059847 2500000000000000000); (PInt 300000000); (PInt 200000000000); (PInt 80000000000); (fl 13087874776931 5000000)], (Some [AxStr "point"]));
  ([(fl 13 1000); (PInt 1); (PInt 1); (PInt 1); (PInt 1); (fl 317750759 2500000000); (fl 453280830003 10000000000000); (fl 220614080619 10000000000000); (PInt 0); (fl 3961889047 2500000000000000); (fl 76586059847 2500000000000000000); (PInt 300000000); (PInt 200000000000); (PInt 80000000000); (fl 281645111772963 100000000)], (Some [AxStr "point"]));
  ([(fl 13 1000); (PInt 1); (fl 1 2); (fl 1 2); (fl 1 2); (fl 317750759 2500000000); (fl 453280830003 10000000000000); (fl 220614080619 10000000000000); (PInt 0); (fl 3961889047 2500000000000000); (fl 76586059847 2500000000000000000); (PInt 300000000); (PInt 200000000000); (PInt 80000000000); (fl 305163220837609 100000000)], (Some [AxStr "point"]))].
Example t26_ok : forallb (fun r => match r with ([a; k; lx; ly; lz; rx; ry; xo; yo; j; w; f; e; g; x], s) => ok d5 (entry 0 (ns6_3_3_N_c_torsion tpow troots (mk_nsect a k rx ry xo yo j w f e g) lx ly lz s (fl 85 100))) x | _ => false end) t26 = true.
Proof. vm_compute. reflexivity. Qed.

(** tests/test_AS4100_6.py test_s6_3_3_N_c_torsion (data set 4): 55 cases. *)
Definition t27 : list (list pynum * symmetry_t) := [
  ([(fl 189 100000); (PInt 1); (PInt 10); (PInt 10); (PInt 10); (fl 411 10000); (fl 49 2000); (PInt 0); (PInt 0); (fl 349 10000000000); (fl 23 10000000000); (PInt 320000000); (PInt 200000000000); (PInt 80000000000); (fl 834665067 50000)], (Some []));
  ([(fl 189 100000); (PInt 1); (PInt 5); (PInt 5); (PInt 5); (fl 411 10000); (fl 49 2000); (PInt 0); (PInt 0); (fl 349 10000000000); (fl 23 10000000000); (PInt 320000000); (PInt 200000000000); (PInt 80000000000); (fl 3338660267 50000)], (Some []));
  ([(fl 189 100000); (PInt 1); (PInt 1); (PInt 1); (PInt 1); (fl 411 10000); (fl 49 2000); (PInt 0); (PInt 0); (fl 349 10000000000); (fl 23 10000000000); (PInt 320000000); (PInt 200000000000); (PInt 80000000000); (fl 4591320923 10000)], (Some []));
  ([(fl 189 100000); (PInt 1); (fl 1 2); (fl 1 2); (fl 1 2); (fl 411 10000); (fl 49 2000); (PInt 0); (PInt 0); (fl 349 10000000000); (fl 23 10000000000); (PInt 320000000); (PInt 200000000000); (PInt 80000000000); (fl 1249388351 2500)], (Some []));
  ([(fl 579 10000); (fl 837 1000); (PInt 80); (PInt 80); (PInt 80); (fl 103 200); (fl 3 25); (PInt 0); (PInt 0); (fl 11 500000); (fl 7 25000); (PInt 280000000); (PInt 200000000000); (PInt 80000000000); (fl 802240909 5000)], (Some []));
  ([(fl 579 10000); (fl 837 1000); (PInt 40); (PInt 40); (PInt 40); (fl 103 200); (fl 3 25); (PInt 0); (PInt 0); (fl 11 500000); (fl 7 25000); (PInt 280000000); (PInt 200000000000); (PInt 80000000000); (fl 6417927271 10000)], (Some []));
  ([(fl 579 10000); (fl 837 1000); (PInt 20); (PInt 20); (PInt 20); (fl 103 200); (fl 3 25); (PInt 0); (PInt 0); (fl 11 500000); (fl 7 25000); (PInt 280000000); (PInt 200000000000); (PInt 80000000000); (fl 641792727 250)], (Some []));
  ([(fl 579 10000); (fl 837 1000); (PInt 10); (PInt 10); (PInt 10); (fl 103 200); (fl 3 25); (PInt 0); (PInt 0); (fl 11 500000); (fl 7 25000); (PInt 280000000); (PInt 200000000000); (PInt 80000000000); (fl 1909243419 250)], (Some []));
  ([(fl 579 10000); (fl 837 1000); (PInt 5); (PInt 5); (PInt 5); (fl 103 200); (fl 3 25); (PInt 0); (PInt 0); (fl 11 500000); (fl 7 25000); (PInt 280000000); (PInt 200000000000); (PInt 80000000000); (fl 208087529 20)], (Some []));
  ([(fl 579 10000); (fl 837 1000); (PInt 1); (PInt 1); (PInt 1); (fl 103 200); (fl 3 25); (PInt 0); (PInt 0); (fl 11 500000); (fl 7 25000); (PInt 280000000); (PInt 200000000000); (PInt 80000000000); (fl 1148657049 100)], (Some []));
  ([(fl 117 100000); (fl 103 125); (PInt 20); (PInt 20); (PInt 20); (fl 17 400); (fl 41 2500); (PInt 0); (PInt 0); (fl 37 2500000000); (PInt 0); (PInt 320000000); (PInt 200000000000); (PInt 80000000000); (fl 9538696667 10000000)], (Some []));
  ([(fl 117 100000); (fl 103 125); (PInt 10); (PInt 10); (PInt 10); (fl 17 400); (fl 41 2500); (PInt 0); (PInt 0); (fl 37 2500000000); (PInt 0); (PInt 320000000); (PInt 200000000000); (PInt 80000000000); (fl 3815478667 1000000)], (Some []));
  ([(fl 117 100000); (fl 103 125); (PInt 5); (PInt 5); (PInt 5); (fl 17 400); (fl 41 2500); (PInt 0); (PInt 0); (fl 37 2500000000); (PInt 0); (PInt 320000000); (PInt 200000000000); (PInt 80000000000); (fl 1526191467 100000)], (Some []));
  ([(fl 117 100000); (fl 103 125); (PInt 1); (PInt 1); (PInt 1); (fl 17 400); (fl 41 2500); (PInt 0); (PInt 0); (fl 37 2500000000); (PInt 0); (PInt 320000000); (PInt 200000000000); (PInt 80000000000); (fl 996251703 5000)], (Some []));
  ([(fl 117 100000); (fl 103 125); (fl 1 2); (fl 1 2); (fl 1 2); (fl 17 400); (fl 41 2500); (PInt 0); (PInt 0); (fl 37 2500000000); (PInt 0); (PInt 320000000); (PInt 200000000000); (PInt 80000000000); (fl 996251703 5000)], (Some []));
  ([(fl 117 100000); (fl 103 125); (fl 1 10); (fl 1 10); (fl 1 10); (fl 17 400); (fl 41 2500); (PInt 0); (PInt 0); (fl 37 2500000000); (PInt 0); (PInt 320000000); (PInt 200000000000); (PInt 80000000000); (fl 996251703 5000)], (Some []));
  ([(fl 279 100000); (fl 479 500); (PInt 20); (PInt 20); (PInt 20); (fl 587 10000); (fl 149 5000); (PInt 0); (PInt 0); (fl 889 10000000000); (PInt 0); (PInt 320000000); (PInt 200000000000); (PInt 80000000000); (fl 8731533193 1000000)], (Some []));
  ([(fl 279 100000); (fl 479 500); (PInt 10); (PInt 10); (PInt 10); (fl 587 10000); (fl 149 5000); (PInt 0); (PInt 0); (fl 889 10000000000); (PInt 0); (PInt 320000000); (PInt 200000000000); (PInt 80000000000); (fl 3492613277 100000)], (Some []));
  ([(fl 279 100000); (fl 479 500); (PInt 5); (PInt 5); (PInt 5); (fl 587 10000); (fl 149 5000); (PInt 0); (PInt 0); (fl 889 10000000000); (PInt 0); (PInt 320000000); (PInt 200000000000); (PInt 80000000000); (fl 1397045311 10000)], (Some []));
  ([(fl 279 100000); (fl 479 500); (PInt 1); (PInt 1); (PInt 1); (fl 587 10000); (fl 149 5000); (PInt 0); (PInt 0); (fl 889 10000000000); (PInt 0); (PInt 320000000); (PInt 200000000000); (PInt 80000000000); (fl 5789588841 10000)], (Some []));
  ([(fl 279 100000); (fl 479 500); (fl 1 2); (fl 1 2); (fl 1 2); (fl 587 10000); (fl 149 5000); (PInt 0); (PInt 0); (fl 889 10000000000); (PInt 0); (PInt 320000000); (PInt 200000000000); (PInt 80000000000); (fl 5789588841 10000)], (Some []));
  ([(fl 279 100000); (fl 479 500); (fl 1 10); (fl 1 10); (fl 1 10); (fl 587 10000); (fl 149 5000); (PInt 0); (PInt 0); (fl 889 10000000000); (PInt 0); (PInt 320000000); (PInt 200000000000); (PInt 80000000000); (fl 5789588841 10000)], (Some []));
  ([(fl 143 1000000); (PInt 1); (PInt 10); (PInt 10); (PInt 10); (fl 461 50000); (fl 473 100000); (PInt 0); (PInt 0); (fl 103 200000000000); (PInt 0); (PInt 320000000); (PInt 200000000000); (PInt 80000000000); (fl 1176919037 25000000)], (Some []));
  ([(fl 143 1000000); (PInt 1); (PInt 5); (PInt 5); (PInt 5); (fl 461 50000); (fl 473 100000); (PInt 0); (PInt 0); (fl 103 200000000000); (PInt 0); (PInt 320000000); (PInt 200000000000); (PInt 80000000000); (fl 1883070459 10000000)], (Some []));
  ([(fl 143 1000000); (PInt 1); (PInt 1); (PInt 1); (PInt 1); (fl 461 50000); (fl 473 100000); (PInt 0); (PInt 0); (fl 103 200000000000); (PInt 0); (PInt 320000000); (PInt 200000000000); (PInt 80000000000); (fl 1176919037 250000)], (Some []));
  ([(fl 143 1000000); (PInt 1); (fl 1 2); (fl 1 2); (fl 1 2); (fl 461 50000); (fl 473 100000); (PInt 0); (PInt 0); (fl 103 200000000000); (PInt 0); (PInt 320000000); (PInt 200000000000); (PInt 80000000000); (fl 1822306529 100000)], (Some []));
  ([(fl 143 1000000); (PInt 1); (fl 1 10); (fl 1 10); (fl 1 10); (fl 461 50000); (fl 473 100000); (PInt 0); (PInt 0); (fl 103 200000000000); (PInt 0); (PInt 320000000); (PInt 200000000000); (PInt 80000000000); (fl 3700201977 100000)], (Some []));
  ([(fl 251 10000); (PInt 1); (PInt 40); (PInt 40); (PInt 40); (fl 139 1000); (fl 893 10000); (PInt 0); (PInt 0); (fl 23 4000000); (fl 23 5000000); (PInt 280000000); (PInt 200000000000); (PInt 80000000000); (fl 1840792841 10000)], (Some []));
  ([(fl 251 10000); (PInt 1); (PInt 20); (PInt 20); (PInt 20); (fl 139 1000); (fl 893 10000); (PInt 0); (PInt 0); (fl 23 4000000); (fl 23 5000000); (PInt 280000000); (PInt 200000000000); (PInt 80000000000); (fl 1472634273 2000)], (Some []));
  ([(fl 251 10000); (PInt 1); (PInt 10); (PInt 10); (PInt 10); (fl 139 1000); (fl 893 10000); (PInt 0); (PInt 0); (fl 23 4000000); (fl 23 5000000); (PInt 280000000); (PInt 200000000000); (PInt 80000000000); (fl 2837345351 1000)], (Some []));
  ([(fl 251 10000); (PInt 1); (PInt 5); (PInt 5); (PInt 5); (fl 139 1000); (fl 893 10000); (PInt 0); (PInt 0); (fl 23 4000000); (fl 23 5000000); (PInt 280000000); (PInt 200000000000); (PInt 80000000000); (fl 4959250649 1000)], (Some []));
  ([(fl 251 10000); (PInt 1); (PInt 1); (PInt 1); (PInt 1); (fl 139 1000); (fl 893 10000); (PInt 0); (PInt 0); (fl 23 4000000); (fl 23 5000000); (PInt 280000000); (PInt 200000000000); (PInt 80000000000); (fl 5923733789 1000)], (Some []));
  ([(fl 703 100000); (PInt 1); (PInt 20); (PInt 20); (PInt 20); (fl 147 1000); (fl 19 625); (fl 567 10000); (PInt 0); (fl 59 125000000); (fl 151 1000000000); (PInt 280000000); (PInt 200000000000); (PInt 80000000000); (fl 597417173 25000)], (Some []));
  ([(fl 703 100000); (PInt 1); (PInt 10); (PInt 10); (PInt 10); (fl 147 1000); (fl 19 625); (fl 567 10000); (PInt 0); (fl 59 125000000); (fl 151 1000000000); (PInt 280000000); (PInt 200000000000); (PInt 80000000000); (fl 9555144229 100000)], (Some []));
  ([(fl 703 100000); (PInt 1); (PInt 5); (PInt 5); (PInt 5); (fl 147 1000); (fl 19 625); (fl 567 10000); (PInt 0); (fl 59 125000000); (fl 151 1000000000); (PInt 280000000); (PInt 200000000000); (PInt 80000000000); (fl 954062467 2500)], (Some []));
  ([(fl 703 100000); (PInt 1); (PInt 1); (PInt 1); (PInt 1); (fl 147 1000); (fl 19 625); (fl 567 10000); (PInt 0); (fl 59 125000000); (fl 151 1000000000); (PInt 280000000); (PInt 200000000000); (PInt 80000000000); (fl 1562386903 1000)], (Some []));
  ([(fl 703 100000); (PInt 1); (fl 1 2); (fl 1 2); (fl 1 2); (fl 147 1000); (fl 19 625); (fl 567 10000); (PInt 0); (fl 59 125000000); (fl 151 1000000000); (PInt 280000000); (PInt 200000000000); (PInt 80000000000); (fl 1643246839 1000)], (Some []));
  ([(fl 2 125); (fl 19 20); (PInt 40); (PInt 40); (PInt 40); (fl 249 1000); (fl 31 625); (PInt 0); (PInt 0); (fl 39 25000000); (fl 69 20000000); (PInt 280000000); (PInt 200000000000); (PInt 80000000000); (fl 3439024093 100000)], (Some []));
  ([(fl 2 125); (fl 19 20); (PInt 20); (PInt 20); (PInt 20); (fl 249 1000); (fl 31 625); (PInt 0); (PInt 0); (fl 39 25000000); (fl 69 20000000); (PInt 280000000); (PInt 200000000000); (PInt 80000000000); (fl 1375609637 10000)], (Some []));
  ([(fl 2 125); (fl 19 20); (PInt 10); (PInt 10); (PInt 10); (fl 249 1000); (fl 31 625); (PInt 0); (PInt 0); (fl 39 25000000); (fl 69 20000000); (PInt 280000000); (PInt 200000000000); (PInt 80000000000); (fl 5502438549 10000)], (Some []));
  ([(fl 2 125); (fl 19 20); (PInt 5); (PInt 5); (PInt 5); (fl 249 1000); (fl 31 625); (PInt 0); (PInt 0); (fl 39 25000000); (fl 69 20000000); (PInt 280000000); (PInt 200000000000); (PInt 80000000000); (fl 989393443 500)], (Some []));
  ([(fl 2 125); (fl 19 20); (PInt 1); (PInt 1); (PInt 1); (fl 249 1000); (fl 31 625); (PInt 0); (PInt 0); (fl 39 25000000); (fl 69 20000000); (PInt 280000000); (PInt 200000000000); (PInt 80000000000); (fl 3531341223 1000)], (Some []));
  ([(fl 377 500000); (PInt 1); (PInt 10); (PInt 10); (PInt 10); (fl 301 10000); (fl 63 5000); (fl 17 625); (PInt 0); (fl 813 100000000000); (fl 53 500000000000); (PInt 320000000); (PInt 200000000000); (PInt 80000000000); (fl 110025189 62500)], (Some []));
  ([(fl 377 500000); (PInt 1); (PInt 5); (PInt 5); (PInt 5); (fl 301 10000); (fl 63 5000); (fl 17 625); (PInt 0); (fl 813 100000000000); (fl 53 500000000000); (PInt 320000000); (PInt 200000000000); (PInt 80000000000); (fl 3514708159 500000)], (Some []));
  ([(fl 377 500000); (PInt 1); (PInt 1); (PInt 1); (PInt 1); (fl 301 10000); (fl 63 5000); (fl 17 625); (PInt 0); (fl 813 100000000000); (fl 53 500000000000); (PInt 320000000); (PInt 200000000000); (PInt 80000000000); (fl 1296114307 10000)], (Some []));
  ([(fl 377 500000); (PInt 1); (fl 1 2); (fl 1 2); (fl 1 2); (fl 301 10000); (fl 63 5000); (fl 17 625); (PInt 0); (fl 813 100000000000); (fl 53 500000000000); (PInt 320000000); (PInt 200000000000); (PInt 80000000000); (fl 884000111 5000)], (Some []));
  ([(fl 377 500000); (PInt 1); (fl 1 10); (fl 1 10); (fl 1 10); (fl 301 10000); (fl 63 5000); (fl 17 625); (PInt 0); (fl 813 100000000000); (fl 53 500000000000); (PInt 320000000); (PInt 200000000000); (PInt 80000000000); (fl 2032422271 10000)], (Some []));
  ([(fl 11 1000); (PInt 1); (PInt 10); (PInt 10); (PInt 10); (fl 21 100); (fl 36979 1000000); (PInt 0); (fl 15428504787 100000000000); (fl 11479850099 12500000000000000); (fl 40290907437 100000000000000000); (PInt 300000000); (PInt 200000000000); (PInt 80000000000); (fl 1001702233 5000)], (Some []));
  ([(fl 11 1000); (PInt 1); (PInt 5); (PInt 5); (PInt 5); (fl 21 100); (fl 36979 1000000); (PInt 0); (fl 15428504787 100000000000); (fl 11479850099 12500000000000000); (fl 40290907437 100000000000000000); (PInt 300000000); (PInt 200000000000); (PInt 80000000000); (fl 388060823 625)], (Some []));
  ([(fl 11 1000); (PInt 1); (PInt 1); (PInt 1); (PInt 1); (fl 21 100); (fl 36979 1000000); (PInt 0); (fl 15428504787 100000000000); (fl 11479850099 12500000000000000); (fl 40290907437 100000000000000000); (PInt 300000000); (PInt 200000000000); (PInt 80000000000); (fl 1230100941 500)], (Some []));
  ([(fl 11 1000); (PInt 1); (fl 1 2); (fl 1 2); (fl 1 2); (fl 21 100); (fl 36979 1000000); (PInt 0); (fl 15428504787 100000000000); (fl 11479850099 12500000000000000); (fl 40290907437 100000000000000000); (PInt 300000000); (PInt 200000000000); (PInt 80000000000); (fl 67742088 25)], (Some []));
  ([(fl 13 1000); (PInt 1); (PInt 10); (PInt 10); (PInt 10); (fl 317750759 2500000000); (fl 453280830003 10000000000000); (fl 220614080619 10000000000000); (PInt 0); (fl 3961889047 2500000000000000); (fl 76586059847 2500000000000000000); (PInt 300000000); (PInt 200000000000); (PInt 80000000000); (fl 982263993 2500)], (Some []));
  ([(fl 13 1000); (PInt 1); (PInt 5); (PInt 5); (PInt 5); (fl 317750759 2500000000); (fl 453280830003 10000000000000); (fl 220614080619 10000000000000); (PInt 0); (fl 3961889047 2500000000000000); (fl 76586059847 2500000000000000000); (PInt 300000000); (PInt 200000000000); (PInt 80000000000); (fl 1526786241 1000)], (Some []));
  ([(fl 13 1000); (PInt 1); (PInt 1); (PInt 1); (PInt 1); (fl 317750759 2500000000); (fl 453280830003 10000000000000); (fl 220614080619 10000000000000); (PInt 0); (fl 3961889047 2500000000000000); (fl 76586059847 2500000000000000000); (PInt 300000000); (PInt 200000000000); (PInt 80000000000); (fl 2816086259 1000)], (Some []));
  ([(fl 13 1000); (PInt 1); (fl 1 2); (fl 1 2); (fl 1 2); (fl 317750759 2500000000); (fl 453280830003 10000000000000); (fl 220614080619 10000000000000); (PInt 0); (fl 3961889047 2500000000000000); (fl 76586059847 2500000000000000000); (PInt 300000000); (PInt 200000000000); (PInt 80000000000); (fl 762886233 250)], (Some []))].
Example t27_ok : forallb (fun r => match r with ([a; k; lx; ly; lz; rx; ry; xo; yo; j; w; f; e; g; x], s) => ok d5 (entry 0 (ns6_3_3_N_c_torsion tpow troots (mk_nsect a k rx ry xo yo j w f e g) lx ly lz s (fl 85 100))) x | _ => false end) t27 = true.
Proof. vm_compute. reflexivity. Qed.

(** tests/test_AS4100_6.py test_s6_1_1_Nc: 55 cases. *)
Definition t28 : list (list pynum * symmetry_t) := [
  ([(fl 189 100000); (PInt 1); (PInt 10); (PInt 1); (PInt 1); (fl 1 1); (fl 411 10000); (fl 49 2000); (fl 0 1); (fl 0 1); (fl 349 10000000000); (fl 23 10000000000); (fl 320000000 1); (fl 200000000000 1); (fl 80000000000 1); (PInt 250000000); (PInt 0); (fl 544320 1); (fl 2642308071 50000); (fl 488752213 25000); (fl 4228012061 100000); (fl 488752213 25000)], (Some [AxStr "x"; AxStr "y"]));
  ([(fl 189 100000); (PInt 1); (PInt 10); (fl 1 2); (fl 1 2); (fl 1 2); (fl 411 10000); (fl 49 2000); (fl 0 1); (fl 0 1); (fl 349 10000000000); (fl 23 10000000000); (fl 320000000 1); (fl 200000000000 1); (fl 80000000000 1); (PInt 250000000); (PInt 0); (fl 544320 1); (fl 1844614689 10000); (fl 1838662023 25000); (fl 211400603 1250); (fl 1838662023 25000)], (Some [AxStr "x"; AxStr "y"]));
  ([(fl 189 100000); (PInt 1); (PInt 10); (fl 1 10); (fl 1 10); (fl 1 10); (fl 411 10000); (fl 49 2000); (fl 0 1); (fl 0 1); (fl 349 10000000000); (fl 23 10000000000); (fl 320000000 1); (fl 200000000000 1); (fl 80000000000 1); (PInt 250000000); (PInt 0); (fl 544320 1); (fl 5183009481 10000); (fl 2390360777 5000); (fl 4275085801 10000); (fl 4275085801 10000)], (Some [AxStr "x"; AxStr "y"]));
  ([(fl 189 100000); (PInt 1); (PInt 10); (fl 1 20); (fl 1 20); (fl 1 20); (fl 411 10000); (fl 49 2000); (fl 0 1); (fl 0 1); (fl 349 10000000000); (fl 23 10000000000); (fl 320000000 1); (fl 200000000000 1); (fl 80000000000 1); (PInt 250000000); (PInt 0); (fl 544320 1); (fl 339900882 625); (fl 5267338221 10000); (fl 180019791 400); (fl 180019791 400)], (Some [AxStr "x"; AxStr "y"]));
  ([(fl 579 10000); (fl 837 1000); (PInt 80); (PInt 1); (PInt 1); (fl 1 1); (fl 103 200); (fl 3 25); (fl 0 1); (fl 0 1); (fl 11 500000); (fl 7 25000); (fl 280000000 1); (fl 200000000000 1); (fl 80000000000 1); (PInt 250000000); (fl 1 2); (fl 61062498 5); (fl 1660140897 500); (fl 1134975629 5000); (fl 2659679313 1000); (fl 1134975629 5000)], (Some [AxStr "x"; AxStr "y"]));
  ([(fl 579 10000); (fl 837 1000); (PInt 80); (fl 1 2); (fl 1 2); (fl 1 2); (fl 103 200); (fl 3 25); (fl 0 1); (fl 0 1); (fl 11 500000); (fl 7 25000); (fl 280000000 1); (fl 200000000000 1); (fl 80000000000 1); (PInt 250000000); (fl 1 2); (fl 61062498 5); (fl 7874909207 1000); (fl 2148319093 2500); (fl 421541143 100); (fl 2148319093 2500)], (Some [AxStr "x"; AxStr "y"]));
  ([(fl 579 10000); (fl 837 1000); (PInt 80); (fl 1 4); (fl 1 4); (fl 1 4); (fl 103 200); (fl 3 25); (fl 0 1); (fl 0 1); (fl 11 500000); (fl 7 25000); (fl 280000000 1); (fl 200000000000 1); (fl 80000000000 1); (PInt 250000000); (fl 1 2); (fl 61062498 5); (fl 1071608061 100); (fl 370230187 125); (fl 2837320039 500); (fl 370230187 125)], (Some [AxStr "x"; AxStr "y"]));
  ([(fl 579 10000); (fl 837 1000); (PInt 80); (fl 1 8); (fl 1 8); (fl 1 8); (fl 103 200); (fl 3 25); (fl 0 1); (fl 0 1); (fl 11 500000); (fl 7 25000); (fl 280000000 1); (fl 200000000000 1); (fl 80000000000 1); (PInt 250000000); (fl 1 2); (fl 61062498 5); (fl 118872167 10); (fl 7422166541 1000); (fl 4000465633 500); (fl 7422166541 1000)], (Some [AxStr "x"; AxStr "y"]));
  ([(fl 579 10000); (fl 837 1000); (PInt 80); (fl 1 16); (fl 1 16); (fl 1 16); (fl 103 200); (fl 3 25); (fl 0 1); (fl 0 1); (fl 11 500000); (fl 7 25000); (fl 280000000 1); (fl 200000000000 1); (fl 80000000000 1); (PInt 250000000); (fl 1 2); (fl 61062498 5); (fl 61062498 5); (fl 263393384 25); (fl 1917470827 200); (fl 1917470827 200)], (Some [AxStr "x"; AxStr "y"]));
  ([(fl 579 10000); (fl 837 1000); (PInt 80); (fl 1 80); (fl 1 80); (fl 1 80); (fl 103 200); (fl 3 25); (fl 0 1); (fl 0 1); (fl 11 500000); (fl 7 25000); (fl 280000000 1); (fl 200000000000 1); (fl 80000000000 1); (PInt 250000000); (fl 1 2); (fl 61062498 5); (fl 61062498 5); (fl 61062498 5); (fl 1034516191 100); (fl 1034516191 100)], (Some [AxStr "x"; AxStr "y"]));
  ([(fl 117 100000); (fl 103 125); (PInt 20); (PInt 1); (PInt 1); (fl 1 1); (fl 17 400); (fl 41 2500); (fl 0 1); (fl 0 1); (fl 37 2500000000); (fl 0 1); (fl 320000000 1); (fl 200000000000 1); (fl 80000000000 1); (PInt 250000000); (fl 1 2); (fl 6941376 25); (fl 9048604737 1000000); (fl 280495537 200000); (fl 8584827001 10000000); (fl 8584827001 10000000)], (Some []));
  ([(fl 117 100000); (fl 103 125); (PInt 20); (fl 1 2); (fl 1 2); (fl 1 2); (fl 17 400); (fl 41 2500); (fl 0 1); (fl 0 1); (fl 37 2500000000); (fl 0 1); (fl 320000000 1); (fl 200000000000 1); (fl 80000000000 1); (PInt 250000000); (fl 1 2); (fl 6941376 25); (fl 667117969 20000); (fl 5474761829 1000000); (fl 8584827 2500); (fl 8584827 2500)], (Some []));
  ([(fl 117 100000); (fl 103 125); (PInt 20); (fl 1 4); (fl 1 4); (fl 1 4); (fl 17 400); (fl 41 2500); (fl 0 1); (fl 0 1); (fl 37 2500000000); (fl 0 1); (fl 320000000 1); (fl 200000000000 1); (fl 80000000000 1); (PInt 250000000); (fl 1 2); (fl 6941376 25); (fl 42072711 400); (fl 413582451 20000); (fl 8584827 625); (fl 8584827 625)], (Some []));
  ([(fl 117 100000); (fl 103 125); (PInt 20); (fl 1 20); (fl 1 20); (fl 1 20); (fl 17 400); (fl 41 2500); (fl 0 1); (fl 0 1); (fl 37 2500000000); (fl 0 1); (fl 320000000 1); (fl 200000000000 1); (fl 80000000000 1); (PInt 250000000); (fl 1 2); (fl 6941376 25); (fl 657027171 2500); (fl 506148563 2500); (fl 358650613 2000); (fl 358650613 2000)], (Some []));
  ([(fl 117 100000); (fl 103 125); (PInt 20); (fl 1 40); (fl 1 40); (fl 1 40); (fl 17 400); (fl 41 2500); (fl 0 1); (fl 0 1); (fl 37 2500000000); (fl 0 1); (fl 320000000 1); (fl 200000000000 1); (fl 80000000000 1); (PInt 250000000); (fl 1 2); (fl 6941376 25); (fl 6941376 25); (fl 2527614723 10000); (fl 358650613 2000); (fl 358650613 2000)], (Some []));
  ([(fl 117 100000); (fl 103 125); (PInt 20); (fl 1 200); (fl 1 200); (fl 1 200); (fl 17 400); (fl 41 2500); (fl 0 1); (fl 0 1); (fl 37 2500000000); (fl 0 1); (fl 320000000 1); (fl 200000000000 1); (fl 80000000000 1); (PInt 250000000); (fl 1 2); (fl 6941376 25); (fl 6941376 25); (fl 6941376 25); (fl 358650613 2000); (fl 358650613 2000)], (Some []));
  ([(fl 279 100000); (fl 479 500); (PInt 20); (PInt 1); (PInt 1); (fl 1 1); (fl 587 10000); (fl 149 5000); (fl 0 1); (fl 0 1); (fl 889 10000000000); (fl 0 1); (fl 320000000 1); (fl 200000000000 1); (fl 80000000000 1); (PInt 250000000); (fl 1 2); (fl 19244304 25); (fl 4031745663 100000); (fl 543116253 50000); (fl 3049135281 100000); (fl 543116253 50000)], (Some [AxStr "x"]));
  ([(fl 279 100000); (fl 479 500); (PInt 20); (fl 1 2); (fl 1 2); (fl 1 2); (fl 587 10000); (fl 149 5000); (fl 0 1); (fl 0 1); (fl 889 10000000000); (fl 0 1); (fl 320000000 1); (fl 200000000000 1); (fl 80000000000 1); (PInt 250000000); (fl 1 2); (fl 19244304 25); (fl 71720933 500); (fl 4150049053 100000); (fl 76228382 625); (fl 4150049053 100000)], (Some [AxStr "x"]));
  ([(fl 279 100000); (fl 479 500); (PInt 20); (fl 1 4); (fl 1 4); (fl 1 4); (fl 587 10000); (fl 149 5000); (fl 0 1); (fl 0 1); (fl 889 10000000000); (fl 0 1); (fl 320000000 1); (fl 200000000000 1); (fl 80000000000 1); (PInt 250000000); (fl 1 2); (fl 19244304 25); (fl 3998646917 10000); (fl 1472501899 10000); (fl 799847157 2000); (fl 1472501899 10000)], (Some [AxStr "x"]));
  ([(fl 279 100000); (fl 479 500); (PInt 20); (fl 1 20); (fl 1 20); (fl 1 20); (fl 587 10000); (fl 149 5000); (fl 0 1); (fl 0 1); (fl 889 10000000000); (fl 0 1); (fl 320000000 1); (fl 200000000000 1); (fl 80000000000 1); (PInt 250000000); (fl 1 2); (fl 19244304 25); (fl 7490212041 10000); (fl 677257701 1000); (fl 5210629957 10000); (fl 5210629957 10000)], (Some [AxStr "x"]));
  ([(fl 279 100000); (fl 479 500); (PInt 20); (fl 1 40); (fl 1 40); (fl 1 40); (fl 587 10000); (fl 149 5000); (fl 0 1); (fl 0 1); (fl 889 10000000000); (fl 0 1); (fl 320000000 1); (fl 200000000000 1); (fl 80000000000 1); (PInt 250000000); (fl 1 2); (fl 19244304 25); (fl 19244304 25); (fl 1875294559 2500); (fl 5210629957 10000); (fl 5210629957 10000)], (Some [AxStr "x"]));
  ([(fl 279 100000); (fl 479 500); (PInt 20); (fl 1 200); (fl 1 200); (fl 1 200); (fl 587 10000); (fl 149 5000); (fl 0 1); (fl 0 1); (fl 889 10000000000); (fl 0 1); (fl 320000000 1); (fl 200000000000 1); (fl 80000000000 1); (PInt 250000000); (fl 1 2); (fl 19244304 25); (fl 19244304 25); (fl 19244304 25); (fl 5210629957 10000); (fl 5210629957 10000)], (Some [AxStr "x"]));
  ([(fl 143 1000000); (PInt 1); (PInt 10); (PInt 1); (PInt 1); (fl 1 1); (fl 461 50000); (fl 473 100000); (fl 0 1); (fl 0 1); (fl 103 200000000000); (fl 0 1); (fl 320000000 1); (fl 200000000000 1); (fl 80000000000 1); (PInt 250000000); (fl 1 2); (fl 41184 1); (fl 433213879 2000000); (fl 2882631931 50000000); (fl 804931 5000); (fl 2882631931 50000000)], (Some [AxStr "x"]));
  ([(fl 143 1000000); (PInt 1); (PInt 10); (fl 1 2); (fl 1 2); (fl 1 2); (fl 461 50000); (fl 473 100000); (fl 0 1); (fl 0 1); (fl 103 200000000000); (fl 0 1); (fl 320000000 1); (fl 200000000000 1); (fl 80000000000 1); (PInt 250000000); (fl 1 2); (fl 41184 1); (fl 4225299329 5000000); (fl 455779493 2000000); (fl 6439447999 10000000); (fl 455779493 2000000)], (Some [AxStr "x"]));
  ([(fl 143 1000000); (PInt 1); (PInt 10); (fl 1 10); (fl 1 10); (fl 1 10); (fl 461 50000); (fl 473 100000); (fl 0 1); (fl 0 1); (fl 103 200000000000); (fl 0 1); (fl 320000000 1); (fl 200000000000 1); (fl 80000000000 1); (PInt 250000000); (fl 1 2); (fl 41184 1); (fl 1526094137 100000); (fl 201601993 40000); (fl 315157813 20000); (fl 201601993 40000)], (Some [AxStr "x"]));
  ([(fl 143 1000000); (PInt 1); (PInt 10); (fl 1 20); (fl 1 20); (fl 1 20); (fl 461 50000); (fl 473 100000); (fl 0 1); (fl 0 1); (fl 103 200000000000); (fl 0 1); (fl 320000000 1); (fl 200000000000 1); (fl 80000000000 1); (PInt 250000000); (fl 1 2); (fl 41184 1); (fl 379628323 12500); (fl 791401933 50000); (fl 179211191 6250); (fl 791401933 50000)], (Some [AxStr "x"]));
  ([(fl 143 1000000); (PInt 1); (PInt 10); (fl 1 100); (fl 1 100); (fl 1 100); (fl 461 50000); (fl 473 100000); (fl 0 1); (fl 0 1); (fl 103 200000000000); (fl 0 1); (fl 320000000 1); (fl 200000000000 1); (fl 80000000000 1); (PInt 250000000); (fl 1 2); (fl 41184 1); (fl 41184 1); (fl 1951644277 50000); (fl 3330181779 100000); (fl 3330181779 100000)], (Some [AxStr "x"]));
  ([(fl 251 10000); (PInt 1); (PInt 40); (PInt 1); (PInt 1); (fl 1 1); (fl 139 1000); (fl 893 10000); (fl 0 1); (fl 0 1); (fl 23 4000000); (fl 23 5000000); (fl 280000000 1); (fl 200000000000 1); (fl 80000000000 1); (PInt 250000000); (PInt 0); (fl 6325200 1); (fl 2533744759 5000); (fl 2158976733 10000); (fl 1003492469 2500); (fl 2158976733 10000)], (Some [AxStr "x"; AxStr "y"]));
  ([(fl 251 10000); (PInt 1); (PInt 40); (fl 1 2); (fl 1 2); (fl 1 2); (fl 139 1000); (fl 893 10000); (fl 0 1); (fl 0 1); (fl 23 4000000); (fl 23 5000000); (fl 280000000 1); (fl 200000000000 1); (fl 80000000000 1); (PInt 250000000); (PInt 0); (fl 6325200 1); (fl 1809137453 1000); (fl 2034617083 2500); (fl 1605587951 1000); (fl 2034617083 2500)], (Some [AxStr "x"; AxStr "y"]));
  ([(fl 251 10000); (PInt 1); (PInt 40); (fl 1 4); (fl 1 4); (fl 1 4); (fl 139 1000); (fl 893 10000); (fl 0 1); (fl 0 1); (fl 23 4000000); (fl 23 5000000); (fl 280000000 1); (fl 200000000000 1); (fl 80000000000 1); (PInt 250000000); (PInt 0); (fl 6325200 1); (fl 1118649997 250); (fl 677778719 250); (fl 3954025453 1000); (fl 677778719 250)], (Some [AxStr "x"; AxStr "y"]));
  ([(fl 251 10000); (PInt 1); (PInt 40); (fl 1 8); (fl 1 8); (fl 1 8); (fl 139 1000); (fl 893 10000); (fl 0 1); (fl 0 1); (fl 23 4000000); (fl 23 5000000); (fl 280000000 1); (fl 200000000000 1); (fl 80000000000 1); (PInt 250000000); (PInt 0); (fl 6325200 1); (fl 721578459 125); (fl 642643889 125); (fl 243839419 50); (fl 243839419 50)], (Some [AxStr "x"; AxStr "y"]));
  ([(fl 251 10000); (PInt 1); (PInt 40); (fl 1 40); (fl 1 40); (fl 1 40); (fl 139 1000); (fl 893 10000); (fl 0 1); (fl 0 1); (fl 23 4000000); (fl 23 5000000); (fl 280000000 1); (fl 200000000000 1); (fl 80000000000 1); (PInt 250000000); (PInt 0); (fl 6325200 1); (fl 6325200 1); (fl 6325200 1); (fl 533136041 100); (fl 533136041 100)], (Some [AxStr "x"; AxStr "y"]));
  ([(fl 703 100000); (PInt 1); (PInt 20); (PInt 1); (PInt 1); (fl 1 1); (fl 147 1000); (fl 19 625); (fl 567 10000); (fl 0 1); (fl 59 125000000); (fl 151 1000000000); (fl 280000000 1); (fl 200000000000 1); (fl 80000000000 1); (PInt 250000000); (fl 1 2); (fl 1771560 1); (fl 2580513523 5000); (fl 2840240111 100000); (fl 284762596 625); (fl 2840240111 100000)], (Some [AxStr "x"]));
  ([(fl 703 100000); (PInt 1); (PInt 20); (fl 1 2); (fl 1 2); (fl 1 2); (fl 147 1000); (fl 19 625); (fl 567 10000); (fl 0 1); (fl 59 125000000); (fl 151 1000000000); (fl 280000000 1); (fl 200000000000 1); (fl 80000000000 1); (PInt 250000000); (fl 1 2); (fl 1771560 1); (fl 590446653 500); (fl 1080799823 10000); (fl 1054588969 1250); (fl 1080799823 10000)], (Some [AxStr "x"]));
  ([(fl 703 100000); (PInt 1); (PInt 20); (fl 1 4); (fl 1 4); (fl 1 4); (fl 147 1000); (fl 19 625); (fl 567 10000); (fl 0 1); (fl 59 125000000); (fl 151 1000000000); (fl 280000000 1); (fl 200000000000 1); (fl 80000000000 1); (PInt 250000000); (fl 1 2); (fl 1771560 1); (fl 784777851 500); (fl 757425761 2000); (fl 4863995777 5000); (fl 757425761 2000)], (Some [AxStr "x"]));
  ([(fl 703 100000); (PInt 1); (PInt 20); (fl 1 20); (fl 1 20); (fl 1 20); (fl 147 1000); (fl 19 625); (fl 567 10000); (fl 0 1); (fl 59 125000000); (fl 151 1000000000); (fl 280000000 1); (fl 200000000000 1); (fl 80000000000 1); (PInt 250000000); (fl 1 2); (fl 1771560 1); (fl 1771560 1); (fl 395144417 250); (fl 1413144227 1000); (fl 1413144227 1000)], (Some [AxStr "x"]));
  ([(fl 703 100000); (PInt 1); (PInt 20); (fl 1 40); (fl 1 40); (fl 1 40); (fl 147 1000); (fl 19 625); (fl 567 10000); (fl 0 1); (fl 59 125000000); (fl 151 1000000000); (fl 280000000 1); (fl 200000000000 1); (fl 80000000000 1); (PInt 250000000); (fl 1 2); (fl 1771560 1); (fl 1771560 1); (fl 1736733133 1000); (fl 1479947157 1000); (fl 1479947157 1000)], (Some [AxStr "x"]));
  ([(fl 2 125); (fl 19 20); (PInt 40); (PInt 1); (PInt 1); (fl 1 1); (fl 249 1000); (fl 31 625); (fl 0 1); (fl 0 1); (fl 39 25000000); (fl 69 20000000); (fl 280000000 1); (fl 200000000000 1); (fl 80000000000 1); (PInt 250000000); (PInt 0); (fl 3830400 1); (fl 4730334831 5000); (fl 4346354761 100000); (fl 3900165833 5000); (fl 4346354761 100000)], (Some [AxStr "x"; AxStr "y"]));
  ([(fl 2 125); (fl 19 20); (PInt 40); (fl 1 2); (fl 1 2); (fl 1 2); (fl 249 1000); (fl 31 625); (fl 0 1); (fl 0 1); (fl 39 25000000); (fl 69 20000000); (fl 280000000 1); (fl 200000000000 1); (fl 80000000000 1); (PInt 250000000); (PInt 0); (fl 3830400 1); (fl 2530525993 1000); (fl 337035773 2000); (fl 1388456633 1000); (fl 337035773 2000)], (Some [AxStr "x"; AxStr "y"]));
  ([(fl 2 125); (fl 19 20); (PInt 40); (fl 1 4); (fl 1 4); (fl 1 4); (fl 249 1000); (fl 31 625); (fl 0 1); (fl 0 1); (fl 39 25000000); (fl 69 20000000); (fl 280000000 1); (fl 200000000000 1); (fl 80000000000 1); (PInt 250000000); (PInt 0); (fl 3830400 1); (fl 3443195209 1000); (fl 628168783 1000); (fl 347987581 200); (fl 628168783 1000)], (Some [AxStr "x"; AxStr "y"]));
  ([(fl 2 125); (fl 19 20); (PInt 40); (fl 1 8); (fl 1 8); (fl 1 8); (fl 249 1000); (fl 31 625); (fl 0 1); (fl 0 1); (fl 39 25000000); (fl 69 20000000); (fl 280000000 1); (fl 200000000000 1); (fl 80000000000 1); (PInt 250000000); (PInt 0); (fl 3830400 1); (fl 1868860309 500); (fl 985834589 500); (fl 480323407 200); (fl 985834589 500)], (Some [AxStr "x"; AxStr "y"]));
  ([(fl 2 125); (fl 19 20); (PInt 40); (fl 1 40); (fl 1 40); (fl 1 40); (fl 249 1000); (fl 31 625); (fl 0 1); (fl 0 1); (fl 39 25000000); (fl 69 20000000); (fl 280000000 1); (fl 200000000000 1); (fl 80000000000 1); (PInt 250000000); (PInt 0); (fl 3830400 1); (fl 3830400 1); (fl 3736634899 1000); (fl 3199583597 1000); (fl 3199583597 1000)], (Some [AxStr "x"; AxStr "y"]));
  ([(fl 377 500000); (PInt 1); (PInt 10); (PInt 1); (PInt 1); (fl 1 1); (fl 301 10000); (fl 63 5000); (fl 17 625); (fl 0 1); (fl 813 100000000000); (fl 53 500000000000); (fl 320000000 1); (fl 200000000000 1); (fl 80000000000 1); (PInt 250000000); (fl 1 2); (fl 217152 1); (fl 572776703 50000); (fl 264274177 125000); (fl 2226898171 250000); (fl 264274177 125000)], (Some [AxStr "x"]));
  ([(fl 377 500000); (PInt 1); (PInt 10); (fl 1 2); (fl 1 2); (fl 1 2); (fl 301 10000); (fl 63 5000); (fl 17 625); (fl 0 1); (fl 813 100000000000); (fl 53 500000000000); (fl 320000000 1); (fl 200000000000 1); (fl 80000000000 1); (PInt 250000000); (fl 1 2); (fl 217152 1); (fl 2036469919 50000); (fl 2038958447 250000); (fl 3394764573 100000); (fl 2038958447 250000)], (Some [AxStr "x"]));
  ([(fl 377 500000); (PInt 1); (PInt 10); (fl 1 10); (fl 1 10); (fl 1 10); (fl 301 10000); (fl 63 5000); (fl 17 625); (fl 0 1); (fl 813 100000000000); (fl 53 500000000000); (fl 320000000 1); (fl 200000000000 1); (fl 80000000000 1); (PInt 250000000); (fl 1 2); (fl 217152 1); (fl 952798109 5000); (fl 1189753561 10000); (fl 1438483979 10000); (fl 1189753561 10000)], (Some [AxStr "x"]));
  ([(fl 377 500000); (PInt 1); (PInt 10); (fl 1 20); (fl 1 20); (fl 1 20); (fl 301 10000); (fl 63 5000); (fl 17 625); (fl 0 1); (fl 813 100000000000); (fl 53 500000000000); (fl 320000000 1); (fl 200000000000 1); (fl 80000000000 1); (PInt 250000000); (fl 1 2); (fl 217152 1); (fl 2113754361 10000); (fl 454636633 2500); (fl 1619302357 10000); (fl 1619302357 10000)], (Some [AxStr "x"]));
  ([(fl 377 500000); (PInt 1); (PInt 10); (fl 1 100); (fl 1 100); (fl 1 100); (fl 301 10000); (fl 63 5000); (fl 17 625); (fl 0 1); (fl 813 100000000000); (fl 53 500000000000); (fl 320000000 1); (fl 200000000000 1); (fl 80000000000 1); (PInt 250000000); (fl 1 2); (fl 217152 1); (fl 217152 1); (fl 217152 1); (fl 114354617 625); (fl 114354617 625)], (Some [AxStr "x"]));
  ([(fl 11 1000); (PInt 1); (PInt 10); (PInt 1); (PInt 1); (fl 1 1); (fl 21 100); (fl 36979 1000000); (fl 0 1); (fl 1542850479 10000000000); (fl 9183880079 10000000000000000); (fl 4029 10000000000); (fl 300000000 1); (fl 200000000000 1); (fl 80000000000 1); (PInt 250000000); (fl 1 2); (fl 2970000 1); (fl 295148751 125); (fl 1226548931 5000); (fl 1807360629 10000); (fl 1807360629 10000)], (Some [AxStr "y"]));
  ([(fl 11 1000); (PInt 1); (PInt 10); (fl 1 2); (fl 1 2); (fl 1 2); (fl 21 100); (fl 36979 1000000); (fl 0 1); (fl 1542850479 10000000000); (fl 9183880079 10000000000000000); (fl 4029 10000000000); (fl 300000000 1); (fl 200000000000 1); (fl 80000000000 1); (PInt 250000000); (fl 1 2); (fl 2970000 1); (fl 347826064 125); (fl 1654863797 2000); (fl 2805065949 5000); (fl 2805065949 5000)], (Some [AxStr "y"]));
  ([(fl 11 1000); (PInt 1); (PInt 10); (fl 1 10); (fl 1 10); (fl 1 10); (fl 21 100); (fl 36979 1000000); (fl 0 1); (fl 1542850479 10000000000); (fl 9183880079 10000000000000000); (fl 4029 10000000000); (fl 300000000 1); (fl 200000000000 1); (fl 80000000000 1); (PInt 250000000); (fl 1 2); (fl 2970000 1); (fl 2970000 1); (fl 68233861 25); (fl 1107296321 500); (fl 1107296321 500)], (Some [AxStr "y"]));
  ([(fl 11 1000); (PInt 1); (PInt 10); (fl 1 20); (fl 1 20); (fl 1 20); (fl 21 100); (fl 36979 1000000); (fl 0 1); (fl 1542850479 10000000000); (fl 9183880079 10000000000000000); (fl 4029 10000000000); (fl 300000000 1); (fl 200000000000 1); (fl 80000000000 1); (PInt 250000000); (fl 1 2); (fl 2970000 1); (fl 2970000 1); (fl 368790027 125); (fl 2438822747 1000); (fl 2438822747 1000)], (Some [AxStr "y"]));
  ([(fl 13 1000); (PInt 1); (PInt 10); (PInt 1); (PInt 1); (fl 1 1); (fl 317750759 2500000000); (fl 45328083 1000000000); (fl 1103070403 50000000000); (fl 0 1); (fl 1584755619 1000000000000000); (fl 3063 100000000000); (fl 300000000 1); (fl 200000000000 1); (fl 80000000000 1); (PInt 250000000); (fl 1 2); (fl 3510000 1); (fl 400989951 200); (fl 4215946567 10000); (fl 495829371 250); (fl 4215946567 10000)], (Some [AxStr "x"]));
  ([(fl 13 1000); (PInt 1); (PInt 10); (fl 1 2); (fl 1 2); (fl 1 2); (fl 317750759 2500000000); (fl 45328083 1000000000); (fl 1103070403 50000000000); (fl 0 1); (fl 1584755619 1000000000000000); (fl 3063 100000000000); (fl 300000000 1); (fl 200000000000 1); (fl 80000000000 1); (PInt 250000000); (fl 1 2); (fl 3510000 1); (fl 2974934641 1000); (fl 664737619 500); (fl 1172898973 500); (fl 664737619 500)], (Some [AxStr "x"]));
  ([(fl 13 1000); (PInt 1); (PInt 10); (fl 1 10); (fl 1 10); (fl 1 10); (fl 317750759 2500000000); (fl 45328083 1000000000); (fl 1103070403 50000000000); (fl 0 1); (fl 1584755619 1000000000000000); (fl 3063 100000000000); (fl 300000000 1); (fl 200000000000 1); (fl 80000000000 1); (PInt 250000000); (fl 1 2); (fl 3510000 1); (fl 3510000 1); (fl 3322303429 1000); (fl 1267269959 500); (fl 1267269959 500)], (Some [AxStr "x"]));
  ([(fl 13 1000); (PInt 1); (PInt 10); (fl 1 20); (fl 1 20); (fl 1 20); (fl 317750759 2500000000); (fl 45328083 1000000000); (fl 1103070403 50000000000); (fl 0 1); (fl 1584755619 1000000000000000); (fl 3063 100000000000); (fl 300000000 1); (fl 200000000000 1); (fl 80000000000 1); (PInt 250000000); (fl 1 2); (fl 3510000 1); (fl 3510000 1); (fl 3510000 1); (fl 2746397779 1000); (fl 2746397779 1000)], (Some [AxStr "x"]))].
Example t28_ok : forallb (fun r => match r with ([a; k; l; kx; ky; kz; rx; ry; xo; yo; j; w; f; e; g; h; b; ns; nx; ny; nz; nc], s) => whole d5 (ns6_1_1_Nc tpow troots (mk_nsect a k rx ry xo yo j w f e g) l kx ky kz s h b (fl 85 100) (fl 9 10) true true) ns nx ny nz nc | _ => false end) t28 = true.
Proof. vm_compute. reflexivity. Qed.

(** tests/test_AS4100_7.py test_s_7_2_N_t_yield: 81 cases. *)
Definition t29 : list (list pynum) := [
  [(fl 31 5000); (fl 300000000 1); (fl 1860000 1)];
  [(fl 51 50000); (fl 320000000 1); (fl 326400 1)];
  [(fl 317 10000); (fl 280000000 1); (fl 8876000 1)];
  [(fl 317 10000); (fl 360000000 1); (fl 11412000 1)];
  [(fl 117 100000); (fl 320000000 1); (fl 374400 1)];
  [(fl 539 10000); (fl 280000000 1); (fl 15092000 1)];
  [(fl 23 10000); (fl 320000000 1); (fl 736000 1)];
  [(fl 11 5000); (fl 320000000 1); (fl 704000 1)];
  [(fl 11 4000); (fl 300000000 1); (fl 825000 1)];
  [(fl 579 10000); (fl 360000000 1); (fl 20844000 1)];
  [(fl 23 10000); (fl 320000000 1); (fl 736000 1)];
  [(fl 51 25000); (fl 320000000 1); (fl 652800 1)];
  [(fl 39 2500); (fl 280000000 1); (fl 4368000 1)];
  [(fl 279 100000); (fl 320000000 1); (fl 892800 1)];
  [(fl 21 100000); (fl 320000000 1); (fl 67200 1)];
  [(fl 511 100000); (fl 300000000 1); (fl 1533000 1)];
  [(fl 93 5000); (fl 280000000 1); (fl 5208000 1)];
  [(fl 59 10000); (fl 340000000 1); (fl 2006000 1)];
  [(fl 333 50000); (fl 300000000 1); (fl 1998000 1)];
  [(fl 333 50000); (fl 340000000 1); (fl 2264400 1)];
  [(fl 703 100000); (fl 280000000 1); (fl 1968400 1)];
  [(fl 401 100000); (fl 360000000 1); (fl 1443600 1)];
  [(fl 57 5000); (fl 340000000 1); (fl 3876000 1)];
  [(fl 223 500000); (fl 320000000 1); (fl 142720 1)];
  [(fl 263 1000000); (fl 320000000 1); (fl 84160 1)];
  [(fl 253 500000); (fl 320000000 1); (fl 161920 1)];
  [(fl 19 1000); (fl 340000000 1); (fl 6460000 1)];
  [(fl 101 10000); (fl 340000000 1); (fl 3434000 1)];
  [(fl 723 1000000); (fl 320000000 1); (fl 231360 1)];
  [(fl 3 200); (fl 280000000 1); (fl 4200000 1)];
  [(fl 329 500000); (fl 320000000 1); (fl 210560 1)];
  [(fl 7 400); (fl 280000000 1); (fl 4900000 1)];
  [(fl 377 500000); (fl 320000000 1); (fl 241280 1)];
  [(fl 251 10000); (fl 360000000 1); (fl 9036000 1)];
  [(fl 293 10000); (fl 280000000 1); (fl 8204000 1)];
  [(fl 27 20000); (fl 320000000 1); (fl 432000 1)];
  [(fl 87 25000); (fl 340000000 1); (fl 1183200 1)];
  [(fl 113 50000); (fl 340000000 1); (fl 768400 1)];
  [(fl 3 2000); (fl 360000000 1); (fl 540000 1)];
  [(fl 23 10000); (fl 360000000 1); (fl 828000 1)];
  [(fl 23 10000); (fl 360000000 1); (fl 828000 1)];
  [(fl 71 20000); (fl 340000000 1); (fl 1207000 1)];
  [(fl 91 50000); (fl 360000000 1); (fl 655200 1)];
  [(fl 133 50000); (fl 340000000 1); (fl 904400 1)];
  [(fl 73 25000); (fl 340000000 1); (fl 992800 1)];
  [(fl 357 10000); (fl 280000000 1); (fl 9996000 1)];
  [(fl 23 1000); (fl 300000000 1); (fl 6900000 1)];
  [(fl 113 25000); (fl 340000000 1); (fl 1536800 1)];
  [(fl 193 5000); (fl 280000000 1); (fl 10808000 1)];
  [(fl 23 500); (fl 360000000 1); (fl 16560000 1)];
  [(fl 143 1000000); (fl 360000000 1); (fl 51480 1)];
  [(fl 4 15625); (fl 360000000 1); (fl 92160 1)];
  [(fl 163 500000); (fl 360000000 1); (fl 117360 1)];
  [(fl 191 25000); (fl 340000000 1); (fl 2597600 1)];
  [(fl 17 500); (fl 280000000 1); (fl 9520000 1)];
  [(fl 223 500000); (fl 360000000 1); (fl 160560 1)];
  [(fl 37 1000); (fl 280000000 1); (fl 10360000 1)];
  [(fl 263 1000000); (fl 360000000 1); (fl 94680 1)];
  [(fl 253 500000); (fl 360000000 1); (fl 182160 1)];
  [(fl 59 200000); (fl 360000000 1); (fl 106200 1)];
  [(fl 489 1000000); (fl 360000000 1); (fl 176040 1)];
  [(fl 27 625); (fl 360000000 1); (fl 15552000 1)];
  [(fl 329 500000); (fl 360000000 1); (fl 236880 1)];
  [(fl 21 25000); (fl 360000000 1); (fl 302400 1)];
  [(fl 23 20000); (fl 360000000 1); (fl 414000 1)];
  [(fl 957 1000000); (fl 360000000 1); (fl 344520 1)];
  [(fl 921 1000000); (fl 360000000 1); (fl 331560 1)];
  [(fl 21 20000); (fl 360000000 1); (fl 378000 1)];
  [(fl 27 20000); (fl 360000000 1); (fl 486000 1)];
  [(fl 33 625); (fl 360000000 1); (fl 19008000 1)];
  [(fl 2 125); (fl 280000000 1); (fl 4480000 1)];
  [(fl 2 125); (fl 340000000 1); (fl 5440000 1)];
  [(fl 73 5000); (fl 300000000 1); (fl 4380000 1)];
  [(fl 73 5000); (fl 380000000 1); (fl 5548000 1)];
  [(fl 83 5000); (fl 380000000 1); (fl 6308000 1)];
  [(fl 191 10000); (fl 360000000 1); (fl 6876000 1)];
  [(fl 39 2500); (fl 300000000 1); (fl 4680000 1)];
  [(fl 139 5000); (fl 360000000 1); (fl 10008000 1)];
  [(fl 327 10000); (fl 280000000 1); (fl 9156000 1)];
  [(fl 11 1000); (fl 300000000 1); (fl 3300000 1)];
  [(fl 13 1000); (fl 300000000 1); (fl 3900000 1)]].
Example t29_ok : forallb (fun r => match r with [a; f; x] => is d4 (ns7_2_N_t_yield a f) x | _ => false end) t29 = true.
Proof. vm_compute. reflexivity. Qed.

(** tests/test_AS4100_7.py test_s_7_2_Ag: 81 cases. *)
Definition t30 : list (list pynum) := [
  [(fl 13191000 1); (fl 300000000 1); (fl 43969 1000000)];
  [(fl 83582000 1); (fl 320000000 1); (fl 26119 100000)];
  [(fl 46018000 1); (fl 280000000 1); (fl 3287 20000)];
  [(fl 7345000 1); (fl 360000000 1); (fl 20403 1000000)];
  [(fl 95848000 1); (fl 320000000 1); (fl 936 3125)];
  [(fl 87720000 1); (fl 280000000 1); (fl 979 3125)];
  [(fl 21216000 1); (fl 320000000 1); (fl 66301 1000000)];
  [(fl 4590600 1); (fl 320000000 1); (fl 7173 500000)];
  [(fl 80520000 1); (fl 300000000 1); (fl 671 2500)];
  [(fl 69149000 1); (fl 360000000 1); (fl 2401 12500)];
  [(fl 70874000 1); (fl 320000000 1); (fl 5537 25000)];
  [(fl 68051000 1); (fl 320000000 1); (fl 10633 50000)];
  [(fl 85261000 1); (fl 280000000 1); (fl 609 2000)];
  [(fl 53045000 1); (fl 320000000 1); (fl 16577 100000)];
  [(fl 2679200 1); (fl 320000000 1); (fl 20931 2500000)];
  [(fl 67893000 1); (fl 300000000 1); (fl 22631 100000)];
  [(fl 82003000 1); (fl 280000000 1); (fl 29287 100000)];
  [(fl 22734000 1); (fl 340000000 1); (fl 4179 62500)];
  [(fl 13699000 1); (fl 300000000 1); (fl 1427 31250)];
  [(fl 50739000 1); (fl 340000000 1); (fl 14923 100000)];
  [(fl 75123000 1); (fl 280000000 1); (fl 2683 10000)];
  [(fl 62957000 1); (fl 360000000 1); (fl 1093 6250)];
  [(fl 50145000 1); (fl 340000000 1); (fl 14749 100000)];
  [(fl 24943000 1); (fl 320000000 1); (fl 38973 500000)];
  [(fl 21384000 1); (fl 320000000 1); (fl 8353 125000)];
  [(fl 59801000 1); (fl 320000000 1); (fl 584 3125)];
  [(fl 44651000 1); (fl 340000000 1); (fl 13133 100000)];
  [(fl 27659000 1); (fl 340000000 1); (fl 81349 1000000)];
  [(fl 58245000 1); (fl 320000000 1); (fl 9101 50000)];
  [(fl 90376000 1); (fl 280000000 1); (fl 32277 100000)];
  [(fl 7089900 1); (fl 320000000 1); (fl 5539 250000)];
  [(fl 52320000 1); (fl 280000000 1); (fl 9343 50000)];
  [(fl 83850000 1); (fl 320000000 1); (fl 26203 100000)];
  [(fl 19274000 1); (fl 360000000 1); (fl 2677 50000)];
  [(fl 19794000 1); (fl 280000000 1); (fl 70693 1000000)];
  [(fl 65242000 1); (fl 320000000 1); (fl 5097 25000)];
  [(fl 55099000 1); (fl 340000000 1); (fl 8103 50000)];
  [(fl 28284000 1); (fl 340000000 1); (fl 20797 250000)];
  [(fl 17653000 1); (fl 360000000 1); (fl 49037 1000000)];
  [(fl 13954000 1); (fl 360000000 1); (fl 38761 1000000)];
  [(fl 78713000 1); (fl 360000000 1); (fl 4373 20000)];
  [(fl 54069000 1); (fl 340000000 1); (fl 15903 100000)];
  [(fl 7223300 1); (fl 360000000 1); (fl 4013 200000)];
  [(fl 69659000 1); (fl 340000000 1); (fl 2561 12500)];
  [(fl 88965000 1); (fl 340000000 1); (fl 13083 50000)];
  [(fl 21902000 1); (fl 280000000 1); (fl 78221 1000000)];
  [(fl 61541000 1); (fl 300000000 1); (fl 10257 50000)];
  [(fl 80159000 1); (fl 340000000 1); (fl 2947 12500)];
  [(fl 23130000 1); (fl 280000000 1); (fl 5163 62500)];
  [(fl 63143000 1); (fl 360000000 1); (fl 877 5000)];
  [(fl 42660000 1); (fl 360000000 1); (fl 237 2000)];
  [(fl 32691000 1); (fl 360000000 1); (fl 11351 125000)];
  [(fl 43230000 1); (fl 360000000 1); (fl 1501 12500)];
  [(fl 54363000 1); (fl 340000000 1); (fl 15989 100000)];
  [(fl 92368000 1); (fl 280000000 1); (fl 32989 100000)];
  [(fl 80999000 1); (fl 360000000 1); (fl 9 40)];
  [(fl 92070000 1); (fl 280000000 1); (fl 16441 50000)];
  [(fl 44452000 1); (fl 360000000 1); (fl 3087 25000)];
  [(fl 92600000 1); (fl 360000000 1); (fl 12861 50000)];
  [(fl 48561000 1); (fl 360000000 1); (fl 13489 100000)];
  [(fl 15419000 1); (fl 360000000 1); (fl 2677 62500)];
  [(fl 20879000 1); (fl 360000000 1); (fl 14499 250000)];
  [(fl 10682000 1); (fl 360000000 1); (fl 3709 125000)];
  [(fl 17346000 1); (fl 360000000 1); (fl 24091 500000)];
  [(fl 55065000 1); (fl 360000000 1); (fl 478 3125)];
  [(fl 84534000 1); (fl 360000000 1); (fl 11741 50000)];
  [(fl 30406 1); (fl 360000000 1); (fl 84461 1000000000)];
  [(fl 50311000 1); (fl 360000000 1); (fl 559 4000)];
  [(fl 19320000 1); (fl 360000000 1); (fl 13417 250000)];
  [(fl 14486000 1); (fl 360000000 1); (fl 20119 500000)];
  [(fl 31642000 1); (fl 280000000 1); (fl 11301 100000)];
  [(fl 67732000 1); (fl 340000000 1); (fl 19921 100000)];
  [(fl 31865000 1); (fl 300000000 1); (fl 5311 50000)];
  [(fl 35200000 1); (fl 380000000 1); (fl 11579 125000)];
  [(fl 54068000 1); (fl 380000000 1); (fl 14229 100000)];
  [(fl 5198800 1); (fl 360000000 1); (fl 14441 1000000)];
  [(fl 93418000 1); (fl 300000000 1); (fl 31139 100000)];
  [(fl 83923000 1); (fl 360000000 1); (fl 1457 6250)];
  [(fl 27601000 1); (fl 280000000 1); (fl 3943 40000)];
  [(fl 49255000 1); (fl 300000000 1); (fl 8209 50000)];
  [(fl 17400000 1); (fl 300000000 1); (fl 57999 1000000)]].
Example t30_ok : forallb (fun r => match r with [n; f; x] => ok d4 (ns7_2_Ag n f) x | _ => false end) t30 = true.
Proof. vm_compute. reflexivity. Qed.

(** tests/test_AS4100_7.py test_s_7_2_N_t_ultimate: 81 cases. *)
Definition t31 : list (list pynum) := [
  [(fl 28499 5000000); (fl 17 20); (fl 440000000 1); (fl 17 20); (fl 1812000 1)];
  [(fl 5797 6250000); (fl 3 4); (fl 440000000 1); (fl 17 20); (fl 260170 1)];
  [(fl 31153 1000000); (fl 1 1); (fl 430000000 1); (fl 17 20); (fl 11386000 1)];
  [(fl 31461 1000000); (fl 1 1); (fl 480000000 1); (fl 17 20); (fl 12836000 1)];
  [(fl 357 312500); (fl 17 20); (fl 440000000 1); (fl 17 20); (fl 363160 1)];
  [(fl 6421 125000); (fl 1 1); (fl 430000000 1); (fl 17 20); (fl 18775000 1)];
  [(fl 5181 2500000); (fl 17 20); (fl 440000000 1); (fl 17 20); (fl 658800 1)];
  [(fl 21847 10000000); (fl 3 4); (fl 440000000 1); (fl 17 20); (fl 612810 1)];
  [(fl 24751 10000000); (fl 3 4); (fl 440000000 1); (fl 17 20); (fl 694260 1)];
  [(fl 14459 250000); (fl 1 1); (fl 480000000 1); (fl 17 20); (fl 23597000 1)];
  [(fl 4383 2000000); (fl 1 1); (fl 440000000 1); (fl 17 20); (fl 819620 1)];
  [(fl 9793 5000000); (fl 1 1); (fl 440000000 1); (fl 17 20); (fl 732520 1)];
  [(fl 7283 500000); (fl 1 1); (fl 440000000 1); (fl 17 20); (fl 5447600 1)];
  [(fl 5553 2000000); (fl 17 20); (fl 440000000 1); (fl 17 20); (fl 882650 1)];
  [(fl 157 800000); (fl 17 20); (fl 440000000 1); (fl 17 20); (fl 62388 1)];
  [(fl 23263 5000000); (fl 17 20); (fl 440000000 1); (fl 17 20); (fl 1479100 1)];
  [(fl 17581 1000000); (fl 1 1); (fl 440000000 1); (fl 17 20); (fl 6575400 1)];
  [(fl 29193 5000000); (fl 1 1); (fl 480000000 1); (fl 17 20); (fl 2382200 1)];
  [(fl 2433 400000); (fl 1 1); (fl 440000000 1); (fl 17 20); (fl 2274800 1)];
  [(fl 2031 312500); (fl 1 1); (fl 480000000 1); (fl 17 20); (fl 2651700 1)];
  [(fl 32323 5000000); (fl 1 1); (fl 440000000 1); (fl 17 20); (fl 2417800 1)];
  [(fl 39247 10000000); (fl 1 1); (fl 480000000 1); (fl 17 20); (fl 1601300 1)];
  [(fl 10777 1000000); (fl 1 1); (fl 480000000 1); (fl 17 20); (fl 4397000 1)];
  [(fl 8167 20000000); (fl 17 20); (fl 440000000 1); (fl 17 20); (fl 129820 1)];
  [(fl 24077 100000000); (fl 17 20); (fl 440000000 1); (fl 17 20); (fl 76540 1)];
  [(fl 23787 50000000); (fl 17 20); (fl 440000000 1); (fl 17 20); (fl 151240 1)];
  [(fl 18417 1000000); (fl 1 1); (fl 480000000 1); (fl 17 20); (fl 7514100 1)];
  [(fl 93399 10000000); (fl 1 1); (fl 480000000 1); (fl 17 20); (fl 3810700 1)];
  [(fl 68943 100000000); (fl 17 20); (fl 440000000 1); (fl 17 20); (fl 219170 1)];
  [(fl 1473 100000); (fl 1 1); (fl 440000000 1); (fl 17 20); (fl 5509100 1)];
  [(fl 60023 100000000); (fl 3 4); (fl 440000000 1); (fl 17 20); (fl 168360 1)];
  [(fl 3499 200000); (fl 1 1); (fl 440000000 1); (fl 17 20); (fl 6543000 1)];
  [(fl 18093 25000000); (fl 17 20); (fl 440000000 1); (fl 17 20); (fl 230070 1)];
  [(fl 4703 200000); (fl 1 1); (fl 480000000 1); (fl 17 20); (fl 9594000 1)];
  [(fl 26713 1000000); (fl 1 1); (fl 430000000 1); (fl 17 20); (fl 9763700 1)];
  [(fl 3071 2500000); (fl 17 20); (fl 440000000 1); (fl 17 20); (fl 390500 1)];
  [(fl 8613 2500000); (fl 17 20); (fl 480000000 1); (fl 17 20); (fl 1194800 1)];
  [(fl 10599 5000000); (fl 3 4); (fl 480000000 1); (fl 17 20); (fl 648650 1)];
  [(fl 13533 10000000); (fl 3 4); (fl 480000000 1); (fl 17 20); (fl 414100 1)];
  [(fl 5363 2500000); (fl 3 4); (fl 480000000 1); (fl 17 20); (fl 656420 1)];
  [(fl 21677 10000000); (fl 17 20); (fl 480000000 1); (fl 17 20); (fl 751750 1)];
  [(fl 17153 5000000); (fl 3 4); (fl 480000000 1); (fl 17 20); (fl 1049800 1)];
  [(fl 1703 1000000); (fl 3 4); (fl 480000000 1); (fl 17 20); (fl 521120 1)];
  [(fl 4971 2000000); (fl 1 1); (fl 480000000 1); (fl 17 20); (fl 1014100 1)];
  [(fl 29137 10000000); (fl 17 20); (fl 480000000 1); (fl 17 20); (fl 1010500 1)];
  [(fl 35123 1000000); (fl 1 1); (fl 430000000 1); (fl 17 20); (fl 12838000 1)];
  [(fl 2269 100000); (fl 1 1); (fl 430000000 1); (fl 17 20); (fl 8293200 1)];
  [(fl 10557 2500000); (fl 1 1); (fl 480000000 1); (fl 17 20); (fl 1722900 1)];
  [(fl 7027 200000); (fl 1 1); (fl 430000000 1); (fl 17 20); (fl 12842000 1)];
  [(fl 22251 500000); (fl 1 1); (fl 480000000 1); (fl 17 20); (fl 18157000 1)];
  [(fl 137 1000000); (fl 17 20); (fl 480000000 1); (fl 17 20); (fl 47510 1)];
  [(fl 5979 25000000); (fl 17 20); (fl 480000000 1); (fl 17 20); (fl 82941 1)];
  [(fl 32077 100000000); (fl 17 20); (fl 480000000 1); (fl 17 20); (fl 111240 1)];
  [(fl 75493 10000000); (fl 1 1); (fl 480000000 1); (fl 17 20); (fl 3080100 1)];
  [(fl 16441 500000); (fl 1 1); (fl 430000000 1); (fl 17 20); (fl 12018000 1)];
  [(fl 40213 100000000); (fl 17 20); (fl 480000000 1); (fl 17 20); (fl 139460 1)];
  [(fl 16829 500000); (fl 1 1); (fl 430000000 1); (fl 17 20); (fl 12302000 1)];
  [(fl 6193 25000000); (fl 17 20); (fl 480000000 1); (fl 17 20); (fl 85910 1)];
  [(fl 9637 20000000); (fl 17 20); (fl 480000000 1); (fl 17 20); (fl 167110 1)];
  [(fl 7123 25000000); (fl 17 20); (fl 480000000 1); (fl 17 20); (fl 98809 1)];
  [(fl 4591 10000000); (fl 17 20); (fl 480000000 1); (fl 17 20); (fl 159210 1)];
  [(fl 21347 500000); (fl 1 1); (fl 480000000 1); (fl 17 20); (fl 17419000 1)];
  [(fl 62059 100000000); (fl 3 4); (fl 480000000 1); (fl 17 20); (fl 189900 1)];
  [(fl 15463 20000000); (fl 3 4); (fl 480000000 1); (fl 17 20); (fl 236580 1)];
  [(fl 5219 5000000); (fl 17 20); (fl 480000000 1); (fl 17 20); (fl 361980 1)];
  [(fl 3461 4000000); (fl 17 20); (fl 480000000 1); (fl 17 20); (fl 300070 1)];
  [(fl 20953 25000000); (fl 3 4); (fl 480000000 1); (fl 17 20); (fl 256470 1)];
  [(fl 48931 50000000); (fl 17 20); (fl 480000000 1); (fl 17 20); (fl 339380 1)];
  [(fl 3247 2500000); (fl 17 20); (fl 480000000 1); (fl 17 20); (fl 450420 1)];
  [(fl 4871 100000); (fl 1 1); (fl 480000000 1); (fl 17 20); (fl 19874000 1)];
  [(fl 3741 250000); (fl 1 1); (fl 440000000 1); (fl 17 20); (fl 5596500 1)];
  [(fl 399 25000); (fl 1 1); (fl 480000000 1); (fl 17 20); (fl 6511600 1)];
  [(fl 14051 1000000); (fl 1 1); (fl 430000000 1); (fl 17 20); (fl 5135500 1)];
  [(fl 2787 200000); (fl 1 1); (fl 480000000 1); (fl 17 20); (fl 5685500 1)];
  [(fl 3037 200000); (fl 1 1); (fl 480000000 1); (fl 17 20); (fl 6195400 1)];
  [(fl 18303 1000000); (fl 1 1); (fl 480000000 1); (fl 17 20); (fl 7467800 1)];
  [(fl 123 8000); (fl 1 1); (fl 430000000 1); (fl 17 20); (fl 5619600 1)];
  [(fl 1057 40000); (fl 1 1); (fl 480000000 1); (fl 17 20); (fl 10781000 1)];
  [(fl 15081 500000); (fl 1 1); (fl 430000000 1); (fl 17 20); (fl 11024000 1)];
  [(fl 10031 1000000); (fl 1 1); (fl 430000000 1); (fl 17 20); (fl 3666200 1)];
  [(fl 11981 1000000); (fl 1 1); (fl 430000000 1); (fl 17 20); (fl 4379200 1)]].
Example t31_ok : forallb (fun r => match r with [a; k; f; u; x] => is d4 (ns7_2_N_t_ultimate a f k u) x | _ => false end) t31 = true.
Proof. vm_compute. reflexivity. Qed.

(** tests/test_AS4100_7.py test_s7_2_An: 81 cases. *)
Definition t32 : list (list pynum) := [
  [(fl 17613000 1); (fl 17 20); (fl 440000000 1); (fl 17 20); (fl 55403 1000000)];
  [(fl 28600000 1); (fl 3 4); (fl 440000000 1); (fl 17 20); (fl 2549 25000)];
  [(fl 93857000 1); (fl 1 1); (fl 430000000 1); (fl 17 20); (fl 25679 100000)];
  [(fl 44896000 1); (fl 1 1); (fl 480000000 1); (fl 17 20); (fl 2751 25000)];
  [(fl 72065000 1); (fl 17 20); (fl 440000000 1); (fl 17 20); (fl 22669 100000)];
  [(fl 90972000 1); (fl 1 1); (fl 430000000 1); (fl 17 20); (fl 2489 10000)];
  [(fl 14775000 1); (fl 17 20); (fl 440000000 1); (fl 17 20); (fl 23239 500000)];
  [(fl 66052000 1); (fl 3 4); (fl 440000000 1); (fl 17 20); (fl 5887 25000)];
  [(fl 55121000 1); (fl 3 4); (fl 440000000 1); (fl 17 20); (fl 19651 100000)];
  [(fl 89543000 1); (fl 1 1); (fl 480000000 1); (fl 17 20); (fl 21947 100000)];
  [(fl 56491000 1); (fl 1 1); (fl 440000000 1); (fl 17 20); (fl 3021 20000)];
  [(fl 10425000 1); (fl 1 1); (fl 440000000 1); (fl 17 20); (fl 13937 500000)];
  [(fl 82686000 1); (fl 1 1); (fl 440000000 1); (fl 17 20); (fl 5527 25000)];
  [(fl 93053000 1); (fl 17 20); (fl 440000000 1); (fl 17 20); (fl 29271 100000)];
  [(fl 41959000 1); (fl 17 20); (fl 440000000 1); (fl 17 20); (fl 13199 100000)];
  [(fl 31521000 1); (fl 17 20); (fl 440000000 1); (fl 17 20); (fl 99153 1000000)];
  [(fl 52393000 1); (fl 1 1); (fl 440000000 1); (fl 17 20); (fl 14009 100000)];
  [(fl 94061000 1); (fl 1 1); (fl 480000000 1); (fl 17 20); (fl 11527 50000)];
  [(fl 85550000 1); (fl 1 1); (fl 440000000 1); (fl 17 20); (fl 11437 50000)];
  [(fl 16767000 1); (fl 1 1); (fl 480000000 1); (fl 17 20); (fl 41097 1000000)];
  [(fl 3980100 1); (fl 1 1); (fl 440000000 1); (fl 17 20); (fl 5321 500000)];
  [(fl 15151000 1); (fl 1 1); (fl 480000000 1); (fl 17 20); (fl 18567 500000)];
  [(fl 62579000 1); (fl 1 1); (fl 480000000 1); (fl 17 20); (fl 7669 50000)];
  [(fl 60992000 1); (fl 17 20); (fl 440000000 1); (fl 17 20); (fl 9593 50000)];
  [(fl 82825000 1); (fl 17 20); (fl 440000000 1); (fl 17 20); (fl 13027 50000)];
  [(fl 97674000 1); (fl 17 20); (fl 440000000 1); (fl 17 20); (fl 1229 4000)];
  [(fl 57936000 1); (fl 1 1); (fl 480000000 1); (fl 17 20); (fl 71 500)];
  [(fl 54954000 1); (fl 1 1); (fl 480000000 1); (fl 17 20); (fl 13469 100000)];
  [(fl 60548000 1); (fl 17 20); (fl 440000000 1); (fl 17 20); (fl 9523 50000)];
  [(fl 91749000 1); (fl 1 1); (fl 440000000 1); (fl 17 20); (fl 6133 25000)];
  [(fl 56339000 1); (fl 3 4); (fl 440000000 1); (fl 17 20); (fl 4017 20000)];
  [(fl 35131000 1); (fl 1 1); (fl 440000000 1); (fl 17 20); (fl 46967 500000)];
  [(fl 25081000 1); (fl 17 20); (fl 440000000 1); (fl 17 20); (fl 15779 200000)];
  [(fl 50686000 1); (fl 1 1); (fl 480000000 1); (fl 17 20); (fl 12423 100000)];
  [(fl 34886000 1); (fl 1 1); (fl 430000000 1); (fl 17 20); (fl 47723 500000)];
  [(fl 39763000 1); (fl 17 20); (fl 440000000 1); (fl 17 20); (fl 3127 25000)];
  [(fl 52969000 1); (fl 17 20); (fl 480000000 1); (fl 17 20); (fl 7637 50000)];
  [(fl 12430000 1); (fl 3 4); (fl 480000000 1); (fl 17 20); (fl 40623 1000000)];
  [(fl 4180700 1); (fl 3 4); (fl 480000000 1); (fl 17 20); (fl 6831 500000)];
  [(fl 87540000 1); (fl 3 4); (fl 480000000 1); (fl 17 20); (fl 894 3125)];
  [(fl 81913000 1); (fl 17 20); (fl 480000000 1); (fl 17 20); (fl 1181 5000)];
  [(fl 74723000 1); (fl 3 4); (fl 480000000 1); (fl 17 20); (fl 24419 100000)];
  [(fl 41143000 1); (fl 3 4); (fl 480000000 1); (fl 17 20); (fl 6723 50000)];
  [(fl 52960000 1); (fl 1 1); (fl 480000000 1); (fl 17 20); (fl 649 5000)];
  [(fl 37325000 1); (fl 17 20); (fl 480000000 1); (fl 17 20); (fl 10763 100000)];
  [(fl 76040000 1); (fl 1 1); (fl 430000000 1); (fl 17 20); (fl 5201 25000)];
  [(fl 901650 1); (fl 1 1); (fl 430000000 1); (fl 17 20); (fl 24669 10000000)];
  [(fl 97281000 1); (fl 1 1); (fl 480000000 1); (fl 17 20); (fl 23843 100000)];
  [(fl 111460 1); (fl 1 1); (fl 430000000 1); (fl 17 20); (fl 6099 20000000)];
  [(fl 7872300 1); (fl 1 1); (fl 480000000 1); (fl 17 20); (fl 3859 200000)];
  [(fl 47939000 1); (fl 17 20); (fl 480000000 1); (fl 17 20); (fl 13823 100000)];
  [(fl 33217000 1); (fl 17 20); (fl 480000000 1); (fl 17 20); (fl 4789 50000)];
  [(fl 29002000 1); (fl 17 20); (fl 480000000 1); (fl 17 20); (fl 20907 250000)];
  [(fl 11072000 1); (fl 1 1); (fl 480000000 1); (fl 17 20); (fl 27137 1000000)];
  [(fl 83104000 1); (fl 1 1); (fl 430000000 1); (fl 17 20); (fl 22737 100000)];
  [(fl 59847000 1); (fl 17 20); (fl 480000000 1); (fl 17 20); (fl 17257 100000)];
  [(fl 83911000 1); (fl 1 1); (fl 430000000 1); (fl 17 20); (fl 11479 50000)];
  [(fl 66635000 1); (fl 17 20); (fl 480000000 1); (fl 17 20); (fl 9607 50000)];
  [(fl 92777000 1); (fl 17 20); (fl 480000000 1); (fl 17 20); (fl 836 3125)];
  [(fl 78346000 1); (fl 17 20); (fl 480000000 1); (fl 17 20); (fl 22591 100000)];
  [(fl 2137800 1); (fl 17 20); (fl 480000000 1); (fl 17 20); (fl 15411 2500000)];
  [(fl 14271000 1); (fl 1 1); (fl 480000000 1); (fl 17 20); (fl 34977 1000000)];
  [(fl 22024000 1); (fl 3 4); (fl 480000000 1); (fl 17 20); (fl 71973 1000000)];
  [(fl 66159000 1); (fl 3 4); (fl 480000000 1); (fl 17 20); (fl 21621 100000)];
  [(fl 12612000 1); (fl 17 20); (fl 480000000 1); (fl 17 20); (fl 2273 62500)];
  [(fl 58950000 1); (fl 17 20); (fl 480000000 1); (fl 17 20); (fl 8499 50000)];
  [(fl 31517000 1); (fl 3 4); (fl 480000000 1); (fl 17 20); (fl 103 1000)];
  [(fl 47056000 1); (fl 17 20); (fl 480000000 1); (fl 17 20); (fl 13569 100000)];
  [(fl 87609000 1); (fl 17 20); (fl 480000000 1); (fl 17 20); (fl 12631 50000)];
  [(fl 68011000 1); (fl 1 1); (fl 480000000 1); (fl 17 20); (fl 16669 100000)];
  [(fl 62368000 1); (fl 1 1); (fl 440000000 1); (fl 17 20); (fl 4169 25000)];
  [(fl 93457000 1); (fl 1 1); (fl 480000000 1); (fl 17 20); (fl 11453 50000)];
  [(fl 22272000 1); (fl 1 1); (fl 430000000 1); (fl 17 20); (fl 60937 1000000)];
  [(fl 13364000 1); (fl 1 1); (fl 480000000 1); (fl 17 20); (fl 6551 200000)];
  [(fl 12258000 1); (fl 1 1); (fl 480000000 1); (fl 17 20); (fl 7511 250000)];
  [(fl 28642000 1); (fl 1 1); (fl 480000000 1); (fl 17 20); (fl 351 5000)];
  [(fl 15632000 1); (fl 1 1); (fl 430000000 1); (fl 17 20); (fl 2673 62500)];
  [(fl 96564000 1); (fl 1 1); (fl 480000000 1); (fl 17 20); (fl 5917 25000)];
  [(fl 16424000 1); (fl 1 1); (fl 430000000 1); (fl 17 20); (fl 5617 125000)];
  [(fl 33694000 1); (fl 1 1); (fl 430000000 1); (fl 17 20); (fl 92187 1000000)];
  [(fl 7183500 1); (fl 1 1); (fl 430000000 1); (fl 17 20); (fl 9827 500000)]].
Example t32_ok : forallb (fun r => match r with [n; k; f; u; x] => ok d4 (ns7_2_An n f k u) x | _ => false end) t32 = true.
Proof. vm_compute. reflexivity. Qed.

(** tests/test_AS4100_7.py test_s7_1_Tension_Capacity: 81 cases. *)
Definition t33 : list (list pynum) := [
  [(fl 31 5000); (fl 30813 5000000); (fl 17 20); (fl 300000000 1); (fl 440000000 1); (fl 17 20); (fl 9 10); (fl 1860000 1); (fl 1674000 1); (fl 1959090 1); (fl 1763180 1); (fl 1860000 1); (fl 1674000 1)];
  [(fl 51 50000); (fl 499413 500000000); (fl 3 4); (fl 320000000 1); (fl 440000000 1); (fl 17 20); (fl 9 10); (fl 326400 1); (fl 293760 1); (fl 280171 1); (fl 252154 1); (fl 280171 1); (fl 252154 1)];
  [(fl 317 10000); (fl 151609 5000000); (fl 1 1); (fl 280000000 1); (fl 430000000 1); (fl 17 20); (fl 9 10); (fl 8876000 1); (fl 7988400 1); (fl 11082600 1); (fl 9974350 1); (fl 8876000 1); (fl 7988400 1)];
  [(fl 317 10000); (fl 304411 10000000); (fl 1 1); (fl 360000000 1); (fl 480000000 1); (fl 17 20); (fl 9 10); (fl 11412000 1); (fl 10270800 1); (fl 12420000 1); (fl 11178000 1); (fl 11412000 1); (fl 10270800 1)];
  [(fl 117 100000); (fl 27697 25000000); (fl 17 20); (fl 320000000 1); (fl 440000000 1); (fl 17 20); (fl 9 10); (fl 374400 1); (fl 336960 1); (fl 352196 1); (fl 316977 1); (fl 352196 1); (fl 316977 1)];
  [(fl 539 10000); (fl 502991 10000000); (fl 1 1); (fl 280000000 1); (fl 430000000 1); (fl 17 20); (fl 9 10); (fl 15092000 1); (fl 13582800 1); (fl 18384300 1); (fl 16545900 1); (fl 15092000 1); (fl 13582800 1)];
  [(fl 23 10000); (fl 110679 50000000); (fl 17 20); (fl 320000000 1); (fl 440000000 1); (fl 17 20); (fl 9 10); (fl 736000 1); (fl 662400 1); (fl 703697 1); (fl 633327 1); (fl 703697 1); (fl 633327 1)];
  [(fl 11 5000); (fl 103439 50000000); (fl 3 4); (fl 320000000 1); (fl 440000000 1); (fl 17 20); (fl 9 10); (fl 704000 1); (fl 633600 1); (fl 580292 1); (fl 522263 1); (fl 580292 1); (fl 522263 1)];
  [(fl 11 4000); (fl 31593 12500000); (fl 3 4); (fl 300000000 1); (fl 440000000 1); (fl 17 20); (fl 9 10); (fl 825000 1); (fl 742500 1); (fl 708946 1); (fl 638051 1); (fl 708946 1); (fl 638051 1)];
  [(fl 579 10000); (fl 282651 5000000); (fl 1 1); (fl 360000000 1); (fl 480000000 1); (fl 17 20); (fl 9 10); (fl 20844000 1); (fl 18759600 1); (fl 23064300 1); (fl 20757900 1); (fl 20844000 1); (fl 18759600 1)];
  [(fl 23 10000); (fl 216477 100000000); (fl 1 1); (fl 320000000 1); (fl 440000000 1); (fl 17 20); (fl 9 10); (fl 736000 1); (fl 662400 1); (fl 809624 1); (fl 728662 1); (fl 736000 1); (fl 662400 1)];
  [(fl 51 25000); (fl 197137 100000000); (fl 1 1); (fl 320000000 1); (fl 440000000 1); (fl 17 20); (fl 9 10); (fl 652800 1); (fl 587520 1); (fl 737291 1); (fl 663562 1); (fl 652800 1); (fl 587520 1)];
  [(fl 39 2500); (fl 150513 10000000); (fl 1 1); (fl 280000000 1); (fl 440000000 1); (fl 17 20); (fl 9 10); (fl 4368000 1); (fl 3931200 1); (fl 5629200 1); (fl 5066280 1); (fl 4368000 1); (fl 3931200 1)];
  [(fl 279 100000); (fl 8031 3125000); (fl 17 20); (fl 320000000 1); (fl 440000000 1); (fl 17 20); (fl 9 10); (fl 892800 1); (fl 803520 1); (fl 816976 1); (fl 735278 1); (fl 816976 1); (fl 735278 1)];
  [(fl 21 100000); (fl 95599 500000000); (fl 17 20); (fl 320000000 1); (fl 440000000 1); (fl 17 20); (fl 9 10); (fl 67200 1); (fl 60480 1); (fl 60782 1); (fl 273519 5); (fl 60782 1); (fl 273519 5)];
  [(fl 511 100000); (fl 248343 50000000); (fl 17 20); (fl 300000000 1); (fl 440000000 1); (fl 17 20); (fl 9 10); (fl 1533000 1); (fl 1379700 1); (fl 1578960 1); (fl 1421070 1); (fl 1533000 1); (fl 1379700 1)];
  [(fl 93 5000); (fl 11023 625000); (fl 1 1); (fl 280000000 1); (fl 440000000 1); (fl 17 20); (fl 9 10); (fl 5208000 1); (fl 4687200 1); (fl 6596150 1); (fl 5936530 1); (fl 5208000 1); (fl 4687200 1)];
  [(fl 59 10000); (fl 275809 50000000); (fl 1 1); (fl 340000000 1); (fl 480000000 1); (fl 17 20); (fl 9 10); (fl 2006000 1); (fl 1805400 1); (fl 2250600 1); (fl 2025540 1); (fl 2006000 1); (fl 1805400 1)];
  [(fl 333 50000); (fl 662561 100000000); (fl 1 1); (fl 300000000 1); (fl 440000000 1); (fl 17 20); (fl 9 10); (fl 1998000 1); (fl 1798200 1); (fl 2477980 1); (fl 2230180 1); (fl 1998000 1); (fl 1798200 1)];
  [(fl 333 50000); (fl 7847 1250000); (fl 1 1); (fl 340000000 1); (fl 480000000 1); (fl 17 20); (fl 9 10); (fl 2264400 1); (fl 2037960 1); (fl 2561260 1); (fl 2305130 1); (fl 2264400 1); (fl 2037960 1)];
  [(fl 703 100000); (fl 10801 1562500); (fl 1 1); (fl 280000000 1); (fl 440000000 1); (fl 17 20); (fl 9 10); (fl 1968400 1); (fl 1771560 1); (fl 2585330 1); (fl 2326790 1); (fl 1968400 1); (fl 1771560 1)];
  [(fl 401 100000); (fl 187313 50000000); (fl 1 1); (fl 360000000 1); (fl 480000000 1); (fl 17 20); (fl 9 10); (fl 1443600 1); (fl 1299240 1); (fl 1528470 1); (fl 1375630 1); (fl 1443600 1); (fl 1299240 1)];
  [(fl 57 5000); (fl 14119 1250000); (fl 1 1); (fl 340000000 1); (fl 480000000 1); (fl 17 20); (fl 9 10); (fl 3876000 1); (fl 3488400 1); (fl 4608430 1); (fl 4147580 1); (fl 3876000 1); (fl 3488400 1)];
  [(fl 223 500000); (fl 80891 200000000); (fl 17 20); (fl 320000000 1); (fl 440000000 1); (fl 17 20); (fl 9 10); (fl 142720 1); (fl 128448 1); (fl 128576 1); (fl 115719 1); (fl 128576 1); (fl 115719 1)];
  [(fl 263 1000000); (fl 48217 200000000); (fl 17 20); (fl 320000000 1); (fl 440000000 1); (fl 17 20); (fl 9 10); (fl 84160 1); (fl 75744 1); (fl 383204 5); (fl 689767 10); (fl 383204 5); (fl 689767 10)];
  [(fl 253 500000); (fl 502051 1000000000); (fl 17 20); (fl 320000000 1); (fl 440000000 1); (fl 17 20); (fl 9 10); (fl 161920 1); (fl 145728 1); (fl 159602 1); (fl 143642 1); (fl 159602 1); (fl 143642 1)];
  [(fl 19 1000); (fl 176849 10000000); (fl 1 1); (fl 340000000 1); (fl 480000000 1); (fl 17 20); (fl 9 10); (fl 6460000 1); (fl 5814000 1); (fl 7215450 1); (fl 6493900 1); (fl 6460000 1); (fl 5814000 1)];
  [(fl 101 10000); (fl 28961 3125000); (fl 1 1); (fl 340000000 1); (fl 480000000 1); (fl 17 20); (fl 9 10); (fl 3434000 1); (fl 3090600 1); (fl 3781150 1); (fl 3403030 1); (fl 3434000 1); (fl 3090600 1)];
  [(fl 723 1000000); (fl 1379 1953125); (fl 17 20); (fl 320000000 1); (fl 440000000 1); (fl 17 20); (fl 9 10); (fl 231360 1); (fl 208224 1); (fl 224453 1); (fl 202007 1); (fl 224453 1); (fl 202007 1)];
  [(fl 3 200); (fl 37269 2500000); (fl 1 1); (fl 280000000 1); (fl 440000000 1); (fl 17 20); (fl 9 10); (fl 4200000 1); (fl 3780000 1); (fl 5575450 1); (fl 5017910 1); (fl 4200000 1); (fl 3780000 1)];
  [(fl 329 500000); (fl 632751 1000000000); (fl 3 4); (fl 320000000 1); (fl 440000000 1); (fl 17 20); (fl 9 10); (fl 210560 1); (fl 189504 1); (fl 177487 1); (fl 159738 1); (fl 177487 1); (fl 159738 1)];
  [(fl 7 400); (fl 158649 10000000); (fl 1 1); (fl 280000000 1); (fl 440000000 1); (fl 17 20); (fl 9 10); (fl 4900000 1); (fl 4410000 1); (fl 5933470 1); (fl 5340130 1); (fl 4900000 1); (fl 4410000 1)];
  [(fl 377 500000); (fl 187999 250000000); (fl 17 20); (fl 320000000 1); (fl 440000000 1); (fl 17 20); (fl 9 10); (fl 241280 1); (fl 217152 1); (fl 239060 1); (fl 215154 1); (fl 239060 1); (fl 215154 1)];
  [(fl 251 10000); (fl 122091 5000000); (fl 1 1); (fl 360000000 1); (fl 480000000 1); (fl 17 20); (fl 9 10); (fl 9036000 1); (fl 8132400 1); (fl 9962610 1); (fl 8966350 1); (fl 9036000 1); (fl 8132400 1)];
  [(fl 293 10000); (fl 36317 1250000); (fl 1 1); (fl 280000000 1); (fl 430000000 1); (fl 17 20); (fl 9 10); (fl 8204000 1); (fl 7383600 1); (fl 10619100 1); (fl 9557180 1); (fl 8204000 1); (fl 7383600 1)];
  [(fl 27 20000); (fl 32587 25000000); (fl 17 20); (fl 320000000 1); (fl 440000000 1); (fl 17 20); (fl 9 10); (fl 432000 1); (fl 388800 1); (fl 414375 1); (fl 372938 1); (fl 414375 1); (fl 372938 1)];
  [(fl 87 25000); (fl 315379 100000000); (fl 17 20); (fl 340000000 1); (fl 480000000 1); (fl 17 20); (fl 9 10); (fl 1183200 1); (fl 1064880 1); (fl 1093740 1); (fl 984362 1); (fl 1093740 1); (fl 984362 1)];
  [(fl 113 50000); (fl 26027 12500000); (fl 3 4); (fl 340000000 1); (fl 480000000 1); (fl 17 20); (fl 9 10); (fl 768400 1); (fl 691560 1); (fl 637142 1); (fl 573428 1); (fl 637142 1); (fl 573428 1)];
  [(fl 3 2000); (fl 136249 100000000); (fl 3 4); (fl 360000000 1); (fl 480000000 1); (fl 17 20); (fl 9 10); (fl 540000 1); (fl 486000 1); (fl 416922 1); (fl 375230 1); (fl 416922 1); (fl 375230 1)];
  [(fl 23 10000); (fl 215491 100000000); (fl 3 4); (fl 360000000 1); (fl 480000000 1); (fl 17 20); (fl 9 10); (fl 828000 1); (fl 745200 1); (fl 659404 1); (fl 593463 1); (fl 659404 1); (fl 593463 1)];
  [(fl 23 10000); (fl 213891 100000000); (fl 17 20); (fl 360000000 1); (fl 480000000 1); (fl 17 20); (fl 9 10); (fl 828000 1); (fl 745200 1); (fl 741775 1); (fl 667597 1); (fl 741775 1); (fl 667597 1)];
  [(fl 71 20000); (fl 332983 100000000); (fl 3 4); (fl 340000000 1); (fl 480000000 1); (fl 17 20); (fl 9 10); (fl 1207000 1); (fl 1086300 1); (fl 1018930 1); (fl 917035 1); (fl 1018930 1); (fl 917035 1)];
  [(fl 91 50000); (fl 34141 20000000); (fl 3 4); (fl 360000000 1); (fl 480000000 1); (fl 17 20); (fl 9 10); (fl 655200 1); (fl 589680 1); (fl 522357 1); (fl 470121 1); (fl 522357 1); (fl 470121 1)];
  [(fl 133 50000); (fl 122399 50000000); (fl 1 1); (fl 340000000 1); (fl 480000000 1); (fl 17 20); (fl 9 10); (fl 904400 1); (fl 813960 1); (fl 998778 1); (fl 898900 1); (fl 904400 1); (fl 813960 1)];
  [(fl 73 25000); (fl 8879 3125000); (fl 17 20); (fl 340000000 1); (fl 480000000 1); (fl 17 20); (fl 9 10); (fl 992800 1); (fl 893520 1); (fl 985355 1); (fl 886819 1); (fl 985355 1); (fl 886819 1)];
  [(fl 357 10000); (fl 346757 10000000); (fl 1 1); (fl 280000000 1); (fl 430000000 1); (fl 17 20); (fl 9 10); (fl 9996000 1); (fl 8996400 1); (fl 12674000 1); (fl 11406600 1); (fl 9996000 1); (fl 8996400 1)];
  [(fl 23 1000); (fl 213843 10000000); (fl 1 1); (fl 300000000 1); (fl 430000000 1); (fl 17 20); (fl 9 10); (fl 6900000 1); (fl 6210000 1); (fl 7815940 1); (fl 7034350 1); (fl 6900000 1); (fl 6210000 1)];
  [(fl 113 25000); (fl 42573 10000000); (fl 1 1); (fl 340000000 1); (fl 480000000 1); (fl 17 20); (fl 9 10); (fl 1536800 1); (fl 1383120 1); (fl 1736980 1); (fl 1563280 1); (fl 1536800 1); (fl 1383120 1)];
  [(fl 193 5000); (fl 88003 2500000); (fl 1 1); (fl 280000000 1); (fl 430000000 1); (fl 17 20); (fl 9 10); (fl 10808000 1); (fl 9727200 1); (fl 12866000 1); (fl 11579400 1); (fl 10808000 1); (fl 9727200 1)];
  [(fl 23 500); (fl 441471 10000000); (fl 1 1); (fl 360000000 1); (fl 480000000 1); (fl 17 20); (fl 9 10); (fl 16560000 1); (fl 14904000 1); (fl 18012000 1); (fl 16210800 1); (fl 16560000 1); (fl 14904000 1)];
  [(fl 143 1000000); (fl 26641 200000000); (fl 17 20); (fl 360000000 1); (fl 480000000 1); (fl 17 20); (fl 9 10); (fl 51480 1); (fl 46332 1); (fl 230977 5); (fl 415759 10); (fl 230977 5); (fl 415759 10)];
  [(fl 4 15625); (fl 29227 125000000); (fl 17 20); (fl 360000000 1); (fl 480000000 1); (fl 17 20); (fl 9 10); (fl 92160 1); (fl 82944 1); (fl 405437 5); (fl 729787 10); (fl 405437 5); (fl 729787 10)];
  [(fl 163 500000); (fl 63447 200000000); (fl 17 20); (fl 360000000 1); (fl 480000000 1); (fl 17 20); (fl 9 10); (fl 117360 1); (fl 105624 1); (fl 110017 1); (fl 495077 5); (fl 110017 1); (fl 495077 5)];
  [(fl 191 25000); (fl 697573 100000000); (fl 1 1); (fl 340000000 1); (fl 480000000 1); (fl 17 20); (fl 9 10); (fl 2597600 1); (fl 2337840 1); (fl 2846100 1); (fl 2561490 1); (fl 2597600 1); (fl 2337840 1)];
  [(fl 17 500); (fl 324981 10000000); (fl 1 1); (fl 280000000 1); (fl 430000000 1); (fl 17 20); (fl 9 10); (fl 9520000 1); (fl 8568000 1); (fl 11878100 1); (fl 10690300 1); (fl 9520000 1); (fl 8568000 1)];
  [(fl 223 500000); (fl 221097 500000000); (fl 17 20); (fl 360000000 1); (fl 480000000 1); (fl 17 20); (fl 9 10); (fl 160560 1); (fl 144504 1); (fl 153353 1); (fl 138017 1); (fl 153353 1); (fl 138017 1)];
  [(fl 37 1000); (fl 171417 5000000); (fl 1 1); (fl 280000000 1); (fl 430000000 1); (fl 17 20); (fl 9 10); (fl 10360000 1); (fl 9324000 1); (fl 12530600 1); (fl 11277500 1); (fl 10360000 1); (fl 9324000 1)];
  [(fl 263 1000000); (fl 2627 10000000); (fl 17 20); (fl 360000000 1); (fl 480000000 1); (fl 17 20); (fl 9 10); (fl 94680 1); (fl 85212 1); (fl 911043 10); (fl 409969 5); (fl 911043 10); (fl 409969 5)];
  [(fl 253 500000); (fl 122881 250000000); (fl 17 20); (fl 360000000 1); (fl 480000000 1); (fl 17 20); (fl 9 10); (fl 182160 1); (fl 163944 1); (fl 170460 1); (fl 153414 1); (fl 170460 1); (fl 153414 1)];
  [(fl 59 200000); (fl 145487 500000000); (fl 17 20); (fl 360000000 1); (fl 480000000 1); (fl 17 20); (fl 9 10); (fl 106200 1); (fl 95580 1); (fl 100910 1); (fl 908189 10); (fl 100910 1); (fl 908189 10)];
  [(fl 489 1000000); (fl 471057 1000000000); (fl 17 20); (fl 360000000 1); (fl 480000000 1); (fl 17 20); (fl 9 10); (fl 176040 1); (fl 158436 1); (fl 163363 1); (fl 147026 1); (fl 163363 1); (fl 147026 1)];
  [(fl 27 625); (fl 195553 5000000); (fl 1 1); (fl 360000000 1); (fl 480000000 1); (fl 17 20); (fl 9 10); (fl 15552000 1); (fl 13996800 1); (fl 15957100 1); (fl 14361400 1); (fl 15552000 1); (fl 13996800 1)];
  [(fl 329 500000); (fl 64831 100000000); (fl 3 4); (fl 360000000 1); (fl 480000000 1); (fl 17 20); (fl 9 10); (fl 236880 1); (fl 213192 1); (fl 198383 1); (fl 178545 1); (fl 198383 1); (fl 178545 1)];
  [(fl 21 25000); (fl 20999 25000000); (fl 3 4); (fl 360000000 1); (fl 480000000 1); (fl 17 20); (fl 9 10); (fl 302400 1); (fl 272160 1); (fl 257028 1); (fl 231325 1); (fl 257028 1); (fl 231325 1)];
  [(fl 23 20000); (fl 107531 100000000); (fl 17 20); (fl 360000000 1); (fl 480000000 1); (fl 17 20); (fl 9 10); (fl 414000 1); (fl 372600 1); (fl 372918 1); (fl 335626 1); (fl 372918 1); (fl 335626 1)];
  [(fl 957 1000000); (fl 22397 25000000); (fl 17 20); (fl 360000000 1); (fl 480000000 1); (fl 17 20); (fl 9 10); (fl 344520 1); (fl 310068 1); (fl 310691 1); (fl 279622 1); (fl 310691 1); (fl 279622 1)];
  [(fl 921 1000000); (fl 216529 250000000); (fl 3 4); (fl 360000000 1); (fl 480000000 1); (fl 17 20); (fl 9 10); (fl 331560 1); (fl 298404 1); (fl 265031 1); (fl 238528 1); (fl 265031 1); (fl 238528 1)];
  [(fl 21 20000); (fl 103589 100000000); (fl 17 20); (fl 360000000 1); (fl 480000000 1); (fl 17 20); (fl 9 10); (fl 378000 1); (fl 340200 1); (fl 359248 1); (fl 323323 1); (fl 359248 1); (fl 323323 1)];
  [(fl 27 20000); (fl 31991 25000000); (fl 17 20); (fl 360000000 1); (fl 480000000 1); (fl 17 20); (fl 9 10); (fl 486000 1); (fl 437400 1); (fl 443781 1); (fl 399403 1); (fl 443781 1); (fl 399403 1)];
  [(fl 33 625); (fl 254191 5000000); (fl 1 1); (fl 360000000 1); (fl 480000000 1); (fl 17 20); (fl 9 10); (fl 19008000 1); (fl 17107200 1); (fl 20742000 1); (fl 18667800 1); (fl 19008000 1); (fl 17107200 1)];
  [(fl 2 125); (fl 3769 250000); (fl 1 1); (fl 280000000 1); (fl 440000000 1); (fl 17 20); (fl 9 10); (fl 4480000 1); (fl 4032000 1); (fl 5638440 1); (fl 5074590 1); (fl 4480000 1); (fl 4032000 1)];
  [(fl 2 125); (fl 144433 10000000); (fl 1 1); (fl 340000000 1); (fl 480000000 1); (fl 17 20); (fl 9 10); (fl 5440000 1); (fl 4896000 1); (fl 5892870 1); (fl 5303590 1); (fl 5440000 1); (fl 4896000 1)];
  [(fl 73 5000); (fl 2831 200000); (fl 1 1); (fl 300000000 1); (fl 430000000 1); (fl 17 20); (fl 9 10); (fl 4380000 1); (fl 3942000 1); (fl 5173630 1); (fl 4656270 1); (fl 4380000 1); (fl 3942000 1)];
  [(fl 73 5000); (fl 137309 10000000); (fl 1 1); (fl 380000000 1); (fl 480000000 1); (fl 17 20); (fl 9 10); (fl 5548000 1); (fl 4993200 1); (fl 5602210 1); (fl 5041990 1); (fl 5548000 1); (fl 4993200 1)];
  [(fl 83 5000); (fl 7931 500000); (fl 1 1); (fl 380000000 1); (fl 480000000 1); (fl 17 20); (fl 9 10); (fl 6308000 1); (fl 5677200 1); (fl 6471690 1); (fl 5824520 1); (fl 6308000 1); (fl 5677200 1)];
  [(fl 191 10000); (fl 38179 2000000); (fl 1 1); (fl 360000000 1); (fl 480000000 1); (fl 17 20); (fl 9 10); (fl 6876000 1); (fl 6188400 1); (fl 7788520 1); (fl 7009670 1); (fl 6876000 1); (fl 6188400 1)];
  [(fl 39 2500); (fl 36339 2500000); (fl 1 1); (fl 300000000 1); (fl 430000000 1); (fl 17 20); (fl 9 10); (fl 4680000 1); (fl 4212000 1); (fl 5312770 1); (fl 4781490 1); (fl 4680000 1); (fl 4212000 1)];
  [(fl 139 5000); (fl 63251 2500000); (fl 1 1); (fl 360000000 1); (fl 480000000 1); (fl 17 20); (fl 9 10); (fl 10008000 1); (fl 9007200 1); (fl 10322600 1); (fl 9290310 1); (fl 10008000 1); (fl 9007200 1)];
  [(fl 327 10000); (fl 63583 2000000); (fl 1 1); (fl 280000000 1); (fl 430000000 1); (fl 17 20); (fl 9 10); (fl 9156000 1); (fl 8240400 1); (fl 11619800 1); (fl 10457800 1); (fl 9156000 1); (fl 8240400 1)];
  [(fl 11 1000); (fl 13233 1250000); (fl 1 1); (fl 300000000 1); (fl 430000000 1); (fl 17 20); (fl 9 10); (fl 3300000 1); (fl 2970000 1); (fl 3869320 1); (fl 3482390 1); (fl 3300000 1); (fl 2970000 1)];
  [(fl 13 1000); (fl 31759 2500000); (fl 1 1); (fl 300000000 1); (fl 430000000 1); (fl 17 20); (fl 9 10); (fl 3900000 1); (fl 3510000 1); (fl 4643150 1); (fl 4178840 1); (fl 3900000 1); (fl 3510000 1)]].
Example t33_ok : forallb (fun r => match r with [a; b; k; f; g; u; p; x1; x2; x3; x4; x5; x6] => same_list d4 (Ok (ns7_1_N_t a b f g k p u)) [x1; x3; x5; x2; x4; x6] | _ => false end) t33 = true.
Proof. vm_compute. reflexivity. Qed.

(** tests/test_AS4100_7.py test_s7_1_Area_Reqd: 81 cases. *)
Definition t34 : list (list pynum) := [
  [(fl 87835000 1); (fl 17 20); (fl 300000000 1); (fl 440000000 1); (fl 17 20); (fl 9 10); (fl 14639 50000); (fl 2763 10000); (fl 14639 50000); (fl 32531 100000); (fl 307 1000); (fl 32531 100000)];
  [(fl 25614000 1); (fl 3 4); (fl 320000000 1); (fl 440000000 1); (fl 17 20); (fl 9 10); (fl 80043 1000000); (fl 18263 200000); (fl 18263 200000); (fl 88937 1000000); (fl 5073 50000); (fl 5073 50000)];
  [(fl 80307000 1); (fl 1 1); (fl 280000000 1); (fl 430000000 1); (fl 17 20); (fl 9 10); (fl 28681 100000); (fl 5493 25000); (fl 28681 100000); (fl 7967 25000); (fl 24413 100000); (fl 7967 25000)];
  [(fl 73173000 1); (fl 1 1); (fl 360000000 1); (fl 480000000 1); (fl 17 20); (fl 9 10); (fl 10163 50000); (fl 8967 50000); (fl 10163 50000); (fl 2823 12500); (fl 19927 100000); (fl 2823 12500)];
  [(fl 58406000 1); (fl 17 20); (fl 320000000 1); (fl 440000000 1); (fl 17 20); (fl 9 10); (fl 4563 25000); (fl 4593 25000); (fl 4593 25000); (fl 507 2500); (fl 10207 50000); (fl 10207 50000)];
  [(fl 79700000 1); (fl 1 1); (fl 280000000 1); (fl 430000000 1); (fl 17 20); (fl 9 10); (fl 1779 6250); (fl 10903 50000); (fl 1779 6250); (fl 31627 100000); (fl 24229 100000); (fl 31627 100000)];
  [(fl 11871000 1); (fl 17 20); (fl 320000000 1); (fl 440000000 1); (fl 17 20); (fl 9 10); (fl 37097 1000000); (fl 18671 500000); (fl 18671 500000); (fl 41219 1000000); (fl 41491 1000000); (fl 41491 1000000)];
  [(fl 79376000 1); (fl 3 4); (fl 320000000 1); (fl 440000000 1); (fl 17 20); (fl 9 10); (fl 4961 20000); (fl 14149 50000); (fl 14149 50000); (fl 27561 100000); (fl 15721 50000); (fl 15721 50000)];
  [(fl 17109000 1); (fl 3 4); (fl 300000000 1); (fl 440000000 1); (fl 17 20); (fl 9 10); (fl 57029 1000000); (fl 30497 500000); (fl 30497 500000); (fl 31683 500000); (fl 67771 1000000); (fl 67771 1000000)];
  [(fl 16029000 1); (fl 1 1); (fl 360000000 1); (fl 480000000 1); (fl 17 20); (fl 9 10); (fl 11131 250000); (fl 19643 500000); (fl 11131 250000); (fl 49471 1000000); (fl 43651 1000000); (fl 49471 1000000)];
  [(fl 11388000 1); (fl 1 1); (fl 320000000 1); (fl 440000000 1); (fl 17 20); (fl 9 10); (fl 35587 1000000); (fl 30449 1000000); (fl 35587 1000000); (fl 39541 1000000); (fl 4229 125000); (fl 39541 1000000)];
  [(fl 81808000 1); (fl 1 1); (fl 320000000 1); (fl 440000000 1); (fl 17 20); (fl 9 10); (fl 5113 20000); (fl 10937 50000); (fl 5113 20000); (fl 5681 20000); (fl 1519 6250); (fl 5681 20000)];
  [(fl 33041000 1); (fl 1 1); (fl 280000000 1); (fl 440000000 1); (fl 17 20); (fl 9 10); (fl 59 500); (fl 17669 200000); (fl 59 500); (fl 13111 100000); (fl 98161 1000000); (fl 13111 100000)];
  [(fl 73486000 1); (fl 17 20); (fl 320000000 1); (fl 440000000 1); (fl 17 20); (fl 9 10); (fl 5741 25000); (fl 5779 25000); (fl 5779 25000); (fl 6379 25000); (fl 5137 20000); (fl 5137 20000)];
  [(fl 40617000 1); (fl 17 20); (fl 320000000 1); (fl 440000000 1); (fl 17 20); (fl 9 10); (fl 12693 100000); (fl 12777 100000); (fl 12777 100000); (fl 14103 100000); (fl 3549 25000); (fl 3549 25000)];
  [(fl 99299000 1); (fl 17 20); (fl 300000000 1); (fl 440000000 1); (fl 17 20); (fl 9 10); (fl 331 1000); (fl 7809 25000); (fl 331 1000); (fl 18389 50000); (fl 34707 100000); (fl 18389 50000)];
  [(fl 35843000 1); (fl 1 1); (fl 280000000 1); (fl 440000000 1); (fl 17 20); (fl 9 10); (fl 12801 100000); (fl 95837 1000000); (fl 12801 100000); (fl 14223 100000); (fl 10649 100000); (fl 14223 100000)];
  [(fl 10297000 1); (fl 1 1); (fl 340000000 1); (fl 480000000 1); (fl 17 20); (fl 9 10); (fl 7571 250000); (fl 25237 1000000); (fl 7571 250000); (fl 33649 1000000); (fl 28041 1000000); (fl 33649 1000000)];
  [(fl 91571000 1); (fl 1 1); (fl 300000000 1); (fl 440000000 1); (fl 17 20); (fl 9 10); (fl 7631 25000); (fl 6121 25000); (fl 7631 25000); (fl 6783 20000); (fl 5441 20000); (fl 6783 20000)];
  [(fl 99730000 1); (fl 1 1); (fl 340000000 1); (fl 480000000 1); (fl 17 20); (fl 9 10); (fl 7333 25000); (fl 6111 25000); (fl 7333 25000); (fl 32591 100000); (fl 27159 100000); (fl 32591 100000)];
  [(fl 62006000 1); (fl 1 1); (fl 280000000 1); (fl 440000000 1); (fl 17 20); (fl 9 10); (fl 4429 20000); (fl 16579 100000); (fl 4429 20000); (fl 4921 20000); (fl 18421 100000); (fl 4921 20000)];
  [(fl 84545000 1); (fl 1 1); (fl 360000000 1); (fl 480000000 1); (fl 17 20); (fl 9 10); (fl 4697 20000); (fl 10361 50000); (fl 4697 20000); (fl 13047 50000); (fl 1439 6250); (fl 13047 50000)];
  [(fl 73756000 1); (fl 1 1); (fl 340000000 1); (fl 480000000 1); (fl 17 20); (fl 9 10); (fl 21693 100000); (fl 9039 50000); (fl 21693 100000); (fl 24103 100000); (fl 10043 50000); (fl 24103 100000)];
  [(fl 57379000 1); (fl 17 20); (fl 320000000 1); (fl 440000000 1); (fl 17 20); (fl 9 10); (fl 17931 100000); (fl 18049 100000); (fl 18049 100000); (fl 19923 100000); (fl 4011 20000); (fl 4011 20000)];
  [(fl 36114000 1); (fl 17 20); (fl 320000000 1); (fl 440000000 1); (fl 17 20); (fl 9 10); (fl 5643 50000); (fl 71 625); (fl 71 625); (fl 627 5000); (fl 12623 100000); (fl 12623 100000)];
  [(fl 36143000 1); (fl 17 20); (fl 320000000 1); (fl 440000000 1); (fl 17 20); (fl 9 10); (fl 2259 20000); (fl 11369 100000); (fl 11369 100000); (fl 251 2000); (fl 1579 12500); (fl 1579 12500)];
  [(fl 74431000 1); (fl 1 1); (fl 340000000 1); (fl 480000000 1); (fl 17 20); (fl 9 10); (fl 21891 100000); (fl 18243 100000); (fl 21891 100000); (fl 6081 25000); (fl 2027 10000); (fl 6081 25000)];
  [(fl 21338000 1); (fl 1 1); (fl 340000000 1); (fl 480000000 1); (fl 17 20); (fl 9 10); (fl 31379 500000); (fl 26149 500000); (fl 31379 500000); (fl 69731 1000000); (fl 58109 1000000); (fl 69731 1000000)];
  [(fl 43905000 1); (fl 17 20); (fl 320000000 1); (fl 440000000 1); (fl 17 20); (fl 9 10); (fl 343 2500); (fl 13811 100000); (fl 13811 100000); (fl 3049 20000); (fl 3069 20000); (fl 3069 20000)];
  [(fl 65457000 1); (fl 1 1); (fl 280000000 1); (fl 440000000 1); (fl 17 20); (fl 9 10); (fl 11689 50000); (fl 8751 50000); (fl 11689 50000); (fl 1039 4000); (fl 19447 100000); (fl 1039 4000)];
  [(fl 65336000 1); (fl 3 4); (fl 320000000 1); (fl 440000000 1); (fl 17 20); (fl 9 10); (fl 10209 50000); (fl 23293 100000); (fl 23293 100000); (fl 11343 50000); (fl 25881 100000); (fl 25881 100000)];
  [(fl 84041000 1); (fl 1 1); (fl 280000000 1); (fl 440000000 1); (fl 17 20); (fl 9 10); (fl 6003 20000); (fl 22471 100000); (fl 6003 20000); (fl 667 2000); (fl 3121 12500); (fl 667 2000)];
  [(fl 70117000 1); (fl 17 20); (fl 320000000 1); (fl 440000000 1); (fl 17 20); (fl 9 10); (fl 2739 12500); (fl 2757 12500); (fl 2757 12500); (fl 12173 50000); (fl 24507 100000); (fl 24507 100000)];
  [(fl 31153000 1); (fl 1 1); (fl 360000000 1); (fl 480000000 1); (fl 17 20); (fl 9 10); (fl 10817 125000); (fl 15271 200000); (fl 10817 125000); (fl 96151 1000000); (fl 84839 1000000); (fl 96151 1000000)];
  [(fl 81707000 1); (fl 1 1); (fl 280000000 1); (fl 430000000 1); (fl 17 20); (fl 9 10); (fl 29181 100000); (fl 4471 20000); (fl 29181 100000); (fl 4053 12500); (fl 24839 100000); (fl 4053 12500)];
  [(fl 94180000 1); (fl 17 20); (fl 320000000 1); (fl 440000000 1); (fl 17 20); (fl 9 10); (fl 29431 100000); (fl 14813 50000); (fl 14813 50000); (fl 16351 50000); (fl 16459 50000); (fl 16459 50000)];
  [(fl 43662000 1); (fl 17 20); (fl 340000000 1); (fl 480000000 1); (fl 17 20); (fl 9 10); (fl 6421 50000); (fl 1259 10000); (fl 6421 50000); (fl 14269 100000); (fl 13989 100000); (fl 14269 100000)];
  [(fl 6864500 1); (fl 3 4); (fl 340000000 1); (fl 480000000 1); (fl 17 20); (fl 9 10); (fl 2019 100000); (fl 22433 1000000); (fl 22433 1000000); (fl 22433 1000000); (fl 12463 500000); (fl 12463 500000)];
  [(fl 26445000 1); (fl 3 4); (fl 360000000 1); (fl 480000000 1); (fl 17 20); (fl 9 10); (fl 73459 1000000); (fl 86423 1000000); (fl 86423 1000000); (fl 81621 1000000); (fl 3841 40000); (fl 3841 40000)];
  [(fl 74706000 1); (fl 3 4); (fl 360000000 1); (fl 480000000 1); (fl 17 20); (fl 9 10); (fl 1297 6250); (fl 12207 50000); (fl 12207 50000); (fl 11529 50000); (fl 27127 100000); (fl 27127 100000)];
  [(fl 12751000 1); (fl 17 20); (fl 360000000 1); (fl 480000000 1); (fl 17 20); (fl 9 10); (fl 35419 1000000); (fl 36767 1000000); (fl 36767 1000000); (fl 7871 200000); (fl 10213 250000); (fl 10213 250000)];
  [(fl 16247000 1); (fl 3 4); (fl 340000000 1); (fl 480000000 1); (fl 17 20); (fl 9 10); (fl 47787 1000000); (fl 6637 125000); (fl 6637 125000); (fl 6637 125000); (fl 14749 250000); (fl 14749 250000)];
  [(fl 53498000 1); (fl 3 4); (fl 360000000 1); (fl 480000000 1); (fl 17 20); (fl 9 10); (fl 743 5000); (fl 17483 100000); (fl 17483 100000); (fl 516 3125); (fl 777 4000); (fl 777 4000)];
  [(fl 90084000 1); (fl 1 1); (fl 340000000 1); (fl 480000000 1); (fl 17 20); (fl 9 10); (fl 5299 20000); (fl 22079 100000); (fl 5299 20000); (fl 29439 100000); (fl 24533 100000); (fl 29439 100000)];
  [(fl 5619900 1); (fl 17 20); (fl 340000000 1); (fl 480000000 1); (fl 17 20); (fl 9 10); (fl 16529 1000000); (fl 3241 200000); (fl 16529 1000000); (fl 9183 500000); (fl 9003 500000); (fl 9183 500000)];
  [(fl 57250000 1); (fl 1 1); (fl 280000000 1); (fl 430000000 1); (fl 17 20); (fl 9 10); (fl 10223 50000); (fl 15663 100000); (fl 10223 50000); (fl 11359 50000); (fl 4351 25000); (fl 11359 50000)];
  [(fl 5856600 1); (fl 1 1); (fl 300000000 1); (fl 430000000 1); (fl 17 20); (fl 9 10); (fl 9761 500000); (fl 16023 1000000); (fl 9761 500000); (fl 21691 1000000); (fl 4451 250000); (fl 21691 1000000)];
  [(fl 93975000 1); (fl 1 1); (fl 340000000 1); (fl 480000000 1); (fl 17 20); (fl 9 10); (fl 691 2500); (fl 23033 100000); (fl 691 2500); (fl 30711 100000); (fl 3199 12500); (fl 30711 100000)];
  [(fl 81399000 1); (fl 1 1); (fl 280000000 1); (fl 430000000 1); (fl 17 20); (fl 9 10); (fl 29071 100000); (fl 22271 100000); (fl 29071 100000); (fl 32301 100000); (fl 4949 20000); (fl 32301 100000)];
  [(fl 77221000 1); (fl 1 1); (fl 360000000 1); (fl 480000000 1); (fl 17 20); (fl 9 10); (fl 429 2000); (fl 18927 100000); (fl 429 2000); (fl 11917 50000); (fl 2103 10000); (fl 11917 50000)];
  [(fl 82956000 1); (fl 17 20); (fl 360000000 1); (fl 480000000 1); (fl 17 20); (fl 9 10); (fl 23043 100000); (fl 299 1250); (fl 299 1250); (fl 6401 25000); (fl 13289 50000); (fl 13289 50000)];
  [(fl 7181200 1); (fl 17 20); (fl 360000000 1); (fl 480000000 1); (fl 17 20); (fl 9 10); (fl 4987 250000); (fl 20707 1000000); (fl 20707 1000000); (fl 5541 250000); (fl 719 31250); (fl 719 31250)];
  [(fl 73070000 1); (fl 17 20); (fl 360000000 1); (fl 480000000 1); (fl 17 20); (fl 9 10); (fl 20297 100000); (fl 2107 10000); (fl 2107 10000); (fl 2819 12500); (fl 23411 100000); (fl 23411 100000)];
  [(fl 15288000 1); (fl 1 1); (fl 340000000 1); (fl 480000000 1); (fl 17 20); (fl 9 10); (fl 11241 250000); (fl 3747 100000); (fl 11241 250000); (fl 1249 25000); (fl 41633 1000000); (fl 1249 25000)];
  [(fl 53201000 1); (fl 1 1); (fl 280000000 1); (fl 430000000 1); (fl 17 20); (fl 9 10); (fl 19 100); (fl 3639 25000); (fl 19 100); (fl 21111 100000); (fl 16173 100000); (fl 21111 100000)];
  [(fl 12924000 1); (fl 17 20); (fl 360000000 1); (fl 480000000 1); (fl 17 20); (fl 9 10); (fl 359 10000); (fl 18633 500000); (fl 18633 500000); (fl 39889 1000000); (fl 41407 1000000); (fl 41407 1000000)];
  [(fl 32446000 1); (fl 1 1); (fl 280000000 1); (fl 430000000 1); (fl 17 20); (fl 9 10); (fl 2897 25000); (fl 88773 1000000); (fl 2897 25000); (fl 3219 25000); (fl 24659 250000); (fl 3219 25000)];
  [(fl 38754000 1); (fl 17 20); (fl 360000000 1); (fl 480000000 1); (fl 17 20); (fl 9 10); (fl 2153 20000); (fl 447 4000); (fl 447 4000); (fl 11961 100000); (fl 12417 100000); (fl 12417 100000)];
  [(fl 93924000 1); (fl 17 20); (fl 360000000 1); (fl 480000000 1); (fl 17 20); (fl 9 10); (fl 2609 10000); (fl 27083 100000); (fl 27083 100000); (fl 28989 100000); (fl 7523 25000); (fl 7523 25000)];
  [(fl 23999000 1); (fl 17 20); (fl 360000000 1); (fl 480000000 1); (fl 17 20); (fl 9 10); (fl 8333 125000); (fl 34601 500000); (fl 34601 500000); (fl 74071 1000000); (fl 76891 1000000); (fl 76891 1000000)];
  [(fl 91604000 1); (fl 17 20); (fl 360000000 1); (fl 480000000 1); (fl 17 20); (fl 9 10); (fl 12723 50000); (fl 13207 50000); (fl 13207 50000); (fl 28273 100000); (fl 29349 100000); (fl 29349 100000)];
  [(fl 22048000 1); (fl 1 1); (fl 360000000 1); (fl 480000000 1); (fl 17 20); (fl 9 10); (fl 12249 200000); (fl 1351 25000); (fl 12249 200000); (fl 1361 20000); (fl 15011 250000); (fl 1361 20000)];
  [(fl 32138000 1); (fl 3 4); (fl 360000000 1); (fl 480000000 1); (fl 17 20); (fl 9 10); (fl 89273 1000000); (fl 10503 100000); (fl 10503 100000); (fl 12399 125000); (fl 1167 10000); (fl 1167 10000)];
  [(fl 6405900 1); (fl 3 4); (fl 360000000 1); (fl 480000000 1); (fl 17 20); (fl 9 10); (fl 8897 500000); (fl 10467 500000); (fl 10467 500000); (fl 19771 1000000); (fl 1163 50000); (fl 1163 50000)];
  [(fl 70914000 1); (fl 17 20); (fl 360000000 1); (fl 480000000 1); (fl 17 20); (fl 9 10); (fl 9849 50000); (fl 639 3125); (fl 639 3125); (fl 21887 100000); (fl 142 625); (fl 142 625)];
  [(fl 99618000 1); (fl 17 20); (fl 360000000 1); (fl 480000000 1); (fl 17 20); (fl 9 10); (fl 3459 12500); (fl 1149 4000); (fl 1149 4000); (fl 15373 50000); (fl 31917 100000); (fl 31917 100000)];
  [(fl 54638000 1); (fl 3 4); (fl 360000000 1); (fl 480000000 1); (fl 17 20); (fl 9 10); (fl 15177 100000); (fl 558 3125); (fl 558 3125); (fl 527 3125); (fl 124 625); (fl 124 625)];
  [(fl 36056000 1); (fl 17 20); (fl 360000000 1); (fl 480000000 1); (fl 17 20); (fl 9 10); (fl 313 3125); (fl 10397 100000); (fl 10397 100000); (fl 11129 100000); (fl 361 3125); (fl 361 3125)];
  [(fl 57715000 1); (fl 17 20); (fl 360000000 1); (fl 480000000 1); (fl 17 20); (fl 9 10); (fl 501 3125); (fl 8321 50000); (fl 8321 50000); (fl 17813 100000); (fl 18491 100000); (fl 18491 100000)];
  [(fl 46032000 1); (fl 1 1); (fl 360000000 1); (fl 480000000 1); (fl 17 20); (fl 9 10); (fl 12787 100000); (fl 5641 50000); (fl 12787 100000); (fl 444 3125); (fl 1567 12500); (fl 444 3125)];
  [(fl 88558000 1); (fl 1 1); (fl 280000000 1); (fl 440000000 1); (fl 17 20); (fl 9 10); (fl 7907 25000); (fl 23679 100000); (fl 7907 25000); (fl 17571 50000); (fl 2631 10000); (fl 17571 50000)];
  [(fl 17602000 1); (fl 1 1); (fl 340000000 1); (fl 480000000 1); (fl 17 20); (fl 9 10); (fl 51771 1000000); (fl 43143 1000000); (fl 51771 1000000); (fl 14381 250000); (fl 749 15625); (fl 14381 250000)];
  [(fl 76586000 1); (fl 1 1); (fl 300000000 1); (fl 430000000 1); (fl 17 20); (fl 9 10); (fl 25529 100000); (fl 10477 50000); (fl 25529 100000); (fl 5673 20000); (fl 11641 50000); (fl 5673 20000)];
  [(fl 26728000 1); (fl 1 1); (fl 380000000 1); (fl 480000000 1); (fl 17 20); (fl 9 10); (fl 70337 1000000); (fl 6551 100000); (fl 70337 1000000); (fl 9769 125000); (fl 18197 250000); (fl 9769 125000)];
  [(fl 36139000 1); (fl 1 1); (fl 380000000 1); (fl 480000000 1); (fl 17 20); (fl 9 10); (fl 47551 500000); (fl 1384 15625); (fl 47551 500000); (fl 10567 100000); (fl 98417 1000000); (fl 10567 100000)];
  [(fl 74192000 1); (fl 1 1); (fl 360000000 1); (fl 480000000 1); (fl 17 20); (fl 9 10); (fl 20609 100000); (fl 2273 12500); (fl 20609 100000); (fl 22899 100000); (fl 4041 20000); (fl 22899 100000)];
  [(fl 77728000 1); (fl 1 1); (fl 300000000 1); (fl 430000000 1); (fl 17 20); (fl 9 10); (fl 25909 100000); (fl 10633 50000); (fl 25909 100000); (fl 7197 25000); (fl 23629 100000); (fl 7197 25000)];
  [(fl 51499000 1); (fl 1 1); (fl 360000000 1); (fl 480000000 1); (fl 17 20); (fl 9 10); (fl 2861 20000); (fl 6311 50000); (fl 2861 20000); (fl 3179 20000); (fl 561 4000); (fl 3179 20000)];
  [(fl 82874000 1); (fl 1 1); (fl 280000000 1); (fl 430000000 1); (fl 17 20); (fl 9 10); (fl 14799 50000); (fl 11337 50000); (fl 14799 50000); (fl 16443 50000); (fl 25193 100000); (fl 16443 50000)];
  [(fl 64163000 1); (fl 1 1); (fl 300000000 1); (fl 430000000 1); (fl 17 20); (fl 9 10); (fl 5347 25000); (fl 3511 20000); (fl 5347 25000); (fl 5941 25000); (fl 3901 20000); (fl 5941 25000)];
  [(fl 65250000 1); (fl 1 1); (fl 300000000 1); (fl 430000000 1); (fl 17 20); (fl 9 10); (fl 87 400); (fl 4463 25000); (fl 87 400); (fl 24167 100000); (fl 4959 25000); (fl 24167 100000)]].
Example t34_ok : forallb (fun r => match r with [n; k; f; g; u; p; x1; x2; x3; x4; x5; x6] => same_list d4 (ns7_1_A_reqd n f g k p u) [x1; x2; x3; x4; x5; x6] | _ => false end) t34 = true.
Proof. vm_compute. reflexivity. Qed.

(** tests/test_AS4100_5_Shear.py test_s5_11_4_V_w_Generic: 150 cases (tests/Excel/AS4100 Verification.xlsx). *)
Definition t35 : list (list pynum) := [
  [(fl 8959999999999999 500000000000000000); (fl 300000000 1); (fl 6451199999999999 2000000000)];
  [(fl 8959999999999999 500000000000000000); (fl 300000000 1); (fl 6451199999999999 2000000000)];
  [(fl 8959999999999999 500000000000000000); (fl 300000000 1); (fl 6451199999999999 2000000000)];
  [(fl 8959999999999999 500000000000000000); (fl 300000000 1); (fl 6451199999999999 2000000000)];
  [(fl 8959999999999999 500000000000000000); (fl 300000000 1); (fl 6451199999999999 2000000000)];
  [(fl 8959999999999999 500000000000000000); (fl 300000000 1); (fl 6451199999999999 2000000000)];
  [(fl 8959999999999999 500000000000000000); (fl 300000000 1); (fl 6451199999999999 2000000000)];
  [(fl 48 3125); (fl 300000000 1); (fl 2764800 1)];
  [(fl 48 3125); (fl 300000000 1); (fl 2764800 1)];
  [(fl 48 3125); (fl 300000000 1); (fl 2764800 1)];
  [(fl 48 3125); (fl 300000000 1); (fl 2764800 1)];
  [(fl 10320000000000001 1000000000000000000); (fl 310000000 1); (fl 9597600000000001 5000000000)];
  [(fl 10319999999999999 1000000000000000000); (fl 310000000 1); (fl 1919520 1)];
  [(fl 10319999999999999 1000000000000000000); (fl 310000000 1); (fl 1919520 1)];
  [(fl 10319999999999999 1000000000000000000); (fl 310000000 1); (fl 1919520 1)];
  [(fl 75999999999999991 10000000000000000000); (fl 310000000 1); (fl 7067999999999999 5000000000)];
  [(fl 19 2500); (fl 310000000 1); (fl 1413600 1)];
  [(fl 19 2500); (fl 310000000 1); (fl 1413600 1)];
  [(fl 19 2500); (fl 310000000 1); (fl 1413600 1)];
  [(fl 65999999999999991 10000000000000000000); (fl 310000000 1); (fl 6137999999999999 5000000000)];
  [(fl 65999999999999991 10000000000000000000); (fl 310000000 1); (fl 6137999999999999 5000000000)];
  [(fl 65999999999999991 10000000000000000000); (fl 310000000 1); (fl 6137999999999999 5000000000)];
  [(fl 65999999999999991 10000000000000000000); (fl 310000000 1); (fl 6137999999999999 5000000000)];
  [(fl 8959999999999999 500000000000000000); (fl 380000000 1); (fl 40857599999999991 10000000000)];
  [(fl 8959999999999999 500000000000000000); (fl 380000000 1); (fl 40857599999999991 10000000000)];
  [(fl 8959999999999999 500000000000000000); (fl 380000000 1); (fl 40857599999999991 10000000000)];
  [(fl 8959999999999999 500000000000000000); (fl 380000000 1); (fl 40857599999999991 10000000000)];
  [(fl 8959999999999999 500000000000000000); (fl 380000000 1); (fl 40857599999999991 10000000000)];
  [(fl 8959999999999999 500000000000000000); (fl 380000000 1); (fl 40857599999999991 10000000000)];
  [(fl 8959999999999999 500000000000000000); (fl 380000000 1); (fl 40857599999999991 10000000000)];
  [(fl 48 3125); (fl 380000000 1); (fl 3502080 1)];
  [(fl 48 3125); (fl 380000000 1); (fl 3502080 1)];
  [(fl 48 3125); (fl 380000000 1); (fl 3502080 1)];
  [(fl 48 3125); (fl 380000000 1); (fl 3502080 1)];
  [(fl 10320000000000001 1000000000000000000); (fl 400000000 1); (fl 2476800 1)];
  [(fl 10319999999999999 1000000000000000000); (fl 400000000 1); (fl 4953599999999999 2000000000)];
  [(fl 10319999999999999 1000000000000000000); (fl 400000000 1); (fl 4953599999999999 2000000000)];
  [(fl 10319999999999999 1000000000000000000); (fl 400000000 1); (fl 4953599999999999 2000000000)];
  [(fl 75999999999999991 10000000000000000000); (fl 400000000 1); (fl 9119999999999999 5000000000)];
  [(fl 19 2500); (fl 400000000 1); (fl 1824000 1)];
  [(fl 19 2500); (fl 400000000 1); (fl 1824000 1)];
  [(fl 19 2500); (fl 400000000 1); (fl 1824000 1)];
  [(fl 65999999999999991 10000000000000000000); (fl 400000000 1); (fl 7919999999999999 5000000000)];
  [(fl 65999999999999991 10000000000000000000); (fl 400000000 1); (fl 7919999999999999 5000000000)];
  [(fl 65999999999999991 10000000000000000000); (fl 400000000 1); (fl 7919999999999999 5000000000)];
  [(fl 65999999999999991 10000000000000000000); (fl 400000000 1); (fl 7919999999999999 5000000000)];
  [(fl 2 125); (fl 280000000 1); (fl 2688000 1)];
  [(fl 12799999999999999 1000000000000000000); (fl 280000000 1); (fl 4300799999999999 2000000000)];
  [(fl 12799999999999999 1000000000000000000); (fl 280000000 1); (fl 4300799999999999 2000000000)];
  [(fl 11250000000000001 1000000000000000000); (fl 280000000 1); (fl 9450000000000001 5000000000)];
  [(fl 90000000000000011 10000000000000000000); (fl 300000000 1); (fl 8100000000000001 5000000000)];
  [(fl 90000000000000011 10000000000000000000); (fl 300000000 1); (fl 8100000000000001 5000000000)];
  [(fl 90000000000000011 10000000000000000000); (fl 300000000 1); (fl 8100000000000001 5000000000)];
  [(fl 13999999999999999 1000000000000000000); (fl 280000000 1); (fl 4703999999999999 2000000000)];
  [(fl 97999999999999997 10000000000000000000); (fl 280000000 1); (fl 1646400 1)];
  [(fl 97999999999999997 10000000000000000000); (fl 280000000 1); (fl 1646400 1)];
  [(fl 87499999999999991 10000000000000000000); (fl 280000000 1); (fl 7349999999999999 5000000000)];
  [(fl 7000000000000001 1000000000000000000); (fl 300000000 1); (fl 6300000000000001 5000000000)];
  [(fl 7000000000000001 1000000000000000000); (fl 300000000 1); (fl 6300000000000001 5000000000)];
  [(fl 55999999999999999 10000000000000000000); (fl 300000000 1); (fl 1008000 1)];
  [(fl 38499999999999997 5000000000000000000); (fl 280000000 1); (fl 1293600 1)];
  [(fl 38499999999999997 5000000000000000000); (fl 280000000 1); (fl 1293600 1)];
  [(fl 68750000000000009 10000000000000000000); (fl 280000000 1); (fl 1155000 1)];
  [(fl 11000000000000001 2000000000000000000); (fl 300000000 1); (fl 24750000000000003 25000000000)];
  [(fl 2 125); (fl 360000000 1); (fl 3456000 1)];
  [(fl 12799999999999999 1000000000000000000); (fl 360000000 1); (fl 2764800 1)];
  [(fl 12799999999999999 1000000000000000000); (fl 360000000 1); (fl 2764800 1)];
  [(fl 11250000000000001 1000000000000000000); (fl 360000000 1); (fl 2430000 1)];
  [(fl 90000000000000011 10000000000000000000); (fl 380000000 1); (fl 10260000000000001 5000000000)];
  [(fl 90000000000000011 10000000000000000000); (fl 380000000 1); (fl 10260000000000001 5000000000)];
  [(fl 90000000000000011 10000000000000000000); (fl 380000000 1); (fl 10260000000000001 5000000000)];
  [(fl 13999999999999999 1000000000000000000); (fl 360000000 1); (fl 6047999999999999 2000000000)];
  [(fl 97999999999999997 10000000000000000000); (fl 360000000 1); (fl 2116800 1)];
  [(fl 97999999999999997 10000000000000000000); (fl 360000000 1); (fl 2116800 1)];
  [(fl 87499999999999991 10000000000000000000); (fl 360000000 1); (fl 3779999999999999 2000000000)];
  [(fl 7000000000000001 1000000000000000000); (fl 380000000 1); (fl 7980000000000001 5000000000)];
  [(fl 7000000000000001 1000000000000000000); (fl 380000000 1); (fl 7980000000000001 5000000000)];
  [(fl 55999999999999999 10000000000000000000); (fl 380000000 1); (fl 1276800 1)];
  [(fl 38499999999999997 5000000000000000000); (fl 360000000 1); (fl 1663200 1)];
  [(fl 38499999999999997 5000000000000000000); (fl 360000000 1); (fl 1663200 1)];
  [(fl 68750000000000009 10000000000000000000); (fl 360000000 1); (fl 7425000000000001 5000000000)];
  [(fl 11000000000000001 2000000000000000000); (fl 380000000 1); (fl 1254000 1)];
  [(fl 72828000000000007 10000000000000000000); (fl 300000000 1); (fl 1310904 1)];
  [(fl 16995999999999999 2500000000000000000); (fl 300000000 1); (fl 6118559999999999 5000000000)];
  [(fl 63812000000000001 10000000000000000000); (fl 320000000 1); (fl 12251903999999999 10000000000)];
  [(fl 27182999999999999 5000000000000000000); (fl 320000000 1); (fl 5219136 5)];
  [(fl 396 78125); (fl 320000000 1); (fl 48660479999999999 50000000000)];
  [(fl 5692500000000001 1250000000000000000); (fl 320000000 1); (fl 21859200000000003 25000000000)];
  [(fl 10396750000000001 2500000000000000000); (fl 320000000 1); (fl 39923520000000007 50000000000)];
  [(fl 7718000000000001 2000000000000000000); (fl 320000000 1); (fl 18523200000000003 25000000000)];
  [(fl 7917 2500000); (fl 320000000 1); (fl 30401279999999999 50000000000)];
  [(fl 30628000000000001 10000000000000000000); (fl 320000000 1); (fl 29402879999999999 50000000000)];
  [(fl 359 125000); (fl 320000000 1); (fl 551424 1)];
  [(fl 25988000000000001 10000000000000000000); (fl 320000000 1); (fl 24948479999999999 50000000000)];
  [(fl 24288000000000001 10000000000000000000); (fl 320000000 1); (fl 23316479999999999 50000000000)];
  [(fl 20569 10000000); (fl 320000000 1); (fl 39492479999999999 100000000000)];
  [(fl 9271999999999999 5000000000000000000); (fl 320000000 1); (fl 35604479999999993 100000000000)];
  [(fl 8194999999999999 5000000000000000000); (fl 320000000 1); (fl 314688 1)];
  [(fl 16384000000000001 10000000000000000000); (fl 320000000 1); (fl 31457279999999999 100000000000)];
  [(fl 15371999999999999 10000000000000000000); (fl 320000000 1); (fl 29514239999999997 100000000000)];
  [(fl 31 25000); (fl 320000000 1); (fl 238080 1)];
  [(fl 13040999999999999 10000000000000000000); (fl 320000000 1); (fl 5007743999999999 20000000000)];
  [(fl 11774000000000001 10000000000000000000); (fl 320000000 1); (fl 11303040000000001 50000000000)];
  [(fl 101 100000); (fl 320000000 1); (fl 193920 1)];
  [(fl 89099999999999997 100000000000000000000); (fl 320000000 1); (fl 171072 1)];
  [(fl 10740000000000001 10000000000000000000); (fl 320000000 1); (fl 206208 1)];
  [(fl 87499999999999991 100000000000000000000); (fl 320000000 1); (fl 168000 1)];
  [(fl 7784999999999999 10000000000000000000); (fl 320000000 1); (fl 14947199999999997 100000000000)];
  [(fl 18600000000000001 20000000000000000000); (fl 320000000 1); (fl 178560 1)];
  [(fl 37500000000000001 50000000000000000000); (fl 320000000 1); (fl 144000 1)];
  [(fl 15246000000000001 5000000000000000000); (fl 320000000 1); (fl 29272320000000001 50000000000)];
  [(fl 25669499999999997 5000000000000000000); (fl 300000000 1); (fl 23102549999999997 25000000000)];
  [(fl 22149000000000001 5000000000000000000); (fl 300000000 1); (fl 797364 1)];
  [(fl 37485000000000001 10000000000000000000); (fl 300000000 1); (fl 674730 1)];
  [(fl 13650000000000001 5000000000000000000); (fl 320000000 1); (fl 26208000000000003 50000000000)];
  [(fl 5461 2500000); (fl 320000000 1); (fl 41940479999999999 100000000000)];
  [(fl 19530000000000001 10000000000000000000); (fl 320000000 1); (fl 374976 1)];
  [(fl 16479999999999999 10000000000000000000); (fl 320000000 1); (fl 316416 1)];
  [(fl 7409500000000001 5000000000000000000); (fl 320000000 1); (fl 5690496000000001 20000000000)];
  [(fl 13121999999999999 10000000000000000000); (fl 320000000 1); (fl 25194239999999999 100000000000)];
  [(fl 2607 2500000); (fl 320000000 1); (fl 20021760000000001 100000000000)];
  [(fl 23179999999999997 25000000000000000000); (fl 320000000 1); (fl 17802239999999997 100000000000)];
  [(fl 48500000000000003 100000000000000000000); (fl 320000000 1); (fl 93120 1)];
  [(fl 13038000000000001 2000000000000000000); (fl 280000000 1); (fl 1095192 1)];
  [(fl 30625000000000001 5000000000000000000); (fl 280000000 1); (fl 1029000 1)];
  [(fl 7187500000000001 1250000000000000000); (fl 280000000 1); (fl 24150000000000003 25000000000)];
  [(fl 47124000000000003 10000000000000000000); (fl 300000000 1); (fl 848232 1)];
  [(fl 36321999999999999 10000000000000000000); (fl 300000000 1); (fl 653796 1)];
  [(fl 33189000000000001 10000000000000000000); (fl 300000000 1); (fl 597402 1)];
  [(fl 13090999999999999 5000000000000000000); (fl 320000000 1); (fl 50269439999999991 100000000000)];
  [(fl 19 5000); (fl 320000000 1); (fl 729600 1)];
  [(fl 11999999999999999 5000000000000000000); (fl 320000000 1); (fl 23039999999999997 50000000000)];
  [(fl 1 500); (fl 320000000 1); (fl 384000 1)];
  [(fl 299 200000); (fl 320000000 1); (fl 287040 1)];
  [(fl 12000000000000001 10000000000000000000); (fl 320000000 1); (fl 23040000000000003 100000000000)];
  [(fl 27 25000); (fl 320000000 1); (fl 207360 1)];
  [(fl 44999999999999999 50000000000000000000); (fl 320000000 1); (fl 172800 1)];
  [(fl 29375000000000001 50000000000000000000); (fl 320000000 1); (fl 112800 1)];
  [(fl 42000000000000007 100000000000000000000); (fl 320000000 1); (fl 16128000000000003 200000000000)];
  [(fl 28499999999999999 100000000000000000000); (fl 320000000 1); (fl 54720 1)];
  [(fl 9599999999999999 500000000000000000); (fl 320000000 1); (fl 7372799999999999 2000000000)];
  [(fl 9599999999999999 500000000000000000); (fl 320000000 1); (fl 7372799999999999 2000000000)];
  [(fl 9599999999999999 500000000000000000); (fl 320000000 1); (fl 7372799999999999 2000000000)];
  [(fl 9599999999999999 500000000000000000); (fl 320000000 1); (fl 7372799999999999 2000000000)];
  [(fl 9599999999999999 500000000000000000); (fl 320000000 1); (fl 7372799999999999 2000000000)];
  [(fl 45999999999999999 5000000000000000000); (fl 320000000 1); (fl 1766400 1)];
  [(fl 45999999999999999 5000000000000000000); (fl 320000000 1); (fl 1766400 1)];
  [(fl 45999999999999999 5000000000000000000); (fl 320000000 1); (fl 1766400 1)];
  [(fl 45999999999999999 5000000000000000000); (fl 320000000 1); (fl 1766400 1)];
  [(fl 45999999999999999 5000000000000000000); (fl 320000000 1); (fl 1766400 1)]].
Example t35_ok : forallb (fun r => match r with [a; f; x] => isclose (ns5_11_4_V_w_Generic a f (fl 6 10)) x | _ => false end) t35 = true.
Proof. vm_compute. reflexivity. Qed.

(** tests/test_AS4100_5_Shear.py test_s5_11_4_V_w_CHS: 87 cases (tests/Excel/AS4100 Verification.xlsx). *)
Definition t36 : list (list pynum) := [
  [(fl 247 10000); (fl 350000000 1); (fl 3112200 1)];
  [(fl 39 2000); (fl 350000000 1); (fl 2457000 1)];
  [(fl 15599999999999999 1000000000000000000); (fl 350000000 1); (fl 1965600 1)];
  [(fl 22200000000000001 1000000000000000000); (fl 350000000 1); (fl 2797200 1)];
  [(fl 8750000000000001 500000000000000000); (fl 350000000 1); (fl 4410000000000001 2000000000)];
  [(fl 7 500); (fl 350000000 1); (fl 1764000 1)];
  [(fl 19599999999999999 1000000000000000000); (fl 350000000 1); (fl 2469600 1)];
  [(fl 31 2000); (fl 350000000 1); (fl 1953000 1)];
  [(fl 12500000000000001 1000000000000000000); (fl 350000000 1); (fl 1575000 1)];
  [(fl 1 100); (fl 350000000 1); (fl 1260000 1)];
  [(fl 17100000000000001 1000000000000000000); (fl 350000000 1); (fl 2154600 1)];
  [(fl 27 2000); (fl 350000000 1); (fl 1701000 1)];
  [(fl 109 10000); (fl 350000000 1); (fl 1373400 1)];
  [(fl 17479999999999999 2000000000000000000); (fl 350000000 1); (fl 1101240 1)];
  [(fl 12200000000000001 1000000000000000000); (fl 350000000 1); (fl 1537200 1)];
  [(fl 98600000000000007 10000000000000000000); (fl 350000000 1); (fl 6211800000000001 5000000000)];
  [(fl 79399999999999991 10000000000000000000); (fl 350000000 1); (fl 5002199999999999 5000000000)];
  [(fl 59899999999999997 10000000000000000000); (fl 350000000 1); (fl 18868499999999997 25000000000)];
  [(fl 10200000000000001 1000000000000000000); (fl 350000000 1); (fl 6426000000000001 5000000000)];
  [(fl 20674999999999999 2500000000000000000); (fl 350000000 1); (fl 1042020 1)];
  [(fl 66600000000000001 10000000000000000000); (fl 350000000 1); (fl 839160 1)];
  [(fl 50299999999999997 10000000000000000000); (fl 350000000 1); (fl 633780 1)];
  [(fl 21050000000000001 5000000000000000000); (fl 350000000 1); (fl 530460 1)];
  [(fl 10137499999999999 1250000000000000000); (fl 350000000 1); (fl 5109299999999999 5000000000)];
  [(fl 65700000000000003 10000000000000000000); (fl 350000000 1); (fl 827820 1)];
  [(fl 13274999999999999 2500000000000000000); (fl 350000000 1); (fl 16726499999999997 25000000000)];
  [(fl 40200000000000001 10000000000000000000); (fl 350000000 1); (fl 506520 1)];
  [(fl 33600000000000001 10000000000000000000); (fl 350000000 1); (fl 423360 1)];
  [(fl 577 100000); (fl 350000000 1); (fl 727020 1)];
  [(fl 46699999999999997 10000000000000000000); (fl 350000000 1); (fl 588420 1)];
  [(fl 17700000000000001 5000000000000000000); (fl 350000000 1); (fl 446040 1)];
  [(fl 37 12500); (fl 350000000 1); (fl 372960 1)];
  [(fl 12424999999999999 2500000000000000000); (fl 350000000 1); (fl 15655499999999997 25000000000)];
  [(fl 40299999999999997 10000000000000000000); (fl 350000000 1); (fl 507780 1)];
  [(fl 15299999999999999 5000000000000000000); (fl 350000000 1); (fl 385560 1)];
  [(fl 12849999999999999 5000000000000000000); (fl 350000000 1); (fl 16190999999999997 50000000000)];
  [(fl 10300000000000001 5000000000000000000); (fl 350000000 1); (fl 25956000000000003 100000000000)];
  [(fl 17799999999999999 10000000000000000000); (fl 350000000 1); (fl 224280 1)];
  [(fl 15299999999999999 10000000000000000000); (fl 350000000 1); (fl 192780 1)];
  [(fl 3 2000); (fl 350000000 1); (fl 189000 1)];
  [(fl 12899999999999999 10000000000000000000); (fl 350000000 1); (fl 16253999999999997 100000000000)];
  [(fl 1 800); (fl 350000000 1); (fl 157500 1)];
  [(fl 11199999999999999 10000000000000000000); (fl 350000000 1); (fl 14111999999999997 100000000000)];
  [(fl 12362500000000001 12500000000000000000); (fl 350000000 1); (fl 124614 1)];
  [(fl 20225000000000001 25000000000000000000); (fl 350000000 1); (fl 101934 1)];
  [(fl 86200000000000003 100000000000000000000); (fl 350000000 1); (fl 108612 1)];
  [(fl 70500000000000001 100000000000000000000); (fl 350000000 1); (fl 88830 1)];
  [(fl 18325000000000001 25000000000000000000); (fl 350000000 1); (fl 92358 1)];
  [(fl 10660000000000001 20000000000000000000); (fl 350000000 1); (fl 13431600000000003 200000000000)];
  [(fl 52300000000000003 100000000000000000000); (fl 350000000 1); (fl 65898 1)];
  [(fl 41899999999999999 100000000000000000000); (fl 350000000 1); (fl 52794 1)];
  [(fl 20699999999999999 50000000000000000000); (fl 350000000 1); (fl 52164 1)];
  [(fl 33199999999999999 100000000000000000000); (fl 350000000 1); (fl 41832 1)];
  [(fl 32499999999999999 100000000000000000000); (fl 350000000 1); (fl 40950 1)];
  [(fl 25399999999999999 100000000000000000000); (fl 350000000 1); (fl 32004 1)];
  [(fl 25399999999999999 100000000000000000000); (fl 350000000 1); (fl 32004 1)];
  [(fl 19900000000000001 100000000000000000000); (fl 350000000 1); (fl 25074 1)];
  [(fl 17799999999999999 100000000000000000000); (fl 350000000 1); (fl 22428 1)];
  [(fl 39 250000); (fl 350000000 1); (fl 19656 1)];
  [(fl 13550000000000001 5000000000000000000); (fl 250000000 1); (fl 243900 1)];
  [(fl 25100000000000001 10000000000000000000); (fl 250000000 1); (fl 225900 1)];
  [(fl 22799999999999999 10000000000000000000); (fl 250000000 1); (fl 205200 1)];
  [(fl 21199999999999999 10000000000000000000); (fl 250000000 1); (fl 190800 1)];
  [(fl 18500000000000001 10000000000000000000); (fl 250000000 1); (fl 166500 1)];
  [(fl 15499999999999999 10000000000000000000); (fl 250000000 1); (fl 139500 1)];
  [(fl 15200000000000001 10000000000000000000); (fl 250000000 1); (fl 136800 1)];
  [(fl 123 100000); (fl 250000000 1); (fl 110700 1)];
  [(fl 15399999999999999 10000000000000000000); (fl 250000000 1); (fl 138600 1)];
  [(fl 33 25000); (fl 250000000 1); (fl 118800 1)];
  [(fl 107 100000); (fl 250000000 1); (fl 96300 1)];
  [(fl 12999999999999999 10000000000000000000); (fl 250000000 1); (fl 117000 1)];
  [(fl 101 100000); (fl 250000000 1); (fl 90900 1)];
  [(fl 40999999999999999 50000000000000000000); (fl 250000000 1); (fl 73800 1)];
  [(fl 93099999999999997 100000000000000000000); (fl 250000000 1); (fl 83790 1)];
  [(fl 78899999999999999 100000000000000000000); (fl 250000000 1); (fl 71010 1)];
  [(fl 64099999999999997 100000000000000000000); (fl 250000000 1); (fl 57690 1)];
  [(fl 55699999999999999 100000000000000000000); (fl 250000000 1); (fl 50130 1)];
  [(fl 45300000000000001 100000000000000000000); (fl 250000000 1); (fl 40770 1)];
  [(fl 24149999999999999 50000000000000000000); (fl 250000000 1); (fl 43470 1)];
  [(fl 19699999999999999 50000000000000000000); (fl 250000000 1); (fl 35460 1)];
  [(fl 37300000000000001 100000000000000000000); (fl 250000000 1); (fl 33570 1)];
  [(fl 15349999999999999 50000000000000000000); (fl 250000000 1); (fl 27630 1)];
  [(fl 28800000000000001 100000000000000000000); (fl 250000000 1); (fl 25920 1)];
  [(fl 23800000000000001 100000000000000000000); (fl 250000000 1); (fl 21420 1)];
  [(fl 19799999999999999 100000000000000000000); (fl 250000000 1); (fl 17820 1)];
  [(fl 18200000000000001 100000000000000000000); (fl 250000000 1); (fl 16380 1)];
  [(fl 15300000000000001 100000000000000000000); (fl 250000000 1); (fl 13770 1)]].
Example t36_ok : forallb (fun r => match r with [a; f; x] => isclose (ns5_11_4_V_w_CHS a f (fl 6 10) (fl 6 10)) x | _ => false end) t36 = true.
Proof. vm_compute. reflexivity. Qed.

(** tests/test_AS4100_5_Shear.py test_s5_11_5_α_v: 150 cases (tests/Excel/AS4100 Verification.xlsx). *)
Definition t37 : list (list pynum) := [
  [(fl 11199999999999999 10000000000000000); (fl 2 125); (fl 300000000 1); (fl 1 1)];
  [(fl 11199999999999999 10000000000000000); (fl 2 125); (fl 300000000 1); (fl 1 1)];
  [(fl 11199999999999999 10000000000000000); (fl 2 125); (fl 300000000 1); (fl 1 1)];
  [(fl 11199999999999999 10000000000000000); (fl 2 125); (fl 300000000 1); (fl 1 1)];
  [(fl 11199999999999999 10000000000000000); (fl 2 125); (fl 300000000 1); (fl 1 1)];
  [(fl 11199999999999999 10000000000000000); (fl 2 125); (fl 300000000 1); (fl 1 1)];
  [(fl 11199999999999999 10000000000000000); (fl 2 125); (fl 300000000 1); (fl 1 1)];
  [(fl 24 25); (fl 2 125); (fl 300000000 1); (fl 1 1)];
  [(fl 24 25); (fl 2 125); (fl 300000000 1); (fl 1 1)];
  [(fl 24 25); (fl 2 125); (fl 300000000 1); (fl 1 1)];
  [(fl 24 25); (fl 2 125); (fl 300000000 1); (fl 1 1)];
  [(fl 8600000000000001 10000000000000000); (fl 3 250); (fl 310000000 1); (fl 1 1)];
  [(fl 43 50); (fl 3 250); (fl 310000000 1); (fl 1 1)];
  [(fl 43 50); (fl 3 250); (fl 310000000 1); (fl 1 1)];
  [(fl 43 50); (fl 3 250); (fl 310000000 1); (fl 1 1)];
  [(fl 7599999999999999 10000000000000000); (fl 1 100); (fl 310000000 1); (fl 46940621928335291 50000000000000000)];
  [(fl 19 25); (fl 1 100); (fl 310000000 1); (fl 18776248771334103 20000000000000000)];
  [(fl 19 25); (fl 1 100); (fl 310000000 1); (fl 18776248771334103 20000000000000000)];
  [(fl 19 25); (fl 1 100); (fl 310000000 1); (fl 18776248771334103 20000000000000000)];
  [(fl 8249999999999999 12500000000000000); (fl 1 100); (fl 310000000 1); (fl 1 1)];
  [(fl 8249999999999999 12500000000000000); (fl 1 100); (fl 310000000 1); (fl 1 1)];
  [(fl 8249999999999999 12500000000000000); (fl 1 100); (fl 310000000 1); (fl 1 1)];
  [(fl 8249999999999999 12500000000000000); (fl 1 100); (fl 310000000 1); (fl 1 1)];
  [(fl 11199999999999999 10000000000000000); (fl 2 125); (fl 380000000 1); (fl 22569817400644479 25000000000000000)];
  [(fl 11199999999999999 10000000000000000); (fl 2 125); (fl 380000000 1); (fl 22569817400644479 25000000000000000)];
  [(fl 11199999999999999 10000000000000000); (fl 2 125); (fl 380000000 1); (fl 22569817400644479 25000000000000000)];
  [(fl 11199999999999999 10000000000000000); (fl 2 125); (fl 380000000 1); (fl 22569817400644479 25000000000000000)];
  [(fl 11199999999999999 10000000000000000); (fl 2 125); (fl 380000000 1); (fl 22569817400644479 25000000000000000)];
  [(fl 11199999999999999 10000000000000000); (fl 2 125); (fl 380000000 1); (fl 22569817400644479 25000000000000000)];
  [(fl 11199999999999999 10000000000000000); (fl 2 125); (fl 380000000 1); (fl 22569817400644479 25000000000000000)];
  [(fl 24 25); (fl 2 125); (fl 380000000 1); (fl 1 1)];
  [(fl 24 25); (fl 2 125); (fl 380000000 1); (fl 1 1)];
  [(fl 24 25); (fl 2 125); (fl 380000000 1); (fl 1 1)];
  [(fl 24 25); (fl 2 125); (fl 380000000 1); (fl 1 1)];
  [(fl 8600000000000001 10000000000000000); (fl 3 250); (fl 400000000 1); (fl 81822606814494303 100000000000000000)];
  [(fl 43 50); (fl 3 250); (fl 400000000 1); (fl 3272904272579773 4000000000000000)];
  [(fl 43 50); (fl 3 250); (fl 400000000 1); (fl 3272904272579773 4000000000000000)];
  [(fl 43 50); (fl 3 250); (fl 400000000 1); (fl 3272904272579773 4000000000000000)];
  [(fl 7599999999999999 10000000000000000); (fl 1 100); (fl 400000000 1); (fl 72757963988919683 100000000000000000)];
  [(fl 19 25); (fl 1 100); (fl 400000000 1); (fl 72757963988919661 100000000000000000)];
  [(fl 19 25); (fl 1 100); (fl 400000000 1); (fl 72757963988919661 100000000000000000)];
  [(fl 19 25); (fl 1 100); (fl 400000000 1); (fl 72757963988919661 100000000000000000)];
  [(fl 8249999999999999 12500000000000000); (fl 1 100); (fl 400000000 1); (fl 48238062442607921 50000000000000000)];
  [(fl 8249999999999999 12500000000000000); (fl 1 100); (fl 400000000 1); (fl 48238062442607921 50000000000000000)];
  [(fl 8249999999999999 12500000000000000); (fl 1 100); (fl 400000000 1); (fl 48238062442607921 50000000000000000)];
  [(fl 8249999999999999 12500000000000000); (fl 1 100); (fl 400000000 1); (fl 48238062442607921 50000000000000000)];
  [(fl 39999999999999997 100000000000000000); (fl 1 25); (fl 280000000 1); (fl 1 1)];
  [(fl 39999999999999997 100000000000000000); (fl 32000000000000001 1000000000000000000); (fl 280000000 1); (fl 1 1)];
  [(fl 39999999999999997 100000000000000000); (fl 32000000000000001 1000000000000000000); (fl 280000000 1); (fl 1 1)];
  [(fl 9 20); (fl 25000000000000001 1000000000000000000); (fl 280000000 1); (fl 1 1)];
  [(fl 9 20); (fl 1 50); (fl 300000000 1); (fl 1 1)];
  [(fl 9 20); (fl 1 50); (fl 300000000 1); (fl 1 1)];
  [(fl 9 20); (fl 1 50); (fl 300000000 1); (fl 1 1)];
  [(fl 7 20); (fl 1 25); (fl 280000000 1); (fl 1 1)];
  [(fl 7 20); (fl 28000000000000001 1000000000000000000); (fl 280000000 1); (fl 1 1)];
  [(fl 7 20); (fl 28000000000000001 1000000000000000000); (fl 280000000 1); (fl 1 1)];
  [(fl 7 20); (fl 25000000000000001 1000000000000000000); (fl 280000000 1); (fl 1 1)];
  [(fl 35000000000000003 100000000000000000); (fl 1 50); (fl 300000000 1); (fl 1 1)];
  [(fl 35000000000000003 100000000000000000); (fl 1 50); (fl 300000000 1); (fl 1 1)];
  [(fl 7 20); (fl 2 125); (fl 300000000 1); (fl 1 1)];
  [(fl 27499999999999997 100000000000000000); (fl 28000000000000001 1000000000000000000); (fl 280000000 1); (fl 1 1)];
  [(fl 27499999999999997 100000000000000000); (fl 28000000000000001 1000000000000000000); (fl 280000000 1); (fl 1 1)];
  [(fl 13750000000000001 50000000000000000); (fl 25000000000000001 1000000000000000000); (fl 280000000 1); (fl 1 1)];
  [(fl 13750000000000001 50000000000000000); (fl 1 50); (fl 300000000 1); (fl 1 1)];
  [(fl 39999999999999997 100000000000000000); (fl 1 25); (fl 360000000 1); (fl 1 1)];
  [(fl 39999999999999997 100000000000000000); (fl 32000000000000001 1000000000000000000); (fl 360000000 1); (fl 1 1)];
  [(fl 39999999999999997 100000000000000000); (fl 32000000000000001 1000000000000000000); (fl 360000000 1); (fl 1 1)];
  [(fl 9 20); (fl 25000000000000001 1000000000000000000); (fl 360000000 1); (fl 1 1)];
  [(fl 9 20); (fl 1 50); (fl 380000000 1); (fl 1 1)];
  [(fl 9 20); (fl 1 50); (fl 380000000 1); (fl 1 1)];
  [(fl 9 20); (fl 1 50); (fl 380000000 1); (fl 1 1)];
  [(fl 7 20); (fl 1 25); (fl 360000000 1); (fl 1 1)];
  [(fl 7 20); (fl 28000000000000001 1000000000000000000); (fl 360000000 1); (fl 1 1)];
  [(fl 7 20); (fl 28000000000000001 1000000000000000000); (fl 360000000 1); (fl 1 1)];
  [(fl 7 20); (fl 25000000000000001 1000000000000000000); (fl 360000000 1); (fl 1 1)];
  [(fl 35000000000000003 100000000000000000); (fl 1 50); (fl 380000000 1); (fl 1 1)];
  [(fl 35000000000000003 100000000000000000); (fl 1 50); (fl 380000000 1); (fl 1 1)];
  [(fl 7 20); (fl 2 125); (fl 380000000 1); (fl 1 1)];
  [(fl 27499999999999997 100000000000000000); (fl 28000000000000001 1000000000000000000); (fl 360000000 1); (fl 1 1)];
  [(fl 27499999999999997 100000000000000000); (fl 28000000000000001 1000000000000000000); (fl 360000000 1); (fl 1 1)];
  [(fl 13750000000000001 50000000000000000); (fl 25000000000000001 1000000000000000000); (fl 360000000 1); (fl 1 1)];
  [(fl 13750000000000001 50000000000000000); (fl 1 50); (fl 380000000 1); (fl 1 1)];
  [(fl 28639999999999999 50000000000000000); (fl 11900000000000001 1000000000000000000); (fl 300000000 1); (fl 1 1)];
  [(fl 28620000000000001 50000000000000000); (fl 7 625); (fl 300000000 1); (fl 1 1)];
  [(fl 28620000000000001 50000000000000000); (fl 53 5000); (fl 320000000 1); (fl 1 1)];
  [(fl 25090000000000001 50000000000000000); (fl 10199999999999999 1000000000000000000); (fl 320000000 1); (fl 1 1)];
  [(fl 10032000000000001 20000000000000000); (fl 11999999999999999 1250000000000000000); (fl 320000000 1); (fl 1 1)];
  [(fl 8560000000000001 20000000000000000); (fl 12375000000000001 1250000000000000000); (fl 320000000 1); (fl 1 1)];
  [(fl 42799999999999999 100000000000000000); (fl 22750000000000001 2500000000000000000); (fl 320000000 1); (fl 1 1)];
  [(fl 10715000000000001 25000000000000000); (fl 42500000000000003 5000000000000000000); (fl 320000000 1); (fl 1 1)];
  [(fl 19020000000000001 50000000000000000); (fl 19499999999999999 2500000000000000000); (fl 320000000 1); (fl 1 1)];
  [(fl 9530000000000001 25000000000000000); (fl 19 2500); (fl 320000000 1); (fl 1 1)];
  [(fl 8324999999999999 25000000000000000); (fl 40000000000000001 5000000000000000000); (fl 320000000 1); (fl 1 1)];
  [(fl 8324999999999999 25000000000000000); (fl 73000000000000001 10000000000000000000); (fl 320000000 1); (fl 1 1)];
  [(fl 33260000000000001 100000000000000000); (fl 8625000000000001 1250000000000000000); (fl 320000000 1); (fl 1 1)];
  [(fl 28339999999999999 100000000000000000); (fl 33500000000000001 5000000000000000000); (fl 320000000 1); (fl 1 1)];
  [(fl 14180000000000001 50000000000000000); (fl 12199999999999999 2000000000000000000); (fl 320000000 1); (fl 1 1)];
  [(fl 28199999999999997 100000000000000000); (fl 54999999999999997 10000000000000000000); (fl 320000000 1); (fl 1 1)];
  [(fl 11710000000000001 50000000000000000); (fl 64000000000000003 10000000000000000000); (fl 320000000 1); (fl 1 1)];
  [(fl 23480000000000001 100000000000000000); (fl 12199999999999999 2000000000000000000); (fl 320000000 1); (fl 1 1)];
  [(fl 11599999999999999 50000000000000000); (fl 50000000000000001 10000000000000000000); (fl 320000000 1); (fl 1 1)];
  [(fl 18779999999999999 100000000000000000); (fl 63 10000); (fl 320000000 1); (fl 1 1)];
  [(fl 18740000000000001 100000000000000000); (fl 14499999999999999 2500000000000000000); (fl 320000000 1); (fl 1 1)];
  [(fl 47 250); (fl 50000000000000001 10000000000000000000); (fl 320000000 1); (fl 1 1)];
  [(fl 23 125); (fl 44999999999999997 10000000000000000000); (fl 320000000 1); (fl 1 1)];
  [(fl 159 1000); (fl 60000000000000001 10000000000000000000); (fl 320000000 1); (fl 1 1)];
  [(fl 15899999999999997 100000000000000000); (fl 50000000000000001 10000000000000000000); (fl 320000000 1); (fl 1 1)];
  [(fl 15899999999999997 100000000000000000); (fl 44999999999999997 10000000000000000000); (fl 320000000 1); (fl 1 1)];
  [(fl 13600000000000001 100000000000000000); (fl 60000000000000001 10000000000000000000); (fl 320000000 1); (fl 1 1)];
  [(fl 6799999999999999 50000000000000000); (fl 50000000000000001 10000000000000000000); (fl 320000000 1); (fl 1 1)];
  [(fl 693 2500); (fl 12375000000000001 1250000000000000000); (fl 320000000 1); (fl 1 1)];
  [(fl 13850000000000001 50000000000000000); (fl 15699999999999999 1000000000000000000); (fl 300000000 1); (fl 1 1)];
  [(fl 27760000000000001 100000000000000000); (fl 6900000000000001 500000000000000000); (fl 300000000 1); (fl 1 1)];
  [(fl 27760000000000001 100000000000000000); (fl 11900000000000001 1000000000000000000); (fl 300000000 1); (fl 1 1)];
  [(fl 11270000000000001 50000000000000000); (fl 10500000000000001 1000000000000000000); (fl 320000000 1); (fl 1 1)];
  [(fl 22559999999999999 100000000000000000); (fl 43 5000); (fl 320000000 1); (fl 1 1)];
  [(fl 9079999999999999 50000000000000000); (fl 9300000000000001 1000000000000000000); (fl 320000000 1); (fl 1 1)];
  [(fl 18099999999999999 100000000000000000); (fl 40000000000000001 5000000000000000000); (fl 320000000 1); (fl 1 1)];
  [(fl 9050000000000001 50000000000000000); (fl 73000000000000001 10000000000000000000); (fl 320000000 1); (fl 1 1)];
  [(fl 13900000000000001 100000000000000000); (fl 20249999999999999 2500000000000000000); (fl 320000000 1); (fl 1 1)];
  [(fl 13919999999999999 100000000000000000); (fl 33 5000); (fl 320000000 1); (fl 1 1)];
  [(fl 173 1250); (fl 12199999999999999 2000000000000000000); (fl 320000000 1); (fl 1 1)];
  [(fl 20750000000000001 250000000000000000); (fl 50000000000000001 10000000000000000000); (fl 320000000 1); (fl 1 1)];
  [(fl 27660000000000001 100000000000000000); (fl 20500000000000001 1000000000000000000); (fl 280000000 1); (fl 1 1)];
  [(fl 18099999999999999 100000000000000000); (fl 25000000000000001 1000000000000000000); (fl 280000000 1); (fl 1 1)];
  [(fl 9 50); (fl 25000000000000001 1000000000000000000); (fl 280000000 1); (fl 1 1)];
  [(fl 693 2500); (fl 15300000000000001 1000000000000000000); (fl 300000000 1); (fl 1 1)];
  [(fl 22539999999999999 100000000000000000); (fl 143 10000); (fl 300000000 1); (fl 1 1)];
  [(fl 27679999999999999 100000000000000000); (fl 111 10000); (fl 300000000 1); (fl 1 1)];
  [(fl 1129 5000); (fl 53 5000); (fl 320000000 1); (fl 1 1)];
  [(fl 34499999999999997 100000000000000000); (fl 1 100); (fl 320000000 1); (fl 1 1)];
  [(fl 13400000000000001 50000000000000000); (fl 40000000000000001 5000000000000000000); (fl 320000000 1); (fl 1 1)];
  [(fl 11 50); (fl 40000000000000001 5000000000000000000); (fl 320000000 1); (fl 1 1)];
  [(fl 10300000000000001 50000000000000000); (fl 64999999999999997 10000000000000000000); (fl 320000000 1); (fl 1 1)];
  [(fl 8800000000000001 50000000000000000); (fl 60000000000000001 10000000000000000000); (fl 320000000 1); (fl 1 1)];
  [(fl 79 500); (fl 60000000000000001 10000000000000000000); (fl 320000000 1); (fl 1 1)];
  [(fl 13100000000000001 100000000000000000); (fl 60000000000000001 10000000000000000000); (fl 320000000 1); (fl 1 1)];
  [(fl 11 100); (fl 23500000000000001 5000000000000000000); (fl 320000000 1); (fl 1 1)];
  [(fl 8660000000000001 100000000000000000); (fl 21000000000000003 5000000000000000000); (fl 320000000 1); (fl 1 1)];
  [(fl 12559999999999999 200000000000000000); (fl 19 5000); (fl 320000000 1); (fl 1 1)];
  [(fl 24 25); (fl 1 100); (fl 320000000 1); (fl 57000054253472221 100000000000000000)];
  [(fl 24 25); (fl 1 100); (fl 320000000 1); (fl 57000054253472221 100000000000000000)];
  [(fl 24 25); (fl 1 100); (fl 320000000 1); (fl 57000054253472221 100000000000000000)];
  [(fl 24 25); (fl 1 100); (fl 320000000 1); (fl 57000054253472221 100000000000000000)];
  [(fl 24 25); (fl 1 100); (fl 320000000 1); (fl 57000054253472221 100000000000000000)];
  [(fl 23 50); (fl 1 100); (fl 320000000 1); (fl 1 1)];
  [(fl 23 50); (fl 1 100); (fl 320000000 1); (fl 1 1)];
  [(fl 23 50); (fl 1 100); (fl 320000000 1); (fl 1 1)];
  [(fl 23 50); (fl 1 100); (fl 320000000 1); (fl 1 1)];
  [(fl 23 50); (fl 1 100); (fl 320000000 1); (fl 1 1)]].
Example t37_ok : forallb (fun r => match r with [d; t; f; x] => okclose (ns5_11_5_alpha_v tpow d t f (fl 82 1) (fl 250000000 1)) x | _ => false end) t37 = true.
Proof. vm_compute. reflexivity. Qed.

(** tests/test_AS4100_5_Shear.py test_s5_11_3_α_vma: 21 cases (tests/Excel/AS4100 Verification.xlsx). *)
Definition t38 : list (list pynum) := [
  [(fl 0 1); (fl 250000000 1); (fl 1 1)];
  [(fl 50000000 1); (fl 250000000 1); (fl 1 1)];
  [(fl 100000000 1); (fl 250000000 1); (fl 1 1)];
  [(fl 150000000 1); (fl 250000000 1); (fl 1 1)];
  [(fl 200000000 1); (fl 250000000 1); (fl 1 1)];
  [(fl 250000000 1); (fl 250000000 1); (fl 1 1)];
  [(fl 300000000 1); (fl 250000000 1); (fl 95238095238095233 100000000000000000)];
  [(fl 350000000 1); (fl 250000000 1); (fl 86956521739130443 100000000000000000)];
  [(fl 400000000 1); (fl 250000000 1); (fl 4 5)];
  [(fl 450000000 1); (fl 250000000 1); (fl 7407407407407407 10000000000000000)];
  [(fl 500000000 1); (fl 250000000 1); (fl 13793103448275863 20000000000000000)];
  [(fl 550000000 1); (fl 250000000 1); (fl 64516129032258063 100000000000000000)];
  [(fl 600000000 1); (fl 250000000 1); (fl 946969696969697 1562500000000000)];
  [(fl 650000000 1); (fl 250000000 1); (fl 2857142857142857 5000000000000000)];
  [(fl 700000000 1); (fl 250000000 1); (fl 54054054054054057 100000000000000000)];
  [(fl 750000000 1); (fl 250000000 1); (fl 51282051282051289 100000000000000000)];
  [(fl 800000000 1); (fl 250000000 1); (fl 24390243902439021 50000000000000000)];
  [(fl 850000000 1); (fl 250000000 1); (fl 5813953488372093 12500000000000000)];
  [(fl 900000000 1); (fl 250000000 1); (fl 22222222222222221 50000000000000000)];
  [(fl 950000000 1); (fl 250000000 1); (fl 21276595744680851 50000000000000000)];
  [(fl 1000000000 1); (fl 250000000 1); (fl 510204081632653 1250000000000000)]].
Example t38_ok : forallb (fun r => match r with [m; a; x] => okclose (ns5_11_3_alpha_vma m a) x | _ => false end) t38 = true.
Proof. vm_compute. reflexivity. Qed.

(** tests/test_AS4100_5_Shear.py test_s5_11_4_V_w_Weld: 82 cases (tests/Excel/AS4100 Verification.xlsx). *)
Definition t39 : list (list pynum) := [
  [(fl 6880000 1); (fl 11599999999999999 1000000000000000000); (fl 15299999999999999 1000000000000000000); (fl 45372413793103453 5000000000)];
  [(fl 6880000 1); (fl 5201999999999999 500000000000000000); (fl 13899999999999999 1000000000000000000); (fl 91918492887351029 10000000000)];
  [(fl 6880000 1); (fl 46080000000000001 5000000000000000000); (fl 12500000000000001 1000000000000000000); (fl 4665798611111111 500000000)];
  [(fl 6880000 1); (fl 73727999999999997 10000000000000000000); (fl 13 1250); (fl 97048611111111119 10000000000)];
  [(fl 6880000 1); (fl 64288000000000001 10000000000000000000); (fl 18499999999999999 2000000000000000000); (fl 19798407167745147 2000000000)];
  [(fl 6880000 1); (fl 50093749999999999 10000000000000000000); (fl 19024999999999999 2500000000000000000); (fl 104517629444791 10000000)];
  [(fl 6880000 1); (fl 19679687500000001 5000000000000000000); (fl 63800000000000003 10000000000000000000); (fl 11152209606986899 1000000000)];
  [(fl 6880000 1); (fl 63487999999999999 10000000000000000000); (fl 74799999999999997 10000000000000000000); (fl 81058467741935477 10000000000)];
  [(fl 6880000 1); (fl 55328000000000009 10000000000000000000); (fl 66499999999999997 10000000000000000000); (fl 82692307692307681 10000000000)];
  [(fl 6880000 1); (fl 21546874999999999 5000000000000000000); (fl 54299999999999999 10000000000000000000); (fl 21672748368382887 2500000000)];
  [(fl 6880000 1); (fl 29399999999999999 10000000000000000000); (fl 20300000000000001 5000000000000000000); (fl 3800380952380953 400000000)];
  [(fl 5160000 1); (fl 446 78125); (fl 57299999999999999 10000000000000000000); (fl 12947904988789237 2500000000)];
  [(fl 5160000 1); (fl 12432000000000003 2500000000000000000); (fl 25249999999999999 5000000000000000000); (fl 26200530888030883 5000000000)];
  [(fl 5160000 1); (fl 19359374999999997 5000000000000000000); (fl 20300000000000001 5000000000000000000); (fl 54107118644067813 10000000000)];
  [(fl 5160000 1); (fl 33 12500); (fl 37 12500); (fl 57854545454545459 10000000000)];
  [(fl 4300000 1); (fl 33095999999999993 10000000000000000000); (fl 297 100000); (fl 38587744742567083 10000000000)];
  [(fl 4300000 1); (fl 26984375000000003 10000000000000000000); (fl 31 12500); (fl 19759583092067167 5000000000)];
  [(fl 4300000 1); (fl 10725000000000001 5000000000000000000); (fl 20400000000000001 10000000000000000000); (fl 10223776223776223 2500000000)];
  [(fl 4300000 1); (fl 97 62500); (fl 157 100000); (fl 21749355670103091 5000000000)];
  [(fl 4300000 1); (fl 13244000000000001 5000000000000000000); (fl 10300000000000001 5000000000000000000); (fl 16720779220779219 5000000000)];
  [(fl 4300000 1); (fl 21406249999999997 10000000000000000000); (fl 17099999999999999 10000000000000000000); (fl 4293722627737227 1250000000)];
  [(fl 4300000 1); (fl 16999999999999999 10000000000000000000); (fl 7 5000); (fl 35411764705882357 10000000000)];
  [(fl 4300000 1); (fl 13519999999999999 10000000000000000000); (fl 23 20000); (fl 36575443786982251 10000000000)];
  [(fl 7680000 1); (fl 11599999999999999 1000000000000000000); (fl 15299999999999999 1000000000000000000); (fl 5064827586206897 500000000)];
  [(fl 7680000 1); (fl 5201999999999999 500000000000000000); (fl 13899999999999999 1000000000000000000); (fl 20040369088812 1953125)];
  [(fl 7680000 1); (fl 46080000000000001 5000000000000000000); (fl 12500000000000001 1000000000000000000); (fl 5208333333333333 500000000)];
  [(fl 7680000 1); (fl 73727999999999997 10000000000000000000); (fl 13 1250); (fl 5416666666666667 500000000)];
  [(fl 7680000 1); (fl 64288000000000001 10000000000000000000); (fl 18499999999999999 2000000000000000000); (fl 11050273768043803 1000000000)];
  [(fl 7680000 1); (fl 50093749999999999 10000000000000000000); (fl 19024999999999999 2500000000000000000); (fl 233341684341859 20000000)];
  [(fl 7680000 1); (fl 19679687500000001 5000000000000000000); (fl 63800000000000003 10000000000000000000); (fl 778061135371179 62500000)];
  [(fl 7680000 1); (fl 63487999999999999 10000000000000000000); (fl 74799999999999997 10000000000000000000); (fl 3619354838709677 400000000)];
  [(fl 7680000 1); (fl 55328000000000009 10000000000000000000); (fl 66499999999999997 10000000000000000000); (fl 92307692307692301 10000000000)];
  [(fl 7680000 1); (fl 21546874999999999 5000000000000000000); (fl 54299999999999999 10000000000000000000); (fl 24192835387962293 2500000000)];
  [(fl 7680000 1); (fl 29399999999999999 10000000000000000000); (fl 20300000000000001 5000000000000000000); (fl 10605714285714287 1000000000)];
  [(fl 5760000 1); (fl 446 78125); (fl 57299999999999999 10000000000000000000); (fl 57813901345291473 10000000000)];
  [(fl 5760000 1); (fl 12432000000000003 2500000000000000000); (fl 25249999999999999 5000000000000000000); (fl 58494208494208483 10000000000)];
  [(fl 5760000 1); (fl 19359374999999997 5000000000000000000); (fl 20300000000000001 5000000000000000000); (fl 60398644067796627 10000000000)];
  [(fl 5760000 1); (fl 33 12500); (fl 37 12500); (fl 32290909090909087 5000000000)];
  [(fl 4800000 1); (fl 33095999999999993 10000000000000000000); (fl 297 100000); (fl 21537345902828141 5000000000)];
  [(fl 4800000 1); (fl 26984375000000003 10000000000000000000); (fl 31 12500); (fl 44114418066010419 10000000000)];
  [(fl 4800000 1); (fl 10725000000000001 5000000000000000000); (fl 20400000000000001 10000000000000000000); (fl 9130069930069929 2000000000)];
  [(fl 4800000 1); (fl 97 62500); (fl 157 100000); (fl 48556701030927831 10000000000)];
  [(fl 4800000 1); (fl 13244000000000001 5000000000000000000); (fl 10300000000000001 5000000000000000000); (fl 37330111748716403 10000000000)];
  [(fl 4800000 1); (fl 21406249999999997 10000000000000000000); (fl 17099999999999999 10000000000000000000); (fl 19171970802919711 5000000000)];
  [(fl 4800000 1); (fl 16999999999999999 10000000000000000000); (fl 7 5000); (fl 9882352941176471 2500000000)];
  [(fl 4800000 1); (fl 13519999999999999 10000000000000000000); (fl 23 20000); (fl 10207100591715977 2500000000)];
  [(fl 6880000 1); (fl 44000000000000003 10000000000000000000); (fl 43 20000); (fl 4202272727272727 1250000000)];
  [(fl 6880000 1); (fl 44000000000000003 10000000000000000000); (fl 21099999999999999 10000000000000000000); (fl 32992727272727271 10000000000)];
  [(fl 6880000 1); (fl 7847999999999999 2000000000000000000); (fl 189 100000); (fl 16568807339449541 5000000000)];
  [(fl 6880000 1); (fl 38560000000000001 10000000000000000000); (fl 10250000000000001 5000000000000000000); (fl 7315352697095437 2000000000)];
  [(fl 6880000 1); (fl 1673 500000); (fl 7 4000); (fl 35983263598326361 10000000000)];
  [(fl 6880000 1); (fl 19 6400); (fl 39 25000); (fl 36152589473684207 10000000000)];
  [(fl 6880000 1); (fl 23500000000000001 10000000000000000000); (fl 12600000000000001 10000000000000000000); (fl 295108085106383 80000000)];
  [(fl 6880000 1); (fl 7800000000000001 2500000000000000000); (fl 13600000000000001 10000000000000000000); (fl 2998974358974359 1000000000)];
  [(fl 6880000 1); (fl 7800000000000001 2500000000000000000); (fl 33 25000); (fl 5821538461538461 2000000000)];
  [(fl 6880000 1); (fl 27791999999999999 10000000000000000000); (fl 11800000000000001 10000000000000000000); (fl 29211283822682789 10000000000)];
  [(fl 6880000 1); (fl 191 78125); (fl 10300000000000001 10000000000000000000); (fl 28985602094240841 10000000000)];
  [(fl 6880000 1); (fl 4687500000000001 2500000000000000000); (fl 97 125000); (fl 1423701333333333 500000000)];
  [(fl 6880000 1); (fl 37 25000); (fl 31 50000); (fl 3602702702702703 1250000000)];
  [(fl 6880000 1); (fl 11712000000000001 10000000000000000000); (fl 243 500000); (fl 1784323770491803 625000000)];
  [(fl 6880000 1); (fl 22049999999999999 10000000000000000000); (fl 14940000000000001 20000000000000000000); (fl 23307755102040819 10000000000)];
  [(fl 6880000 1); (fl 9796499999999999 5000000000000000000); (fl 33050000000000001 50000000000000000000); (fl 23210738529066509 10000000000)];
  [(fl 6880000 1); (fl 4298000000000001 2500000000000000000); (fl 11460000000000001 20000000000000000000); (fl 5732666356444857 2500000000)];
  [(fl 6880000 1); (fl 7423499999999999 5000000000000000000); (fl 243 500000); (fl 11260456657910689 5000000000)];
  [(fl 7680000 1); (fl 44000000000000003 10000000000000000000); (fl 43 20000); (fl 1501090909090909 400000000)];
  [(fl 7680000 1); (fl 44000000000000003 10000000000000000000); (fl 21099999999999999 10000000000000000000); (fl 4603636363636363 1250000000)];
  [(fl 7680000 1); (fl 7847999999999999 2000000000000000000); (fl 189 100000); (fl 18495412844036699 5000000000)];
  [(fl 7680000 1); (fl 38560000000000001 10000000000000000000); (fl 10250000000000001 5000000000000000000); (fl 20414937759336103 5000000000)];
  [(fl 7680000 1); (fl 1673 500000); (fl 7 4000); (fl 40167364016736401 10000000000)];
  [(fl 7680000 1); (fl 19 6400); (fl 39 25000); (fl 20178189473684209 5000000000)];
  [(fl 7680000 1); (fl 23500000000000001 10000000000000000000); (fl 12600000000000001 10000000000000000000); (fl 41177872340425537 10000000000)];
  [(fl 7680000 1); (fl 7800000000000001 2500000000000000000); (fl 13600000000000001 10000000000000000000); (fl 1339076923076923 400000000)];
  [(fl 7680000 1); (fl 7800000000000001 2500000000000000000); (fl 33 25000); (fl 3249230769230769 1000000000)];
  [(fl 7680000 1); (fl 27791999999999999 10000000000000000000); (fl 11800000000000001 10000000000000000000); (fl 32607944732297063 10000000000)];
  [(fl 7680000 1); (fl 191 78125); (fl 10300000000000001 10000000000000000000); (fl 32356020942408377 10000000000)];
  [(fl 7680000 1); (fl 4687500000000001 2500000000000000000); (fl 97 125000); (fl 6356991999999999 2000000000)];
  [(fl 7680000 1); (fl 37 25000); (fl 31 50000); (fl 1286918918918919 400000000)];
  [(fl 7680000 1); (fl 11712000000000001 10000000000000000000); (fl 243 500000); (fl 31868852459016391 10000000000)];
  [(fl 7680000 1); (fl 22049999999999999 10000000000000000000); (fl 14940000000000001 20000000000000000000); (fl 203265306122449 78125000)];
  [(fl 7680000 1); (fl 9796499999999999 5000000000000000000); (fl 33050000000000001 50000000000000000000); (fl 5181932322768337 2000000000)];
  [(fl 7680000 1); (fl 4298000000000001 2500000000000000000); (fl 11460000000000001 20000000000000000000); (fl 25597021870637503 10000000000)];
  [(fl 7680000 1); (fl 7423499999999999 5000000000000000000); (fl 243 500000); (fl 25139624166498287 10000000000)]].
Example t39_ok : forallb (fun r => match r with [v; q; i; x] => okclose (ns5_11_4_V_w_Weld [v] q i) x | _ => false end) t39 = true.
Proof. vm_compute. reflexivity. Qed.

(** tests/test_AS4100_5_Shear.py test_s5_11_4_V_w_Interface: 140 cases (tests/Excel/AS4100 Verification.xlsx). *)
Definition t40 : list (list pynum) := [
  [(fl 2 125); (fl 300000000 1); (fl 280000000 1); (fl 11599999999999999 1000000000000000000); (fl 15299999999999999 1000000000000000000); (fl 17726896551724139 5000000000)];
  [(fl 2 125); (fl 300000000 1); (fl 280000000 1); (fl 5201999999999999 500000000000000000); (fl 13899999999999999 1000000000000000000); (fl 35912341407151097 10000000000)];
  [(fl 2 125); (fl 300000000 1); (fl 280000000 1); (fl 46080000000000001 5000000000000000000); (fl 12500000000000001 1000000000000000000); (fl 3645833333333333 1000000000)];
  [(fl 2 125); (fl 300000000 1); (fl 280000000 1); (fl 73727999999999997 10000000000000000000); (fl 13 1250); (fl 7583333333333333 2000000000)];
  [(fl 2 125); (fl 300000000 1); (fl 280000000 1); (fl 64288000000000001 10000000000000000000); (fl 18499999999999999 2000000000000000000); (fl 3867595818815331 1000000000)];
  [(fl 2 125); (fl 300000000 1); (fl 280000000 1); (fl 50093749999999999 10000000000000000000); (fl 19024999999999999 2500000000000000000); (fl 2552174672489083 625000000)];
  [(fl 2 125); (fl 300000000 1); (fl 280000000 1); (fl 19679687500000001 5000000000000000000); (fl 63800000000000003 10000000000000000000); (fl 43571423580786027 10000000000)];
  [(fl 2 125); (fl 300000000 1); (fl 280000000 1); (fl 63487999999999999 10000000000000000000); (fl 74799999999999997 10000000000000000000); (fl 31669354838709673 10000000000)];
  [(fl 2 125); (fl 300000000 1); (fl 280000000 1); (fl 55328000000000009 10000000000000000000); (fl 66499999999999997 10000000000000000000); (fl 6461538461538461 2000000000)];
  [(fl 2 125); (fl 300000000 1); (fl 280000000 1); (fl 21546874999999999 5000000000000000000); (fl 54299999999999999 10000000000000000000); (fl 4233746192893401 1250000000)];
  [(fl 2 125); (fl 300000000 1); (fl 300000000 1); (fl 29399999999999999 10000000000000000000); (fl 20300000000000001 5000000000000000000); (fl 39771428571428577 10000000000)];
  [(fl 3 250); (fl 310000000 1); (fl 280000000 1); (fl 446 78125); (fl 57299999999999999 10000000000000000000); (fl 10117432735426009 5000000000)];
  [(fl 3 250); (fl 310000000 1); (fl 280000000 1); (fl 12432000000000003 2500000000000000000); (fl 25249999999999999 5000000000000000000); (fl 10236486486486483 5000000000)];
  [(fl 3 250); (fl 310000000 1); (fl 280000000 1); (fl 19359374999999997 5000000000000000000); (fl 20300000000000001 5000000000000000000); (fl 10569762711864407 5000000000)];
  [(fl 3 250); (fl 310000000 1); (fl 300000000 1); (fl 33 12500); (fl 37 12500); (fl 3027272727272727 1250000000)];
  [(fl 1 100); (fl 310000000 1); (fl 280000000 1); (fl 33095999999999993 10000000000000000000); (fl 297 100000); (fl 15076142131979701 10000000000)];
  [(fl 1 100); (fl 310000000 1); (fl 280000000 1); (fl 26984375000000003 10000000000000000000); (fl 31 12500); (fl 3860011580775911 2500000000)];
  [(fl 1 100); (fl 310000000 1); (fl 300000000 1); (fl 10725000000000001 5000000000000000000); (fl 20400000000000001 10000000000000000000); (fl 106993006993007 62500000)];
  [(fl 1 100); (fl 310000000 1); (fl 300000000 1); (fl 97 62500); (fl 157 100000); (fl 9104381443298969 5000000000)];
  [(fl 1 100); (fl 310000000 1); (fl 280000000 1); (fl 13244000000000001 5000000000000000000); (fl 10300000000000001 5000000000000000000); (fl 13065539112050741 10000000000)];
  [(fl 1 100); (fl 310000000 1); (fl 280000000 1); (fl 21406249999999997 10000000000000000000); (fl 17099999999999999 10000000000000000000); (fl 13420379562043797 10000000000)];
  [(fl 1 100); (fl 310000000 1); (fl 300000000 1); (fl 16999999999999999 10000000000000000000); (fl 7 5000); (fl 7411764705882353 5000000000)];
  [(fl 1 100); (fl 310000000 1); (fl 300000000 1); (fl 13519999999999999 10000000000000000000); (fl 23 20000); (fl 15310650887573967 10000000000)];
  [(fl 2 125); (fl 380000000 1); (fl 360000000 1); (fl 11599999999999999 1000000000000000000); (fl 15299999999999999 1000000000000000000); (fl 22791724137931033 5000000000)];
  [(fl 2 125); (fl 380000000 1); (fl 360000000 1); (fl 5201999999999999 500000000000000000); (fl 13899999999999999 1000000000000000000); (fl 23086505190311419 5000000000)];
  [(fl 2 125); (fl 380000000 1); (fl 360000000 1); (fl 46080000000000001 5000000000000000000); (fl 12500000000000001 1000000000000000000); (fl 4687500 1)];
  [(fl 2 125); (fl 380000000 1); (fl 360000000 1); (fl 73727999999999997 10000000000000000000); (fl 13 1250); (fl 4875000 1)];
  [(fl 2 125); (fl 380000000 1); (fl 360000000 1); (fl 64288000000000001 10000000000000000000); (fl 18499999999999999 2000000000000000000); (fl 49726231956197117 10000000000)];
  [(fl 2 125); (fl 380000000 1); (fl 360000000 1); (fl 50093749999999999 10000000000000000000); (fl 19024999999999999 2500000000000000000); (fl 26250939488459141 5000000000)];
  [(fl 2 125); (fl 380000000 1); (fl 360000000 1); (fl 19679687500000001 5000000000000000000); (fl 63800000000000003 10000000000000000000); (fl 56020401746724891 10000000000)];
  [(fl 2 125); (fl 380000000 1); (fl 360000000 1); (fl 63487999999999999 10000000000000000000); (fl 74799999999999997 10000000000000000000); (fl 40717741935483869 10000000000)];
  [(fl 2 125); (fl 380000000 1); (fl 360000000 1); (fl 55328000000000009 10000000000000000000); (fl 66499999999999997 10000000000000000000); (fl 20769230769230763 5000000000)];
  [(fl 2 125); (fl 380000000 1); (fl 360000000 1); (fl 21546874999999999 5000000000000000000); (fl 54299999999999999 10000000000000000000); (fl 43547103698332123 10000000000)];
  [(fl 2 125); (fl 380000000 1); (fl 380000000 1); (fl 29399999999999999 10000000000000000000); (fl 20300000000000001 5000000000000000000); (fl 3148571428571429 625000000)];
  [(fl 3 250); (fl 400000000 1); (fl 360000000 1); (fl 446 78125); (fl 57299999999999999 10000000000000000000); (fl 6504063901345291 2500000000)];
  [(fl 3 250); (fl 400000000 1); (fl 360000000 1); (fl 12432000000000003 2500000000000000000); (fl 25249999999999999 5000000000000000000); (fl 13161196911196909 5000000000)];
  [(fl 3 250); (fl 400000000 1); (fl 360000000 1); (fl 19359374999999997 5000000000000000000); (fl 20300000000000001 5000000000000000000); (fl 27179389830508479 10000000000)];
  [(fl 3 250); (fl 400000000 1); (fl 380000000 1); (fl 33 12500); (fl 37 12500); (fl 30676363636363633 10000000000)];
  [(fl 1 100); (fl 400000000 1); (fl 360000000 1); (fl 33095999999999993 10000000000000000000); (fl 297 100000); (fl 9691805656272663 5000000000)];
  [(fl 1 100); (fl 400000000 1); (fl 360000000 1); (fl 26984375000000003 10000000000000000000); (fl 31 12500); (fl 1240718008106543 625000000)];
  [(fl 1 100); (fl 400000000 1); (fl 380000000 1); (fl 10725000000000001 5000000000000000000); (fl 20400000000000001 10000000000000000000); (fl 10841958041958043 5000000000)];
  [(fl 1 100); (fl 400000000 1); (fl 380000000 1); (fl 97 62500); (fl 157 100000); (fl 23064432989690723 10000000000)];
  [(fl 1 100); (fl 400000000 1); (fl 360000000 1); (fl 13244000000000001 5000000000000000000); (fl 10300000000000001 5000000000000000000); (fl 839927514346119 500000000)];
  [(fl 1 100); (fl 400000000 1); (fl 360000000 1); (fl 21406249999999997 10000000000000000000); (fl 17099999999999999 10000000000000000000); (fl 8627386861313869 5000000000)];
  [(fl 1 100); (fl 400000000 1); (fl 380000000 1); (fl 16999999999999999 10000000000000000000); (fl 7 5000); (fl 586764705882353 312500000)];
  [(fl 1 100); (fl 400000000 1); (fl 380000000 1); (fl 13519999999999999 10000000000000000000); (fl 23 20000); (fl 4848372781065089 2500000000)];
  [(fl 1 25); (fl 280000000 1); (fl 280000000 1); (fl 44000000000000003 10000000000000000000); (fl 43 20000); (fl 32836363636363633 10000000000)];
  [(fl 32000000000000001 1000000000000000000); (fl 280000000 1); (fl 280000000 1); (fl 44000000000000003 10000000000000000000); (fl 21099999999999999 10000000000000000000); (fl 25780363636363633 10000000000)];
  [(fl 32000000000000001 1000000000000000000); (fl 280000000 1); (fl 280000000 1); (fl 7847999999999999 2000000000000000000); (fl 189 100000); (fl 25893577981651379 10000000000)];
  [(fl 25000000000000001 1000000000000000000); (fl 280000000 1); (fl 280000000 1); (fl 38560000000000001 10000000000000000000); (fl 10250000000000001 5000000000000000000); (fl 22328838174273861 10000000000)];
  [(fl 1 50); (fl 300000000 1); (fl 280000000 1); (fl 1673 500000); (fl 7 4000); (fl 702928870292887 400000000)];
  [(fl 1 50); (fl 300000000 1); (fl 280000000 1); (fl 19 6400); (fl 39 25000); (fl 17655915789473683 10000000000)];
  [(fl 1 50); (fl 300000000 1); (fl 300000000 1); (fl 23500000000000001 10000000000000000000); (fl 12600000000000001 10000000000000000000); (fl 4825531914893617 2500000000)];
  [(fl 1 25); (fl 280000000 1); (fl 280000000 1); (fl 7800000000000001 2500000000000000000); (fl 13600000000000001 10000000000000000000); (fl 2929230769230769 1000000000)];
  [(fl 28000000000000001 1000000000000000000); (fl 280000000 1); (fl 280000000 1); (fl 7800000000000001 2500000000000000000); (fl 33 25000); (fl 9950769230769229 5000000000)];
  [(fl 28000000000000001 1000000000000000000); (fl 280000000 1); (fl 280000000 1); (fl 27791999999999999 10000000000000000000); (fl 11800000000000001 10000000000000000000); (fl 9986183074265977 5000000000)];
  [(fl 25000000000000001 1000000000000000000); (fl 280000000 1); (fl 280000000 1); (fl 191 78125); (fl 10300000000000001 10000000000000000000); (fl 8847349476439791 5000000000)];
  [(fl 1 50); (fl 300000000 1); (fl 280000000 1); (fl 4687500000000001 2500000000000000000); (fl 97 125000); (fl 6952959999999999 5000000000)];
  [(fl 1 50); (fl 300000000 1); (fl 300000000 1); (fl 37 25000); (fl 31 50000); (fl 7540540540540541 5000000000)];
  [(fl 2 125); (fl 300000000 1); (fl 300000000 1); (fl 11712000000000001 10000000000000000000); (fl 243 500000); (fl 11950819672131147 10000000000)];
  [(fl 28000000000000001 1000000000000000000); (fl 280000000 1); (fl 280000000 1); (fl 22049999999999999 10000000000000000000); (fl 14940000000000001 20000000000000000000); (fl 7968000000000001 5000000000)];
  [(fl 28000000000000001 1000000000000000000); (fl 280000000 1); (fl 280000000 1); (fl 9796499999999999 5000000000000000000); (fl 33050000000000001 50000000000000000000); (fl 1586966773847803 1000000000)];
  [(fl 25000000000000001 1000000000000000000); (fl 280000000 1); (fl 280000000 1); (fl 4298000000000001 2500000000000000000); (fl 11460000000000001 20000000000000000000); (fl 6999185667752443 5000000000)];
  [(fl 1 50); (fl 300000000 1); (fl 280000000 1); (fl 7423499999999999 5000000000000000000); (fl 243 500000); (fl 10998585572843 10000000)];
  [(fl 1 25); (fl 360000000 1); (fl 360000000 1); (fl 44000000000000003 10000000000000000000); (fl 43 20000); (fl 5277272727272727 1250000000)];
  [(fl 32000000000000001 1000000000000000000); (fl 360000000 1); (fl 360000000 1); (fl 44000000000000003 10000000000000000000); (fl 21099999999999999 10000000000000000000); (fl 4143272727272727 1250000000)];
  [(fl 32000000000000001 1000000000000000000); (fl 360000000 1); (fl 360000000 1); (fl 7847999999999999 2000000000000000000); (fl 189 100000); (fl 33291743119266061 10000000000)];
  [(fl 25000000000000001 1000000000000000000); (fl 360000000 1); (fl 360000000 1); (fl 38560000000000001 10000000000000000000); (fl 10250000000000001 5000000000000000000); (fl 7177126556016599 2500000000)];
  [(fl 1 50); (fl 380000000 1); (fl 360000000 1); (fl 1673 500000); (fl 7 4000); (fl 1412133891213389 625000000)];
  [(fl 1 50); (fl 380000000 1); (fl 360000000 1); (fl 19 6400); (fl 39 25000); (fl 22700463157894737 10000000000)];
  [(fl 1 50); (fl 380000000 1); (fl 380000000 1); (fl 23500000000000001 10000000000000000000); (fl 12600000000000001 10000000000000000000); (fl 12224680851063831 5000000000)];
  [(fl 1 25); (fl 360000000 1); (fl 360000000 1); (fl 7800000000000001 2500000000000000000); (fl 13600000000000001 10000000000000000000); (fl 1883076923076923 500000000)];
  [(fl 28000000000000001 1000000000000000000); (fl 360000000 1); (fl 360000000 1); (fl 7800000000000001 2500000000000000000); (fl 33 25000); (fl 5117538461538461 2000000000)];
  [(fl 28000000000000001 1000000000000000000); (fl 360000000 1); (fl 360000000 1); (fl 27791999999999999 10000000000000000000); (fl 11800000000000001 10000000000000000000); (fl 12839378238341969 5000000000)];
  [(fl 25000000000000001 1000000000000000000); (fl 360000000 1); (fl 360000000 1); (fl 191 78125); (fl 10300000000000001 10000000000000000000); (fl 11375163612565447 5000000000)];
  [(fl 1 50); (fl 380000000 1); (fl 360000000 1); (fl 4687500000000001 2500000000000000000); (fl 97 125000); (fl 8939519999999999 5000000000)];
  [(fl 1 50); (fl 380000000 1); (fl 380000000 1); (fl 37 25000); (fl 31 50000); (fl 19102702702702701 10000000000)];
  [(fl 2 125); (fl 380000000 1); (fl 380000000 1); (fl 11712000000000001 10000000000000000000); (fl 243 500000); (fl 946106557377049 625000000)];
  [(fl 28000000000000001 1000000000000000000); (fl 360000000 1); (fl 360000000 1); (fl 22049999999999999 10000000000000000000); (fl 14940000000000001 20000000000000000000); (fl 20489142857142861 10000000000)];
  [(fl 28000000000000001 1000000000000000000); (fl 360000000 1); (fl 360000000 1); (fl 9796499999999999 5000000000000000000); (fl 33050000000000001 50000000000000000000); (fl 816154340836013 400000000)];
  [(fl 25000000000000001 1000000000000000000); (fl 360000000 1); (fl 360000000 1); (fl 4298000000000001 2500000000000000000); (fl 11460000000000001 20000000000000000000); (fl 8998953001395997 5000000000)];
  [(fl 1 50); (fl 380000000 1); (fl 360000000 1); (fl 7423499999999999 5000000000000000000); (fl 243 500000); (fl 3535259648413821 2500000000)];
  [(fl 11900000000000001 1000000000000000000); (fl 300000000 1); (fl 280000000 1); (fl 3323660200000001 2500000000000000000); (fl 9859999999999999 10000000000000000000); (fl 7413555693810093 5000000000)];
  [(fl 7 625); (fl 300000000 1); (fl 280000000 1); (fl 58150317 50000000000); (fl 43750000000000001 50000000000000000000); (fl 3539103664731527 2500000000)];
  [(fl 53 5000); (fl 320000000 1); (fl 300000000 1); (fl 99072383999999989 100000000000000000000); (fl 19024999999999999 25000000000000000000); (fl 14655829822365029 10000000000)];
  [(fl 10199999999999999 1000000000000000000); (fl 320000000 1); (fl 300000000 1); (fl 84346548000000009 100000000000000000000); (fl 27700000000000001 50000000000000000000); (fl 12059106437882909 10000000000)];
  [(fl 11999999999999999 1250000000000000000); (fl 320000000 1); (fl 300000000 1); (fl 14202302400000001 20000000000000000000); (fl 47699999999999999 100000000000000000000); (fl 11607357409880243 10000000000)];
  [(fl 12375000000000001 1250000000000000000); (fl 320000000 1); (fl 300000000 1); (fl 8480400000000001 12500000000000000000); (fl 37199999999999999 100000000000000000000); (fl 48855596434130467 50000000000)];
  [(fl 22750000000000001 2500000000000000000); (fl 320000000 1); (fl 300000000 1); (fl 60954374999999997 100000000000000000000); (fl 33500000000000001 100000000000000000000); (fl 90023070534313587 100000000000)];
  [(fl 42500000000000003 5000000000000000000); (fl 320000000 1); (fl 300000000 1); (fl 26621422499999999 50000000000000000000); (fl 14799999999999999 50000000000000000000); (fl 8505931642082613 10000000000)];
  [(fl 19499999999999999 2500000000000000000); (fl 320000000 1); (fl 300000000 1); (fl 8958668800000001 20000000000000000000); (fl 21599999999999999 100000000000000000000); (fl 67702915861785179 100000000000)];
  [(fl 19 2500); (fl 320000000 1); (fl 320000000 1); (fl 38037621000000001 100000000000000000000); (fl 18799999999999999 100000000000000000000); (fl 72120598709367227 100000000000)];
  [(fl 40000000000000001 5000000000000000000); (fl 320000000 1); (fl 300000000 1); (fl 4835349999999999 12500000000000000000); (fl 16100000000000001 100000000000000000000); (fl 59933613905922021 100000000000)];
  [(fl 73000000000000001 10000000000000000000); (fl 320000000 1); (fl 300000000 1); (fl 8468240624999999 25000000000000000000); (fl 14200000000000001 100000000000000000000); (fl 11016928324471179 20000000000)];
  [(fl 8625000000000001 1250000000000000000); (fl 320000000 1); (fl 320000000 1); (fl 56777301 200000000000); (fl 121 1000000); (fl 56466509389025043 100000000000)];
  [(fl 33500000000000001 5000000000000000000); (fl 320000000 1); (fl 300000000 1); (fl 28911888000000011 100000000000000000000); (fl 1 10000); (fl 20856472603933711 50000000000)];
  [(fl 12199999999999999 2000000000000000000); (fl 320000000 1); (fl 320000000 1); (fl 24723269999999997 100000000000000000000); (fl 86399999999999999 1000000000000000000000); (fl 20464865691310249 50000000000)];
  [(fl 54999999999999997 10000000000000000000); (fl 320000000 1); (fl 320000000 1); (fl 8641999999999999 50000000000000000000); (fl 12640000000000001 200000000000000000000); (fl 38613283962045831 100000000000)];
  [(fl 64000000000000003 10000000000000000000); (fl 320000000 1); (fl 320000000 1); (fl 9751303500000001 50000000000000000000); (fl 55699999999999999 1000000000000000000000); (fl 438685966445409 1250000000)];
  [(fl 12199999999999999 2000000000000000000); (fl 320000000 1); (fl 320000000 1); (fl 3820163 25000000000); (fl 44499999999999997 1000000000000000000000); (fl 4263430644189789 12500000000)];
  [(fl 50000000000000001 10000000000000000000); (fl 320000000 1); (fl 320000000 1); (fl 93 781250); (fl 177 5000000); (fl 14274193548387097 50000000000)];
  [(fl 63 10000); (fl 320000000 1); (fl 320000000 1); (fl 12696767999999999 100000000000000000000); (fl 29099999999999999 1000000000000000000000); (fl 27723086694188631 100000000000)];
  [(fl 14499999999999999 2500000000000000000); (fl 320000000 1); (fl 320000000 1); (fl 316407 3125000000); (fl 23600000000000001 1000000000000000000000); (fl 5191288435464449 20000000000)];
  [(fl 50000000000000001 10000000000000000000); (fl 320000000 1); (fl 320000000 1); (fl 22693125000000003 250000000000000000000); (fl 20999999999999999 1000000000000000000000); (fl 5552342394447657 25000000000)];
  [(fl 44999999999999997 10000000000000000000); (fl 320000000 1); (fl 320000000 1); (fl 66181500000000003 1000000000000000000000); (fl 15800000000000001 1000000000000000000000); (fl 20626912354661047 100000000000)];
  [(fl 60000000000000001 10000000000000000000); (fl 320000000 1); (fl 320000000 1); (fl 9506249999999999 125000000000000000000); (fl 15299999999999999 1000000000000000000000); (fl 23176331360946747 100000000000)];
  [(fl 50000000000000001 10000000000000000000); (fl 320000000 1); (fl 320000000 1); (fl 60119999999999987 1000000000000000000000); (fl 12099999999999999 1000000000000000000000); (fl 2415169660678643 12500000000)];
  [(fl 44999999999999997 10000000000000000000); (fl 320000000 1); (fl 320000000 1); (fl 13072499999999999 250000000000000000000); (fl 53 5000000); (fl 17514629948364891 100000000000)];
  [(fl 60000000000000001 10000000000000000000); (fl 320000000 1); (fl 320000000 1); (fl 51834374999999991 1000000000000000000000); (fl 90499999999999997 10000000000000000000000); (fl 20113293543136193 100000000000)];
  [(fl 50000000000000001 10000000000000000000); (fl 320000000 1); (fl 320000000 1); (fl 18768749999999999 500000000000000000000); (fl 33299999999999999 5000000000000000000000); (fl 8516283716283717 50000000000)];
  [(fl 12375000000000001 1250000000000000000); (fl 320000000 1); (fl 300000000 1); (fl 68717109999999991 100000000000000000000); (fl 223 1000000); (fl 57829265520625073 100000000000)];
  [(fl 15699999999999999 1000000000000000000); (fl 300000000 1); (fl 280000000 1); (fl 46961 40000000); (fl 97 250000); (fl 1362019548135687 1562500000)];
  [(fl 6900000000000001 500000000000000000); (fl 300000000 1); (fl 280000000 1); (fl 200689629 200000000000); (fl 32899999999999997 100000000000000000000); (fl 9501656909236699 12500000000)];
  [(fl 11900000000000001 1000000000000000000); (fl 300000000 1); (fl 280000000 1); (fl 21262858374999997 25000000000000000000); (fl 27700000000000001 100000000000000000000); (fl 16277750333273341 25000000000)];
  [(fl 10500000000000001 1000000000000000000); (fl 320000000 1); (fl 280000000 1); (fl 419871 781250000); (fl 14300000000000001 100000000000000000000); (fl 9387258229313289 20000000000)];
  [(fl 43 5000); (fl 320000000 1); (fl 300000000 1); (fl 43245532000000001 100000000000000000000); (fl 11400000000000001 100000000000000000000); (fl 5100873773503353 12500000000)];
  [(fl 9300000000000001 1000000000000000000); (fl 320000000 1); (fl 300000000 1); (fl 28498689999999997 100000000000000000000); (fl 61299999999999999 1000000000000000000000); (fl 4500917410589751 12500000000)];
  [(fl 40000000000000001 5000000000000000000); (fl 320000000 1); (fl 300000000 1); (fl 24671250000000001 100000000000000000000); (fl 52800000000000003 1000000000000000000000); (fl 30818057455540361 100000000000)];
  [(fl 73000000000000001 10000000000000000000); (fl 320000000 1); (fl 320000000 1); (fl 10718400000000001 50000000000000000000); (fl 22949999999999999 500000000000000000000); (fl 6002149574563367 20000000000)];
  [(fl 20249999999999999 2500000000000000000); (fl 320000000 1); (fl 300000000 1); (fl 13326774999999999 100000000000000000000); (fl 22200000000000001 1000000000000000000000); (fl 12143823243057681 50000000000)];
  [(fl 33 5000); (fl 320000000 1); (fl 320000000 1); (fl 5342913 50000000000); (fl 17600000000000001 1000000000000000000000); (fl 10435655605846473 50000000000)];
  [(fl 12199999999999999 2000000000000000000); (fl 320000000 1); (fl 320000000 1); (fl 18759839999999999 250000000000000000000); (fl 63 5000000); (fl 19665839367499933 100000000000)];
  [(fl 50000000000000001 10000000000000000000); (fl 320000000 1); (fl 320000000 1); (fl 6237 200000000); (fl 159 50000000); (fl 48946608946608947 500000000000)];
  [(fl 20500000000000001 1000000000000000000); (fl 280000000 1); (fl 280000000 1); (fl 24308734499999999 25000000000000000000); (fl 33 100000); (fl 11688391265287793 10000000000)];
  [(fl 25000000000000001 1000000000000000000); (fl 280000000 1); (fl 280000000 1); (fl 14858880000000001 20000000000000000000); (fl 173 1000000); (fl 48900051686264371 50000000000)];
  [(fl 25000000000000001 1000000000000000000); (fl 280000000 1); (fl 280000000 1); (fl 14093750000000003 25000000000000000000); (fl 12899999999999999 100000000000000000000); (fl 12013303769401327 12500000000)];
  [(fl 15300000000000001 1000000000000000000); (fl 300000000 1); (fl 300000000 1); (fl 13968724000000001 20000000000000000000); (fl 23599999999999999 100000000000000000000); (fl 93057032267227827 100000000000)];
  [(fl 143 10000); (fl 300000000 1); (fl 300000000 1); (fl 44560230000000001 100000000000000000000); (fl 12300000000000001 100000000000000000000); (fl 4440646962549341 6250000000)];
  [(fl 111 10000); (fl 300000000 1); (fl 300000000 1); (fl 48894056999999999 100000000000000000000); (fl 33 200000); (fl 16856343092985719 25000000000)];
  [(fl 53 5000); (fl 320000000 1); (fl 320000000 1); (fl 32074752000000001 100000000000000000000); (fl 881 10000000); (fl 27950507614213199 50000000000)];
  [(fl 1 100); (fl 320000000 1); (fl 280000000 1); (fl 31718750000000003 100000000000000000000); (fl 15200000000000001 100000000000000000000); (fl 16101517241379309 20000000000)];
  [(fl 40000000000000001 5000000000000000000); (fl 320000000 1); (fl 300000000 1); (fl 20447999999999997 100000000000000000000); (fl 36199999999999999 500000000000000000000); (fl 10197183098591551 20000000000)];
  [(fl 40000000000000001 5000000000000000000); (fl 320000000 1); (fl 300000000 1); (fl 15862499999999997 100000000000000000000); (fl 22549999999999999 500000000000000000000); (fl 2558865248226951 6250000000)];
  [(fl 64999999999999997 10000000000000000000); (fl 320000000 1); (fl 300000000 1); (fl 98099999999999999 1000000000000000000000); (fl 26800000000000001 1000000000000000000000); (fl 15981651376146791 50000000000)];
  [(fl 60000000000000001 10000000000000000000); (fl 320000000 1); (fl 300000000 1); (fl 21149999999999999 250000000000000000000); (fl 191 10000000); (fl 24382978723404257 100000000000)];
  [(fl 60000000000000001 10000000000000000000); (fl 320000000 1); (fl 320000000 1); (fl 3485624999999999 50000000000000000000); (fl 14100000000000001 1000000000000000000000); (fl 11650134480903717 50000000000)];
  [(fl 60000000000000001 10000000000000000000); (fl 320000000 1); (fl 320000000 1); (fl 6256640624999999 125000000000000000000); (fl 41699999999999999 5000000000000000000000); (fl 3838993069863271 20000000000)];
  [(fl 23500000000000001 5000000000000000000); (fl 320000000 1); (fl 320000000 1); (fl 28640624999999997 1000000000000000000000); (fl 39700000000000001 10000000000000000000000); (fl 12508553846153847 100000000000)];
  [(fl 21000000000000003 5000000000000000000); (fl 320000000 1); (fl 320000000 1); (fl 15627750000000003 1000000000000000000000); (fl 17400000000000001 10000000000000000000000); (fl 17956980371454623 200000000000)];
  [(fl 19 5000); (fl 320000000 1); (fl 320000000 1); (fl 84058000000000001 10000000000000000000000); (fl 17074999999999999 25000000000000000000000); (fl 1482062385495729 25000000000)]].
Example t40_ok : forallb (fun r => match r with [t; f; h; q; i; x] => okclose (ns5_11_4_V_w_Interface t (pymin f h) q i (fl 6 10)) x | _ => false end) t40 = true.
Proof. vm_compute. reflexivity. Qed.

(** tests/test_AS4100_5_Shear.py test_s5_11_4_V_w_Interface_2: 10 cases (tests/Excel/AS4100 Verification.xlsx). *)
Definition t41 : list (list pynum) := [
  [(fl 1 100); (fl 280000000 1); (fl 320000000 1); (fl 32634000000000001 10000000000000000000); (fl 46731360000000039 10000000000000000000); (fl 48114656370656407 10000000000)];
  [(fl 1 100); (fl 280000000 1); (fl 320000000 1); (fl 65268000000000001 10000000000000000000); (fl 78717120000000029 10000000000000000000); (fl 40523613899613917 10000000000)];
  [(fl 1 100); (fl 280000000 1); (fl 320000000 1); (fl 97999999999999997 10000000000000000000); (fl 553994666666667 50000000000000000); (fl 18994102857142871 5000000000)];
  [(fl 1 100); (fl 280000000 1); (fl 320000000 1); (fl 13063399999999999 1000000000000000000); (fl 713923466666667 50000000000000000); (fl 36725245311327851 10000000000)];
  [(fl 1 100); (fl 280000000 1); (fl 320000000 1); (fl 8163400000000001 500000000000000000); (fl 1747704533333333 100000000000000000); (fl 2247947864860229 625000000)];
  [(fl 1 100); (fl 280000000 1); (fl 320000000 1); (fl 999 625000); (fl 92990266666666667 100000000000000000000); (fl 1221718968968969 625000000)];
  [(fl 1 100); (fl 280000000 1); (fl 320000000 1); (fl 31968000000000001 10000000000000000000); (fl 16975786666666669 10000000000000000000); (fl 892120920920921 500000000)];
  [(fl 1 100); (fl 280000000 1); (fl 320000000 1); (fl 11999999999999999 2500000000000000000); (fl 24675599999999993 10000000000000000000); (fl 8636459999999999 5000000000)];
  [(fl 1 100); (fl 280000000 1); (fl 320000000 1); (fl 31991999999999997 5000000000000000000); (fl 32352360000000003 10000000000000000000); (fl 2123654538634659 1250000000)];
  [(fl 1 100); (fl 280000000 1); (fl 320000000 1); (fl 39839999999999997 5000000000000000000); (fl 3989079999999999 1000000000000000000); (fl 8410710843373493 5000000000)]].
Example t41_ok : forallb (fun r => match r with [t; f; h; q; i; x] => okclose (ns5_11_4_V_w_Interface (nmul t (PInt 2)) (pymin f h) q i (fl 6 10)) x | _ => false end) t41 = true.
Proof. vm_compute. reflexivity. Qed.

