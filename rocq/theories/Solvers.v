(** Model of beamdesign/utility/solvers.py. *)

From Coq Require Import ZArith List Bool.
From Verif Require Import Base Num.
Import ListNotations.
Open Scope Z_scope.

Section Solvers.
Context {T : Type} {NT : Num T}.

(** The default relative tolerance 1e-09 of [math.isclose]. *)
Definition rel_tol : T := nflt 1 1000000000.

(** [math.isclose(a, b, abs_tol=tol)] (CPython mathmodule.c): ValueError for a negative
    tolerance; True for equal numbers; False for infinities; otherwise the difference is
    within [rel_tol] of either number or within [abs_tol]. *)
Definition isclose (a b tol : T) : res bool :=
  if nltb tol (nflt 0 1) then Err ValueError
  else if neqb a b then Ok true
  else if nisinf a || nisinf b then Ok false
  else
    let diff := nabs (nsub b a) in
    Ok (nleb diff (nabs (nmul rel_tol b))
        || nleb diff (nabs (nmul rel_tol a))
        || nleb diff tol).

(** Loop condition of both solvers (lines 66 and 200):
    [abs(x2 - x1) > tol and not isclose(x1, x2, abs_tol=tol)].  (Line 66 passes
    [x_high, x_low], line 200 [x_1, x_2]; [isclose] is symmetric in exact arithmetic, so
    the order is kept as in the source through the arguments.) *)
Definition keep_going (a b tol : T) (diff : T) : res bool :=
  if nltb tol (nabs diff) then let! c := isclose a b tol in Ok (negb c) else Ok false.

(** [func(x, *args, **kwargs)]: a function that may raise. *)
Variable func : T -> res T.

(** The body of bisection's loop (lines 66-120).  [i] counts completed iterations.
    [max_its]: None or a limit.  [fuel] bounds the recursion; running out is
    [Err Diverges]. *)
Fixpoint bis_loop (fuel : nat) (x_low x_high tol : T) (max_its : option Z)
  (fail_on_max_its : bool) (i : Z) : res (T * Z) :=
  let! go := keep_going x_high x_low tol (nsub x_high x_low) in     (* 66 *)
  if negb go then Ok (ndiv (nadd x_low x_high) (nint 2), i)         (* 120 *)
  else
    match fuel with
    | O => Err Diverges
    | S fuel' =>
        let i := i + 1 in                                           (* 68 *)
        let! y_low := func x_low in                                 (* 70 *)
        let! y_high := func x_high in                               (* 71 *)
        let! lo0 := isclose y_low (nflt 0 1) tol in
        if lo0 : bool then Ok (x_low, i)                            (* 74-75 *)
        else
        let! hi0 := isclose y_high (nflt 0 1) tol in
        if hi0 : bool then Ok (x_high, i)                           (* 76-77 *)
        else if nisinf y_low || nisinf y_high then Err ValueError   (* 79-85 *)
        else if nisnan y_low || nisnan y_high then Err ValueError   (* 87-93 *)
        else if nltb (nflt 0 1) (nmul y_low y_high) then Err ValueError (* 95-100 *)
        else
          let x_mid := ndiv (nadd x_low x_high) (nint 2) in         (* 102 *)
          let! y_mid := func x_mid in                               (* 103 *)
          let same := nltb (nflt 0 1) (nmul y_low y_mid) in         (* 105-108 *)
          let x_low' := if same then x_mid else x_low in
          let x_high' := if same then x_high else x_mid in
          let stop := match max_its with Some m => m <=? i | None => false end in
          if stop then                                              (* 110-118 *)
            if fail_on_max_its then Err ValueError
            else Ok (ndiv (nadd x_low' x_high') (nint 2), i)
          else bis_loop fuel' x_low' x_high' tol max_its fail_on_max_its i
    end.

(** [bisection], lines 9-120. *)
Definition bisection (fuel : nat) (x_low x_high tol : T) (max_its : option Z)
  (fail_on_max_its : bool) : res (T * Z) :=
  if nisinf x_low || nisinf x_high then Err ValueError              (* 44-47 *)
  else if nisnan x_low || nisnan x_high then Err ValueError         (* 49-52 *)
  else
    let! close := isclose x_high x_low tol in                       (* 54-58 *)
    if close : bool then Err ValueError
    else if match max_its with Some m => m <=? 1 | None => false end
    then Err ValueError                                             (* 60-62 *)
    else bis_loop fuel x_low x_high tol max_its fail_on_max_its 0.

(** Default arguments (lines 14-15, 128-129). *)
Definition default_tol : T := nflt 1 1000000000.
Definition default_max_its : option Z := Some 20000.

(** The loop of [secant] (lines 200-255).  [x_3] is None before it is first assigned
    (Python: UnboundLocalError at line 255, modelled as NameError-like
    [Err AttributeError]; shown unreachable).  [nargs] is the number of positional
    arguments after [func]: on fallback (line 245) any such argument collides with
    [func=func] and raises TypeError; bisection runs with its default iteration limit. *)
Fixpoint sec_loop (fuel : nat) (x_low x_high tol : T) (max_its : option Z)
  (fallback : bool) (nargs : nat) (x_1 x_2 : T) (x_3 : option T) (i : Z)
  : res (T * Z * bool) :=
  let! go := keep_going x_1 x_2 tol (nsub x_2 x_1) in               (* 200 *)
  if negb go then                                                   (* 255 *)
    match x_3 with Some x => Ok (x, i, false) | None => Err AttributeError end
  else
    match fuel with
    | O => Err Diverges
    | S fuel' =>
        let i := i + 1 in                                           (* 202 *)
        let! f2 := func x_2 in                                      (* 204-207 *)
        let! f1 := func x_1 in
        let a := nmul x_1 f2 in
        let b := nmul x_2 f1 in
        let c := f2 in
        let d := f1 in
        if nisinf a || nisinf b || nisinf c || nisinf d then Err ValueError (* 209 *)
        else
          let! close := isclose c d tol in                          (* 220 *)
          if close : bool then Err ValueError
          else
            let! x_3' := pydiv (nsub a b) (nsub c d) in             (* 230 *)
            if nisnan x_3' || nisinf x_3' then Err ValueError       (* 232 *)
            else
              let stop := match max_its with Some m => m <=? i | None => false end in
              if stop then                                          (* 241-253 *)
                if fallback then
                  match nargs with
                  | O =>
                      let! r := bisection (Z.to_nat 20000) x_low x_high tol
                                  default_max_its true in
                      Ok (fst r, snd r, true)
                  | S _ => Err TypeError
                  end
                else Err ValueError
              else
                sec_loop fuel' x_low x_high tol max_its fallback nargs
                  x_2 x_3' (Some x_3') i                            (* 238-239 *)
    end.

(** [secant], lines 123-255. *)
Definition secant (fuel : nat) (x_low x_high tol : T) (max_its : option Z)
  (fallback : bool) (nargs : nat) : res (T * Z * bool) :=
  if nisinf x_low || nisinf x_high then Err ValueError              (* 180-183 *)
  else if nisnan x_low || nisnan x_high then Err ValueError         (* 185-188 *)
  else
    let! close := isclose x_high x_low tol in                       (* 190-194 *)
    if close : bool then Err ValueError
    else sec_loop fuel x_low x_high tol max_its fallback nargs x_low x_high None 0.

End Solvers.
