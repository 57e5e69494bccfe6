(** C159: the caches of the compression functions on Python's ints and doubles. *)

From Coq Require Import ZArith Reals List Bool String Floats.SpecFloat.
From Verif Require Import Base Num PyNum Symmetry NumFormulas NumS6 NumCache NumCacheFacts NumCacheDoubles.
Import ListNotations.

(** C159.  Full statement: whatever was called before, [r_ol], [f_euler_torsion] and [f_oxz] return bit for bit what they
    return without caches, and so does everything built on them.  False: the keys 80769230769 and 80769230769.0 are equal,
    but the ints are multiplied exactly and the floats are rounded, so that the cached result of one call answers the
    other. *)
Theorem C159_refuted : forall (pw : pynum -> pynum -> res pynum) (same : pynum -> pynum -> bool),
  pw (flt 25) (nflt 1 2) = Ok (flt 5) ->
  ~ (forall c c', fst (cached pw same c' (snd (cached pw same c nfresh))) = uncached pw c').
Proof. intros pw same P H. exact (proj2 (ints_differ pw same P) (H as_floats as_ints)). Qed.
Print Assumptions C159_refuted.
Example C159_root : cpow (flt 25) (nflt 1 2) = Ok (flt 5).
Proof. vm_compute. reflexivity. Qed.

(** What holds: for doubles (zeros of both signs, infinities and nan included), and for ints that are small enough, mixed in
    any way, as long as G and J are not both ints and E is not zero.  [pw] is [x ** y], [same] is identity of objects, [h] any
    programs run before (each may call the three functions with any arguments of that kind, depending on earlier answers),
    [p] any such program.  Missing: larger ints. *)
Theorem C159_partial : forall (pw : pynum -> pynum -> res pynum),
  (forall e, e = nflt 1 2 \/ e = nint 2 -> pw (PFlt (S754_zero true)) e = pw (PFlt (S754_zero false)) e) ->
  (forall z, (Z.abs z <= 2 ^ 53)%Z -> pw (PInt z) (nflt 1 2) = pw (PFlt (sf_of_Z z)) (nflt 1 2)) ->
  (forall x v, pw x (nflt 1 2) = Ok v -> nisfloat v = true) ->
  forall same : pynum -> pynum -> bool, (forall x y, same x y = true -> x = y) ->
  forall (A B : Type) (h : list (client A)) (p : client B),
  Forall (asks safe) h -> asks safe p -> fst (exec pw same p (after pw same h)) = plain pw p.
Proof. intros pw H1 H2 H3 same HS A B. exact (safe_history_free pw H1 H2 H3 same HS). Qed.
Print Assumptions C159_partial.

(** In particular the capacities of [s6_1_1_Nc]. *)
Theorem C159_capacities_partial : forall (pw : pynum -> pynum -> res pynum),
  (forall e, e = nflt 1 2 \/ e = nint 2 -> pw (PFlt (S754_zero true)) e = pw (PFlt (S754_zero false)) e) ->
  (forall z, (Z.abs z <= 2 ^ 53)%Z -> pw (PInt z) (nflt 1 2) = pw (PFlt (sf_of_Z z)) (nflt 1 2)) ->
  (forall x v, pw x (nflt 1 2) = Ok v -> nisfloat v = true) ->
  forall same : pynum -> pynum -> bool, (forall x y, same x y = true -> x = y) ->
  forall (A : Type) (h : list (client A)), Forall (asks safe) h ->
  forall roots q l k_ex k_ey k_ez sym f_ref alpha_b uncertainty phi calc_buckling calc_torsion,
  safe_section q -> machine (2 ^ 53) (nmul l k_ex) -> machine (2 ^ 53) (nmul l k_ey) -> machine (2 ^ 25) (nmul l k_ez) ->
  fst (exec pw same (q_Nc pw roots q l k_ex k_ey k_ez sym f_ref alpha_b uncertainty phi calc_buckling calc_torsion)
         (after pw same h))
  = ns6_1_1_Nc pw roots q l k_ex k_ey k_ez sym f_ref alpha_b uncertainty phi calc_buckling calc_torsion.
Proof.
  intros pw H1 H2 H3 same HS A h F. intros. rewrite (safe_history_free pw H1 H2 H3 same HS);
    [apply plain_Nc|exact F|now apply Nc_asks].
Qed.
Print Assumptions C159_capacities_partial.

(** A section with -0.0 and 0 where another call had 0.0, and ints where it had floats: the calls are safe, the second is
    answered from the cache (its key is found), and [s6_1_1_Nc] itself is a safe program. *)
Definition tube (x_o y_o E : pynum) : nsect pynum :=
  mk_nsect (PFlt (sf_of_Z 1)) (PFlt (sf_of_Z 1)) (PFlt (sf_of_Z 3)) (PInt 4) x_o y_o (PFlt (sf_of_Z 7)) (PInt 11)
    (PFlt (sf_of_Z 250)) E (PInt 80000).
Example C159_tube : safe_section (tube (PFlt (S754_zero true)) (PInt 0) (PInt 200000))
  /\ safe_section (tube (PFlt (S754_zero false)) (PFlt (S754_zero true)) (flt 200000))
  /\ nkey_eqb (fun _ _ => false) (ckey (NRol 0 (flt 3) (flt 4) (PFlt (S754_zero true)) (PInt 0)))
       (ckey (NRol 0 (PInt 3) (flt 4) (PFlt (S754_zero false)) (PFlt (S754_zero true)))) = true
  /\ exists r, fst (exec cpow (fun _ _ => false)
       (q_N_c_torsion cpow (fun _ _ _ _ => []) (tube (PFlt (S754_zero true)) (PInt 0) (PInt 200000)) (flt 20) (flt 20) (PInt 20)
          (Some [AxStr "x"; AxStr "y"]) (flt 1))
       (after cpow (fun _ _ => false)
          [q_N_c_torsion cpow (fun _ _ _ _ => []) (tube (PFlt (S754_zero false)) (PFlt (S754_zero true)) (flt 200000)) (flt 20) (flt 20)
             (flt 20) (Some [AxStr "x"; AxStr "y"]) (flt 1)])) = Ok r.
Proof.
  split; [vm_compute; intuition congruence|]. split; [vm_compute; intuition congruence|]. split; [vm_compute; reflexivity|].
  eexists. vm_compute. reflexivity.
Qed.
Example C159_powers :
  (forall e, e = nflt 1 2 \/ e = nint 2 -> cpow (PFlt (S754_zero true)) e = cpow (PFlt (S754_zero false)) e)
  /\ (forall z, (Z.abs z <= 2 ^ 53)%Z -> cpow (PInt z) (nflt 1 2) = cpow (PFlt (sf_of_Z z)) (nflt 1 2))
  /\ (forall x v, cpow x (nflt 1 2) = Ok v -> nisfloat v = true).
Proof. split; [exact cpow_zero|]. split; [intros z _; exact (cpow_int z)|exact cpow_float]. Qed.

(** [E = -0.0] after [E = 0.0]: the stress about the x axis in the cached result has the other sign. *)
Example C159_zero_modulus : exists u v,
  uncached cpow (NFox 0 (flt 1) (flt 2) (flt 2) (flt 3) (flt 4) (flt 1) (flt 0) (flt 7) (flt 11) (PFlt (S754_zero false)) (flt 8)) = Ok u
  /\ uncached cpow (NFox 0 (flt 1) (flt 2) (flt 2) (flt 3) (flt 4) (flt 1) (flt 0) (flt 7) (flt 11) (PFlt (S754_zero true)) (flt 8)) = Ok v
  /\ nth 1 u (nint 1) = PFlt (S754_zero false) /\ nth 1 v (nint 1) = PFlt (S754_zero true).
Proof. eexists. eexists. split; [vm_compute; reflexivity|]. split; [vm_compute; reflexivity|]. vm_compute. auto. Qed.
