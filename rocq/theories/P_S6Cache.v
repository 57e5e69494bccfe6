(** C69, C70, C82, C83: the compression functions across a whole session, with their
    caches and shared dictionaries (exact arithmetic). *)

From Coq Require Import ZArith Reals Lra List Bool String.
From Verif Require Import Base Num RNum PyReal Symmetry S6 S6Torsion S6Cases S6Cache S6CacheFacts
  S6CacheProofs S6CacheNc S6CacheSession S6CacheCases.
Import ListNotations.
Open Scope R_scope.
Open Scope string_scope.

(** C69: after any session, [s6_1_1_Nc] fails with the same exception as in a fresh
    interpreter, or returns a dictionary with the same number at every path of keys. *)
Theorem C69_history_independent :
  forall (roots : roots_oracle) (cs : list call) (g : nc_args),
  let x := run_call roots (CallNc g) (session roots cs fresh) in
  let y := run_call roots (CallNc g) fresh in
  match fst x, fst y with
  | Ok v, Ok w => forall p : list string,
      numeric (at_path (st_heap (snd x)) v p) = numeric (at_path (st_heap (snd y)) w p)
  | Err e, Err e' => e = e'
  | _, _ => False
  end.
Proof. exact nc_transparent. Qed.
Print Assumptions C69_history_independent.

(** The numbers are those of the function without caches: every theorem about
    [S6.s6_1_1_Nc] holds of the cached function after any session. *)
Theorem C69_equals_uncached :
  forall (roots : roots_oracle) (cs : list call) (g : nc_args),
  let r := run_call roots (CallNc g) (session roots cs fresh) in
  match s6_1_1_Nc roots (n_q g) (n_l g) (n_k_ex g) (n_k_ey g) (n_k_ez g) (n_sym g) (n_f_ref g)
          (n_alpha_b g) (n_uncertainty g) (n_phi g) (n_buckling g) (n_torsion g) with
  | Err e => fst r = Err e
  | Ok o => exists v, fst r = Ok v
      /\ let read k := numeric (at_path (st_heap (snd r)) v [k]) in
         read "N_s" = Some (VNum (o_N_s o)) /\ read "φN_s" = Some (VNum (o_phiN_s o))
         /\ read "N_cx" = option_map VNum (o_N_cx o)
         /\ read "φN_cx" = option_map VNum (o_phiN_cx o)
         /\ read "N_cy" = option_map VNum (o_N_cy o)
         /\ read "φN_cy" = option_map VNum (o_phiN_cy o)
         /\ read "N_cz" = option_map VNum (o_N_cz o)
         /\ read "φN_cz" = option_map VNum (o_phiN_cz o)
         /\ read "N_c" = Some (VNum (o_N_c o)) /\ read "φN_c" = Some (VNum (o_phiN_c o))
  end.
Proof.
  intros roots cs g r. pose proof (nc_values roots cs g) as P. unfold nc_pure in P.
  fold r in P. destruct (s6_1_1_Nc _ _ _ _ _ _ _ _ _ _ _ _ _) as [o|e]; [|exact P].
  destruct P as (v & E & P). exists v. split; [exact E|]. cbv zeta.
  repeat match goal with |- _ /\ _ => split end; now rewrite P.
Qed.
Print Assumptions C69_equals_uncached.

Example C69_case roots :
  exists v, fst (run_call roots (CallNc (channel_args true true)) (session roots busy fresh))
            = Ok v.
Proof. apply channel_ok_call, session_inv, inv_fresh. Qed.

(** C70 is false: check a doubly symmetric member, keep the result, check the same member
    with another yield stress: the slenderness in the first result is now another number. *)
Theorem C70_results_stable_refuted :
  exists q lx ly lz sym u q' roots,
  let c := CallNcz q lx ly lz sym u in
  let c' := CallNcz q' lx ly lz sym u in
  let s1 := snd (run_call roots c fresh) in
  exists v x y, fst (run_call roots c fresh) = Ok v
   /\ at_path (st_heap s1) v ["Intermediate"; "λ_c"] = Some (VNum x)
   /\ at_path (st_heap (session roots [c'] s1)) v ["Intermediate"; "λ_c"] = Some (VNum y)
   /\ x <> y.
Proof.
  exists channel, 3, 3, 3, xy, (85 / 100), (with_f_y channel 300e6), (fun _ _ _ _ => []).
  destruct (channel_changes (fun _ _ _ _ => [])) as (z & z' & E & E' & N).
  destruct (handed_out_changes _ _ _ _ _ xy _ _ _ _ eq_refl E E') as (v & E1 & E2 & E3).
  exists v, (cz_lambda_c z), (cz_lambda_c z'). exact (conj E1 (conj E2 (conj E3 N))).
Qed.
Print Assumptions C70_results_stable_refuted.

(** Not an accident of one section: it happens whenever both checks succeed. *)
Theorem C70_always_rewritten :
  forall roots q lx ly lz sym u f_y' z z',
  symmetry sym = Ok SymDouble ->
  s6_3_3_N_c_torsion roots q lx ly lz sym u = Ok z ->
  s6_3_3_N_c_torsion roots (with_f_y q f_y') lx ly lz sym u = Ok z' ->
  let c := CallNcz q lx ly lz sym u in
  let c' := CallNcz (with_f_y q f_y') lx ly lz sym u in
  let s1 := snd (run_call roots c fresh) in
  exists v, fst (run_call roots c fresh) = Ok v
   /\ at_path (st_heap s1) v ["Intermediate"; "λ_c"] = Some (VNum (cz_lambda_c z))
   /\ at_path (st_heap (session roots [c'] s1)) v ["Intermediate"; "λ_c"]
      = Some (VNum (cz_lambda_c z')).
Proof. exact handed_out_changes. Qed.
Print Assumptions C70_always_rewritten.

(** What holds: a dictionary reachable from a result keeps all its entries, and gets no new
    ones, unless it has an entry "β", that is, it was made by [f_oxz]; such a dictionary
    can only change in the entries listed, and "f_oxz" only by appearing. *)
Theorem C70_results_stable_partial :
  forall roots (cs : list call) (c : call) (cs' : list call) v p a,
  let s := session roots cs fresh in
  let s1 := snd (run_call roots c s) in
  let s2 := session roots cs' s1 in
  fst (run_call roots c s) = Ok v ->
  at_path (st_heap s1) v p = Some (VRef a) ->
  (exists d, nth_error (st_heap s1) a = Some d) ->
  at_path (st_heap s2) v p = Some (VRef a)
  /\ (at_path (st_heap s1) v (app p ["β"]) = None ->
      forall k, at_path (st_heap s2) v (app p [k]) = at_path (st_heap s1) v (app p [k]))
  /\ (forall k, ~ In k ["f_oxz"; "f_oc"; "λ_c"; "f_n"; "N_cz_buckling"; "AS4600 Clause";
                        "Symmetry"; "Axis of Symmetry"] ->
      at_path (st_heap s2) v (app p [k]) = at_path (st_heap s1) v (app p [k]))
  /\ (forall w, at_path (st_heap s1) v (app p ["f_oxz"]) = Some w ->
      at_path (st_heap s2) v (app p ["f_oxz"]) = Some w).
Proof. exact results_stable. Qed.
Print Assumptions C70_results_stable_partial.

(** In particular no capacity returned by [s6_1_1_Nc] ever changes, nor any intermediate
    result outside "N_cz Intermediate", nor the section constants inside it. *)
Theorem C70_capacities_stable :
  forall roots (cs : list call) (g : nc_args) (cs' : list call) v,
  let s := session roots cs fresh in
  let s1 := snd (run_call roots (CallNc g) s) in
  let s2 := session roots cs' s1 in
  fst (run_call roots (CallNc g) s) = Ok v ->
  (forall k, at_path (st_heap s2) v [k] = at_path (st_heap s1) v [k])
  /\ (forall k k', k <> "N_cz Intermediate" ->
        at_path (st_heap s2) v [k; k'] = at_path (st_heap s1) v [k; k'])
  /\ (forall k', ~ In k' ["f_oxz"; "f_oc"; "λ_c"; "f_n"; "N_cz_buckling"; "AS4600 Clause";
                          "Symmetry"; "Axis of Symmetry"] ->
        at_path (st_heap s2) v ["N_cz Intermediate"; k']
        = at_path (st_heap s1) v ["N_cz Intermediate"; k']).
Proof. exact nc_stable. Qed.
Print Assumptions C70_capacities_stable.

(** Point-symmetric and unsymmetric sections: nothing changes at all. *)
Theorem C70_unshared_stable :
  forall roots (cs : list call) (g : nc_args) (cs' : list call) v sc,
  let s := session roots cs fresh in
  let s1 := snd (run_call roots (CallNc g) s) in
  let s2 := session roots cs' s1 in
  fst (run_call roots (CallNc g) s) = Ok v ->
  symmetry (n_sym g) = Ok sc -> sc = SymPoint \/ sc = SymNone ->
  forall p, at_path (st_heap s2) v p = at_path (st_heap s1) v p.
Proof. exact nc_stable_unshared. Qed.
Print Assumptions C70_unshared_stable.

(** C82 is false: whatever number a client stores in the "f_oxz" entry of a dictionary
    returned by [f_oxz] becomes the buckling stress of the next check of that section. *)
Theorem C82_edit_isolated_refuted :
  forall roots A lx ly lz rx ry xo yo J Iw E G r x,
  f_oxz A lx lz rx ry xo yo J Iw E G = Ok r ->
  let r1 := run_call roots (CallFoxz 0 A lx lz rx ry xo yo J Iw E G) fresh in
  exists v, fst r1 = Ok v
  /\ let s2 := edit v [] "f_oxz" (VNum x) (snd r1) in
     let r3 := run_call roots
                 (CallSingle A lx ly lz rx ry xo yo J Iw E G (Some [AxStr "x"])) s2 in
     exists w, fst r3 = Ok w /\ at_path (st_heap (snd r3)) w ["f_oc"] = Some (VNum x).
Proof. exact edit_corrupts. Qed.
Print Assumptions C82_edit_isolated_refuted.

Example C82_case : exists r,
  f_oxz 3e-3 3 3 60e-3 20e-3 30e-3 0 100e-9 10e-9 200e9 80e9 = Ok r.
Proof.
  destruct (f_oxz_facts 3e-3 3 3 60e-3 20e-3 30e-3 0 100e-9 10e-9 200e9 80e9)
    as (r & E & _); try lra. exists r. exact E.
Qed.

(** What holds: edits of dictionaries that [f_oxz] did not make, interleaved with any calls,
    do not change what [s6_1_1_Nc] computes. *)
Theorem C82_edit_isolated_partial :
  forall roots (es : list event) (g : nc_args),
  harmless_all roots fresh es ->
  let x := run_call roots (CallNc g) (fold_left (step roots) es fresh) in
  let y := run_call roots (CallNc g) fresh in
  match fst x, fst y with
  | Ok v, Ok w => forall p : list string,
      numeric (at_path (st_heap (snd x)) v p) = numeric (at_path (st_heap (snd y)) w p)
  | Err e, Err e' => e = e'
  | _, _ => False
  end.
Proof. exact nc_transparent_edits. Qed.
Print Assumptions C82_edit_isolated_partial.

Example C82_harmless_case roots :
  harmless_all roots fresh
    [ECall (CallPoint 3e-3 3 60e-3 20e-3 30e-3 0 100e-9 10e-9 200e9 80e9);
     ECall (CallAlphaC 90 0); EEdit (VRef 1) [] "f_oc" (VNum 0)].
Proof.
  cbn [harmless_all harmless step]. split; [exact Logic.I|]. split; [exact Logic.I|].
  split; [|exact Logic.I]. cbn [run_call]. rewrite !as_ref_snd.
  unfold m_f_oc_point_symmetric, mbind.
  pose proof (m_f_euler_torsion_ran 0 3e-3 3 60e-3 20e-3 30e-3 0 100e-9 10e-9 200e9 80e9 fresh
                inv_fresh) as (_ & _ & P).
  rewrite (f_torsion_value 3e-3 3 60e-3 20e-3 30e-3 0 100e-9 10e-9 200e9 80e9) in P by lra.
  destruct (m_f_euler_torsion _ _ _ _ _ _ _ _ _ _ _ fresh) as [o s]. cbn [fst snd] in P.
  destruct P as [-> Es]. cbv iota beta. cbn [alloc st_heap fst snd].
  unfold m_s6_3_3_alpha_c, mbind, lift. destruct (s6_3_3_alpha_c 90 0); cbn; rewrite Es;
    repeat split; try reflexivity; discriminate.
Qed.

(** C83 is false: after a singly symmetric check, a doubly symmetric check of the same member
    reports an axis of symmetry that it does not report in a fresh interpreter. *)
Theorem C83_torsion_result_refuted :
  forall roots q lx ly lz u z,
  s6_3_3_N_c_torsion roots q lx ly lz (Some [AxStr "x"; AxStr "y"]) u = Ok z ->
  let c := CallNcz q lx ly lz (Some [AxStr "x"; AxStr "y"]) u in
  let c0 := CallSingle (q_A_n q) lx ly lz (q_r_x q) (q_r_y q) (q_x_o q) (q_y_o q) (q_J q)
              (q_I_w q) (q_E q) (q_G q) (Some [AxStr "x"]) in
  exists v w, fst (run_call roots c fresh) = Ok v
  /\ at_path (st_heap (snd (run_call roots c fresh))) v ["Intermediate"; "Axis of Symmetry"]
     = None
  /\ fst (run_call roots c (session roots [c0] fresh)) = Ok w
  /\ at_path (st_heap (snd (run_call roots c (session roots [c0] fresh)))) w
       ["Intermediate"; "Axis of Symmetry"] = Some (VStr "x").
Proof. exact stale_axis. Qed.
Print Assumptions C83_torsion_result_refuted.

Example C83_case roots : exists z,
  s6_3_3_N_c_torsion roots channel 3 3 3 (Some [AxStr "x"; AxStr "y"]) (85 / 100) = Ok z.
Proof. destruct (channel_changes roots) as (z & _ & E & _). exists z. exact E. Qed.

(** What holds: N_cz and every intermediate entry except "N_cz_buckling" and "Axis of
    Symmetry" do not depend on the history. *)
Theorem C83_torsion_result_partial :
  forall roots (cs : list call) q lx ly lz sym u,
  let x := run_call roots (CallNcz q lx ly lz sym u) (session roots cs fresh) in
  let y := run_call roots (CallNcz q lx ly lz sym u) fresh in
  match fst x, fst y with
  | Ok v, Ok w =>
      (forall k, k <> "Intermediate" ->
         at_path (st_heap (snd x)) v [k] = at_path (st_heap (snd y)) w [k])
      /\ (forall k, k <> "N_cz_buckling" -> k <> "Axis of Symmetry" ->
         at_path (st_heap (snd x)) v ["Intermediate"; k]
         = at_path (st_heap (snd y)) w ["Intermediate"; k])
  | Err e, Err e' => e = e'
  | _, _ => False
  end.
Proof. exact ncz_transparent. Qed.
Print Assumptions C83_torsion_result_partial.
