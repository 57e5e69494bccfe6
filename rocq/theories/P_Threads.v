(** C153-C156: the compression functions called from several threads at once, and calls
    that are broken off (exact arithmetic). *)

From Coq Require Import ZArith Reals Lra Lia List Bool String.
From Verif Require Import Base Num RNum PyReal Symmetry S6 S6Cases S6Cache S6CacheFacts
  S6CacheSession S6CacheCases S6Threads S6ThreadsFacts S6ThreadsPool S6ThreadsResults.
Import ListNotations.
Open Scope R_scope.
Open Scope string_scope.

(** C153: whatever the threads call, in whatever order their steps come, wherever calls are
    broken off: an outcome that a client has received is, then and later, the exception the
    call raises alone in a fresh interpreter, or has the same number at every path of keys
    except the entries that [f_oxz] and its callers write into shared dictionaries. *)
Theorem C153_thread_independent :
  forall (roots : roots_oracle) (css : list (list call)) (evs : list tick) i j cs c r,
  nth_error css i = Some cs -> nth_error cs j = Some c ->
  received (fst (play roots css evs)) i j = Some r ->
  let h := st_heap (snd (play roots css evs)) in
  let alone := run_call roots c fresh in
  match r, fst alone with
  | Ok v, Ok w => forall p : list string,
      (forall k k', p = [k; k'] ->
         ~ In k' ["f_oxz"; "f_oc"; "λ_c"; "f_n"; "N_cz_buckling"; "AS4600 Clause"; "Symmetry";
                  "Axis of Symmetry"]) ->
      numeric (at_path h v p) = numeric (at_path (st_heap (snd alone)) w p)
  | Err e, Err e' => e = e'
  | _, _ => False
  end.
Proof. exact any_call. Qed.
Print Assumptions C153_thread_independent.

(** The capacities from [s6_1_1_Nc] are those of the function without caches or threads. *)
Theorem C153_capacities :
  forall (roots : roots_oracle) (css : list (list call)) (evs : list tick) i j cs g r,
  nth_error css i = Some cs -> nth_error cs j = Some (CallNc g) ->
  received (fst (play roots css evs)) i j = Some r ->
  match s6_1_1_Nc roots (n_q g) (n_l g) (n_k_ex g) (n_k_ey g) (n_k_ez g) (n_sym g) (n_f_ref g)
          (n_alpha_b g) (n_uncertainty g) (n_phi g) (n_buckling g) (n_torsion g) with
  | Err e => r = Err e
  | Ok o => exists v, r = Ok v
      /\ let read k := numeric (at_path (st_heap (snd (play roots css evs))) v [k]) in
         read "N_s" = Some (VNum (o_N_s o)) /\ read "φN_s" = Some (VNum (o_phiN_s o))
         /\ read "N_cx" = option_map VNum (o_N_cx o)
         /\ read "φN_cx" = option_map VNum (o_phiN_cx o)
         /\ read "N_cy" = option_map VNum (o_N_cy o)
         /\ read "φN_cy" = option_map VNum (o_phiN_cy o)
         /\ read "N_cz" = option_map VNum (o_N_cz o)
         /\ read "φN_cz" = option_map VNum (o_phiN_cz o)
         /\ read "N_c" = Some (VNum (o_N_c o)) /\ read "φN_c" = Some (VNum (o_phiN_c o))
  end.
Proof.
  intros roots css evs i j cs g r E1 E2 E3.
  pose proof (nc_call_values roots css evs i j cs g r E1 E2 E3) as P. unfold nc_pure in P.
  destruct (s6_1_1_Nc _ _ _ _ _ _ _ _ _ _ _ _ _) as [o|e]; [|exact P].
  destruct P as (v & E & P). exists v. split; [exact E|]. cbv zeta.
  repeat match goal with |- _ /\ _ => split end; now rewrite P.
Qed.
Print Assumptions C153_capacities.

(** The steps are those of the sequential model: a call that no other thread gets between
    does what [run_call] does, from every state. *)
Theorem C153_same_program :
  forall (roots : roots_oracle) (c : call) (s : state),
  solo (p_call roots c) s = run_call roots c s.
Proof. exact same_call. Qed.
Print Assumptions C153_same_program.

(** Two threads taking turns, the first broken off now and then, the second not. *)
Definition mixed : list tick :=
  flat_map (fun n => if Nat.eqb (Nat.modulo n 7) 3 then [Run 1; Interrupt 0; Run 0]
                     else [Run 0; Run 1; Run 0]) (seq 0 60).

Example C153_case roots :
  exists r, received (fst (play roots [busy; [CallNc (channel_args true true)]] mixed)) 1 0
            = Some (Ok r).
Proof.
  destruct (delivered_in_time roots [busy; [CallNc (channel_args true true)]] mixed 1 0
    [CallNc (channel_args true true)] eq_refl) as (r & E).
  - cbn; lia.
  - apply PeanoNat.Nat.leb_le. vm_compute. reflexivity.
  - intros H. apply in_flat_map in H. destruct H as (n & _ & H).
    destruct (Nat.eqb _ _); cbn in H; intuition discriminate.
  - pose proof (C153_thread_independent roots [busy; [CallNc (channel_args true true)]] mixed 1 0
      [CallNc (channel_args true true)] (CallNc (channel_args true true)) r eq_refl eq_refl E) as P.
    cbv zeta in P. destruct (channel_ok_call roots fresh inv_fresh) as (w & Ew).
    rewrite Ew in P. destruct r as [v|e]; [|destruct P]. eauto.
Qed.

(** C154 is false: when the client of thread 0 gets the result of its check, the slenderness
    in it is that of the check that thread 1 made of the same member with another yield
    stress. *)
Theorem C154_refuted :
  exists roots c c' evs v w x y,
     received (fst (play roots [[c]; [c']] evs)) 0 0 = None
  /\ received (fst (play roots [[c]; [c']] (app evs [Run 0]))) 0 0 = Some (Ok v)
  /\ fst (run_call roots c fresh) = Ok w
  /\ at_path (st_heap (snd (run_call roots c fresh))) w ["Intermediate"; "λ_c"] = Some (VNum x)
  /\ at_path (st_heap (snd (play roots [[c]; [c']] (app evs [Run 0])))) v
       ["Intermediate"; "λ_c"] = Some (VNum y)
  /\ x <> y.
Proof.
  exists (fun _ _ _ _ => []), (CallNcz channel 3 3 3 xy (85 / 100)),
    (CallNcz (with_f_y channel 300e6) 3 3 3 xy (85 / 100)).
  destruct (channel_changes (fun _ _ _ _ => [])) as (z & z' & E & E' & N).
  destruct (other_numbers _ _ _ _ _ xy _ _ _ _ eq_refl E E')
    as (evs & v & E1 & E2 & E3 & w & E4 & E5).
  exists evs, v, w, (cz_lambda_c z), (cz_lambda_c z').
  exact (conj E1 (conj E2 (conj E4 (conj E5 (conj E3 N))))).
Qed.
Print Assumptions C154_refuted.

(** It can happen to every doubly symmetric member that both checks succeed for. *)
Theorem C154_always_possible :
  forall roots q lx ly lz sym u f_y' z z',
  symmetry sym = Ok SymDouble ->
  s6_3_3_N_c_torsion roots q lx ly lz sym u = Ok z ->
  s6_3_3_N_c_torsion roots (with_f_y q f_y') lx ly lz sym u = Ok z' ->
  let c := CallNcz q lx ly lz sym u in
  let c' := CallNcz (with_f_y q f_y') lx ly lz sym u in
  exists evs v,
     received (fst (play roots [[c]; [c']] evs)) 0 0 = None
  /\ received (fst (play roots [[c]; [c']] (app evs [Run 0]))) 0 0 = Some (Ok v)
  /\ at_path (st_heap (snd (play roots [[c]; [c']] (app evs [Run 0])))) v
       ["Intermediate"; "λ_c"] = Some (VNum (cz_lambda_c z'))
  /\ exists w, fst (run_call roots c fresh) = Ok w
      /\ at_path (st_heap (snd (run_call roots c fresh))) w ["Intermediate"; "λ_c"]
         = Some (VNum (cz_lambda_c z)).
Proof. exact other_numbers. Qed.
Print Assumptions C154_always_possible.

(** What holds for [s6_1_1_Nc]: only these seven entries of "N_cz Intermediate" can be
    another thread's, the value of "f_oxz" among the intermediate results cannot; and no
    entry at all can if the section is point-symmetric or unsymmetric, or if buckling or
    torsion is left out. *)
Theorem C154_partial :
  forall (roots : roots_oracle) (css : list (list call)) (evs : list tick) i j cs g r,
  nth_error css i = Some cs -> nth_error cs j = Some (CallNc g) ->
  received (fst (play roots css evs)) i j = Some r ->
  let h := st_heap (snd (play roots css evs)) in
  let alone := run_call roots (CallNc g) fresh in
  match r, fst alone with
  | Ok v, Ok w => forall p : list string,
      (forall k', p = ["N_cz Intermediate"; k'] ->
         ~ In k' ["f_oc"; "λ_c"; "f_n"; "N_cz_buckling"; "AS4600 Clause"; "Symmetry";
                  "Axis of Symmetry"])
      \/ symmetry (n_sym g) = Ok SymPoint \/ symmetry (n_sym g) = Ok SymNone
      \/ n_buckling g = false \/ n_torsion g = false ->
      numeric (at_path h v p) = numeric (at_path (st_heap (snd alone)) w p)
  | Err e, Err e' => e = e'
  | _, _ => False
  end.
Proof.
  intros roots css evs i j cs g r E1 E2 E3 h alone.
  pose proof (nc_call_steady roots css evs i j cs g r E1 E2 E3) as P.
  pose proof (nc_call_unshared roots css evs i j cs g r E1 E2 E3) as Q.
  unfold agree in P, Q. fold alone h in P, Q.
  destruct r as [v|e], (fst alone) as [w|e']; auto.
  intros p [H|H]; [exact (P p H)|exact (Q H p I)].
Qed.
Print Assumptions C154_partial.

Example C154_case roots :
  exists r, received (fst (play roots [[CallNc (channel_args true true)];
                                       [CallNc (channel_args true true)]] mixed)) 1 0 = Some r.
Proof.
  eapply delivered_in_time with (cs := [CallNc (channel_args true true)]);
    [reflexivity| | |].
  - cbn; lia.
  - apply PeanoNat.Nat.leb_le. vm_compute. reflexivity.
  - intros H. apply in_flat_map in H. destruct H as (n & _ & H).
    destruct (Nat.eqb _ _); cbn in H; intuition discriminate.
Qed.

(** C155: calls broken off anywhere, or still under way in other threads, leave nothing
    behind that a later check could see: it computes what it computes in a fresh
    interpreter. *)
Theorem C155_broken_off_harmless :
  forall (roots : roots_oracle) (css : list (list call)) (evs : list tick) (g : nc_args),
  let x := run_call roots (CallNc g) (snd (play roots css evs)) in
  let y := run_call roots (CallNc g) fresh in
  match fst x, fst y with
  | Ok v, Ok w => forall p : list string,
      numeric (at_path (st_heap (snd x)) v p) = numeric (at_path (st_heap (snd y)) w p)
  | Err e, Err e' => e = e'
  | _, _ => False
  end.
Proof. exact nc_after. Qed.
Print Assumptions C155_broken_off_harmless.

(** A schedule that breaks off calls in the middle: thread 0 stops inside [f_oxz], after
    [r_ol] has been cached, thread 1 before it has done anything. *)
Definition broken : list tick := [Run 0; Run 0; Run 0; Interrupt 1; Interrupt 0].
Example C155_case roots :
  let c := CallFoxz 1 3e-3 3 3 60e-3 20e-3 30e-3 0 100e-9 10e-9 200e9 80e9 in
  let s := snd (play roots [[c]; [c]] broken) in
  st_rol s <> [] /\ st_foxz s = []
  /\ exists v, fst (run_call roots (CallNc (channel_args true true)) s) = Ok v.
Proof.
  split; [|split].
  - cbn. discriminate.
  - reflexivity.
  - apply channel_ok_call, play_inv.
Qed.

(** C156: no thread waits for another: a thread that gets 50 turns for each of its calls and
    is not interrupted has received an outcome from all of them, whatever the others do. *)
Theorem C156_wait_free :
  forall (roots : roots_oracle) (css : list (list call)) (evs : list tick) i j cs,
  nth_error css i = Some cs -> (j < List.length cs)%nat ->
  (50 * List.length cs <= turns i evs)%nat -> ~ In (Interrupt i) evs ->
  exists r, received (fst (play roots css evs)) i j = Some r.
Proof. exact delivered_in_time. Qed.
Print Assumptions C156_wait_free.

Example C156_case roots :
  exists r, received (fst (play roots [busy; busy] (repeat (Run 1) 250))) 1 4 = Some r.
Proof.
  apply C156_wait_free with (cs := busy); [reflexivity| | |].
  - cbn; lia.
  - apply PeanoNat.Nat.leb_le. vm_compute. reflexivity.
  - intros H. apply repeat_spec in H. discriminate H.
Qed.
