(** Concrete sections for the session theorems. *)

From Coq Require Import ZArith Reals List Bool String Lia Lra.
From Verif Require Import Base Num RNum PyReal Symmetry S6 S6Facts S6Torsion S6Cases S6Cache
  S6CacheFacts S6CacheProofs S6CacheNc S6CacheSession.
Import ListNotations.
Open Scope R_scope.
Open Scope string_scope.

Definition xy : symmetry_t := Some [AxStr "x"; AxStr "y"].

Lemma channel_ncz roots f_y : 0 < f_y -> exists f, 0 < f
  /\ s6_3_3_N_c_torsion roots (with_f_y channel f_y) 3 3 3 xy (85 / 100)
     = Ok (mk_ncz (85 / 100 * s6_2_A_e 3e-3 1 * fnv f_y (sqrt (f_y / f))) f
             (sqrt (f_y / f)) (fnv f_y (sqrt (f_y / f))))
  /\ f_oc_double_symmetric 3e-3 3 3 60e-3 20e-3 30e-3 0 100e-9 10e-9 200e9 80e9 = Ok f.
Proof.
  intros H. destruct (f_oc_double_facts 3e-3 3 3 60e-3 20e-3 30e-3 0 100e-9 10e-9 200e9 80e9)
    as (f & Ef & [P _] & _); try lra.
  exists f. split; [exact P|]. split; [|exact Ef].
  unfold s6_3_3_N_c_torsion, f_oc. change (symmetry xy) with (Ok SymDouble). cbn [bind].
  unfold with_f_y, channel.
  cbn [q_A_n q_k_f q_r_x q_r_y q_x_o q_y_o q_J q_I_w q_f_y q_E q_G]. rewrite Ef. cbn [bind].
  now apply n_cz_value.
Qed.

Lemma channel_changes roots : exists z z',
  s6_3_3_N_c_torsion roots channel 3 3 3 xy (85 / 100) = Ok z
  /\ s6_3_3_N_c_torsion roots (with_f_y channel 300e6) 3 3 3 xy (85 / 100) = Ok z'
  /\ cz_lambda_c z <> cz_lambda_c z'.
Proof.
  destruct (channel_ncz roots 250e6) as (f & P & E & F); [lra|].
  destruct (channel_ncz roots 300e6) as (f' & P' & E' & F'); [lra|].
  rewrite F in F'. injection F' as <-.
  eexists _, _. split; [exact E|]. split; [exact E'|]. cbn [cz_lambda_c].
  apply Rlt_not_eq. apply sqrt_lt_1; [apply div_nonneg; lra|apply div_nonneg; lra|].
  apply div_lt_l; lra.
Qed.

(** An unsymmetrical history: other S6 functions, another symmetry, an exception. *)
Definition busy : list call :=
  [CallRol 0 60e-3 20e-3 30e-3 0;
   CallFoxz 1 3e-3 3 3 60e-3 20e-3 30e-3 0 100e-9 10e-9 200e9 80e9;
   CallSingle 3e-3 3 3 3 60e-3 20e-3 30e-3 0 100e-9 10e-9 200e9 80e9 (Some [AxStr "y"]);
   CallNcz (with_f_y channel 300e6) 3 3 3 xy (85 / 100);
   CallFoxz 0 0 3 3 60e-3 20e-3 30e-3 0 100e-9 10e-9 200e9 80e9].

Definition channel_args (cb ct : bool) : nc_args :=
  mk_nc_args channel 3 1 1 1 (Some [AxStr "x"]) 250e6 0 (85 / 100) (9 / 10) cb ct.

Lemma channel_ok_call roots s : inv s ->
  exists v, fst (run_call roots (CallNc (channel_args true true)) s) = Ok v.
Proof.
  intros I. pose proof (nc_call roots (channel_args true true) s I) as P.
  pose proof (nc_tree_pure roots (channel_args true true)) as Q.
  destruct (channel_defined roots) as (o & Eo).
  change (nc_pure roots (channel_args true true)
    = Ok o) in Eo. rewrite Eo in Q. destruct Q as (t & Et & _). rewrite Et in P.
  destruct P as (a & E & _). eauto.
Qed.
