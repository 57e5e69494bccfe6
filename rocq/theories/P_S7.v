(** C50, C51: the tension formulas of S7.py (exact arithmetic). *)

From Coq Require Import Reals Lra.
From Verif Require Import Base Num RNum PyReal AS4100 S7 S7Facts.
Open Scope R_scope.

(** C50: the area designed for the load N_t has capacity exactly N_t, and no smaller
    area has capacity N_t. *)
Theorem C50_design_is_inverse_of_capacity :
  forall N_t f_y f_u k_t phi alpha_u,
  0 <= N_t -> 0 < f_y -> 0 < f_u -> 0 < k_t -> 0 < phi -> 0 < alpha_u ->
  exists ar, s7_1_A_reqd N_t f_y f_u k_t phi alpha_u = Ok ar
   /\ nt_phiN (s7_1_N_t (ar_phiA ar) (ar_phiA ar) f_y f_u k_t phi alpha_u) = N_t
   /\ (forall A, N_t <= nt_phiN (s7_1_N_t A A f_y f_u k_t phi alpha_u) -> ar_phiA ar <= A).
Proof. exact design_inverse. Qed.
Print Assumptions C50_design_is_inverse_of_capacity.

Example C50_case : 0 <= 1e6 /\ 0 < 250e6 /\ 0 < 410e6 /\ 0 < 1 /\ 0 < 9 / 10 /\ 0 < 85 / 100.
Proof. lra. Qed.

(** C51. *)
Theorem C51_capacity_results_consistent :
  forall A_g A_n f_y f_u k_t phi alpha_u,
  let r := s7_1_N_t A_g A_n f_y f_u k_t phi alpha_u in
  nt_N r = Rmin (nt_N_ty r) (nt_N_tu r)
  /\ nt_N_ty r = A_g * f_y /\ nt_N_tu r = A_n * f_u * k_t * alpha_u
  /\ nt_phiN_ty r = phi * nt_N_ty r /\ nt_phiN_tu r = phi * nt_N_tu r
  /\ nt_phiN r = phi * nt_N r
  /\ (0 <= phi -> nt_phiN r = Rmin (nt_phiN_ty r) (nt_phiN_tu r))
  /\ nt_N r = AS4100.s7_1_Nt A_g A_n f_y f_u k_t alpha_u.
Proof. exact N_t_consistent. Qed.
Print Assumptions C51_capacity_results_consistent.
