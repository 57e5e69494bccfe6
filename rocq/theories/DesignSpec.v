(** Calculations composed from several functions of the library, as a user writes them. *)

From Coq Require Import Reals List.
From Verif Require Import Base S5 S6 SectProps.
Import ListNotations.
Open Scope R_scope.

(** The number of ends with partial twist restraint: the letters P of the code. *)
Definition partial_ends (c : restraint) : R :=
  match c with FF | FL | LL | FU => 0 | FP | PL | PU => 1 | PP => 2 end.

(** A segment between restraints (AS4100 table 5.6.3): web depth, length, flange and web
    thickness, number of webs, load height and lateral rotation factors, restraint code. *)
Record segment : Type := mk_segment {
  g_d_1 : R; g_l : R; g_t_f : R; g_t_w : R; g_n_w : R; g_k_l : R; g_k_r : R;
  g_code : restraint }.
Definition good_segment (g : segment) : Prop :=
  0 < g_d_1 g /\ 0 < g_l g /\ 0 < g_t_f g /\ 0 < g_t_w g /\ 0 < g_n_w g
  /\ 0 < g_k_l g /\ 0 < g_k_r g.

(** The same segment with another restraint code. *)
Definition recode (g : segment) (c : restraint) : segment :=
  mk_segment (g_d_1 g) (g_l g) (g_t_f g) (g_t_w g) (g_n_w g) (g_k_l g) (g_k_r g) c.

(** The effective length of AS4100 5.6.3. *)
Definition effective_length (g : segment) : R :=
  g_k_l g * g_k_r g *
  (g_l g + partial_ends (g_code g) * (g_d_1 g * (g_t_f g / (2 * g_t_w g)) ^ 3 / g_n_w g)).

(** The section of the segment: I_y, J, I_w, β_x, E, G, M_s. *)
Record bending : Type := mk_bending {
  b_I_y : R; b_J : R; b_I_w : R; b_beta_x : R; b_E : R; b_G : R; b_M_s : R }.
Definition good_bending (s : bending) : Prop :=
  0 < b_I_y s /\ 0 < b_J s /\ 0 <= b_I_w s /\ 0 < b_E s /\ 0 < b_G s /\ 0 < b_M_s s.

(** The member moment capacity worked out from the segment: k_t, l_e, M_o, α_s, M_b. *)
Definition segment_capacity (g : segment) (s : bending) (alpha_m M : R) : Prop :=
  exists k m a,
    s5_6_3_k_t (g_d_1 g) (g_l g) (g_t_f g) (g_t_w g) (g_n_w g) (RCode (g_code g)) = Ok k
    /\ s5_6_1_M_o (s5_6_3_l_e k (g_k_l g) (g_k_r g) (g_l g)) (b_I_y s) (b_J s) (b_I_w s)
         (b_beta_x s) (b_E s) (b_G s) = Ok m
    /\ s5_6_alpha_s (b_M_s s) m = Ok a /\ M = s5_6_1_Mb (b_M_s s) alpha_m a.

(** The section compression capacity of a plate: effective area, form factor, N_s. *)
Definition plate_capacity (b t f_y lambda_ey f_ref N : R) : Prop :=
  exists A k,
    s6_2_A_e_flatplate b t f_y lambda_ey f_ref = Ok A
    /\ s6_2_k_f_Form_Factor (b * t) A = Ok k
    /\ N = s6_2_N_s (s6_2_A_e (b * t) k) f_y.
