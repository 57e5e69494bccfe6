(** Bounds that hold exactly on doubles: capped factors, the least of several capacities. *)

From Coq Require Import ZArith Reals List Bool Lra Lia String Floats.SpecFloat.
From Verif Require Import Base Num PyNum FloatSpec FloatValSpec FloatRound FloatOps FloatFacts FloatError FloatUtil FloatCheck
  FloatBeam FloatCalc FloatOrderSpec FloatOrder FloatMono Symmetry NumFormulas NumS6 NumSect.
Import ListNotations.
Open Scope R_scope.
Local Opaque SFadd SFsub SFdiv.

(** ** Products of two numbers that may both be infinite *)
Lemma mul_any f f' g g' : nn f -> nn f' -> nn g -> nn g' -> fle (S754_zero false) f = true -> fle (S754_zero false) g = true ->
  fle f f' = true -> fle g g' = true -> SFmul f64 e64 f g <> S754_nan -> SFmul f64 e64 f' g' <> S754_nan ->
  fle (SFmul f64 e64 f g) (SFmul f64 e64 f' g') = true.
Proof.
  intros Hf Hf' Hg Hg' Zf Zg Lf Lg E E'. pose proof (fle_trans _ _ _ Zf Lf) as Zf'. pose proof (fle_trans _ _ _ Zg Lg) as Zg'.
  assert (T : forall a b, nn a -> nn b -> fle (S754_zero false) a = true -> fle (S754_zero false) b = true ->
    SFmul f64 e64 a b <> S754_nan -> nn (SFmul f64 e64 a b)).
  { clear. intros a b [Fa|[s ->]] Hb Za Zb N.
    - destruct Hb as [Fb|[s ->]]; [eapply rounds_nn, mul_rounds; auto|].
      destruct a as [| | |t m e]; cbn in Fa; try contradiction; cbn [SFmul] in *; first [congruence|right; eauto].
    - destruct b as [| | |t m e]; cbn [SFmul] in *; try congruence; right; eauto. }
  pose proof (T f g Hf Hg Zf Zg E) as N1.
  assert (S : forall a, nn a -> fle (S754_zero false) a = true -> SFmul f64 e64 (S754_infinity false) a <> S754_nan ->
    SFmul f64 e64 (S754_infinity false) a = S754_infinity false).
  { clear. intros a [Fa|[s E]] Z N.
    - destruct a as [| | |t m e]; cbn in Fa; try contradiction; cbn [SFmul] in *; try congruence.
      destruct t; [|reflexivity]. exfalso. apply (fle_R (S754_zero false) (S754_finite true m e) I Fa) in Z. cbn [sfR signed] in Z. pose proof (finite_small m e Fa). lra.
    - now rewrite (nonneg_inf s a E Z). }
  destruct Hf' as [Ff'|[s Ef]].
  2:{ pose proof (nonneg_inf s f' Ef Zf') as ->. rewrite S by auto. now apply inf_top. }
  destruct Hg' as [Fg'|[s Eg]].
  2:{ pose proof (nonneg_inf s g' Eg Zg') as ->. rewrite mul_comm in *. rewrite (mul_comm f' (S754_infinity false)) in *.
      rewrite S by (auto; now left). apply inf_top. rewrite mul_comm. rewrite (mul_comm g f) in N1. rewrite mul_comm. now rewrite mul_comm in N1. }
  destruct Hf as [Ff|[s Ef]].
  2:{ pose proof (nonneg_inf s f Ef Zf) as ->. apply above_inf in Lf; [|now left]. subst f'. contradiction. }
  destruct Hg as [Fg|[s Eg]].
  2:{ pose proof (nonneg_inf s g Eg Zg) as ->. apply above_inf in Lg; [|now left]. subst g'. contradiction. }
  eapply rounds_mono; [now apply mul_rounds|now apply mul_rounds|]. apply fle_R in Lf; auto. apply fle_R in Lg; auto.
  apply (fle_R (S754_zero false) _ I Ff) in Zf. apply (fle_R (S754_zero false) _ I Fg) in Zg. cbn [sfR] in *.
  apply Rmult_le_compat; lra.
Qed.
Local Opaque SFmul.

Lemma mul_any_grows x x' y y' : grows x x' -> grows y y' -> nisnan (nmul x y) = false -> nisnan (nmul x' y') = false ->
  le (nmul x y) (nmul x' y').
Proof.
  intros H K N N'. apply grows_fl in H. apply grows_fl in K.
  destruct H as (f & f' & -> & -> & Hf & Hf' & Z & Z' & L), K as (g & g' & -> & -> & Hg & Hg' & P & P' & M).
  apply (nan_iff (SFmul f64 e64 f g)) in N. apply (nan_iff (SFmul f64 e64 f' g')) in N'. now apply mul_any.
Qed.

Lemma chs_slenderness_grows d d' t t' f f' ref ref' : grows d d' -> pgrows t' t -> grows f f' -> pgrows ref' ref ->
  exists r r', ns6_2_lambda_e_CHS d t f ref = Ok r /\ ns6_2_lambda_e_CHS d' t' f' ref' = Ok r' /\
    (nisnan r = false -> nisnan r' = false -> le r r').
Proof.
  intros Hd Ht Hf Hr. unfold ns6_2_lambda_e_CHS.
  destruct (grows_div _ _ _ _ Hd Ht) as (-> & -> & G1). cbn [bind].
  destruct (grows_div _ _ _ _ Hf Hr) as (-> & -> & G2). cbn [bind].
  do 2 eexists. split; [reflexivity|]. split; [reflexivity|]. now apply mul_any_grows.
Qed.

Lemma plate_width_grows b b' l l' y y' : pgrows b b' -> pgrows l' l -> grows y y' ->
  exists r r', ns6_2_b_e_flatplate b l y = Ok r /\ ns6_2_b_e_flatplate b' l' y' = Ok r' /\ grows r r' /\ le r b.
Proof.
  intros Hb Hl Hy. unfold ns6_2_b_e_flatplate.
  destruct (grows_div _ _ _ _ Hy Hl) as (-> & -> & G1). cbn [bind]. do 2 eexists. split; [reflexivity|]. split; [reflexivity|].
  pose proof (grows_mul' _ _ _ _ Hb G1) as G2. pose proof (pgrows_grows _ _ Hb) as G3. split; [now apply grows_min|].
  apply min_le; [apply G2|apply G3].
Qed.

Lemma form_factor_grows n n' e e' : pgrows n' n -> grows e e' ->
  exists r r', ns6_2_k_f_Form_Factor n e = Ok r /\ ns6_2_k_f_Form_Factor n' e' = Ok r' /\ grows r r'.
Proof. intros Hn He. unfold ns6_2_k_f_Form_Factor. destruct (grows_div _ _ _ _ He Hn) as (-> & -> & G). eauto. Qed.

(** ** The stress factor for uneven shear *)
Lemma nine_tenths : positive (nflt 9 10) /\ nadd (nflt 9 10) (PFlt (sf_of_Z 0)) = nflt 9 10.
Proof.
  split; [|vm_compute; reflexivity]. apply pos_fin. eexists. split; [vm_compute; reflexivity|]. split; [reflexivity|].
  cbn [sfR signed]. apply Rmult_lt_0_compat; [apply IZR_lt; lia|apply bp_pos].
Qed.

Lemma one_nonneg : non_negative (nflt 1 1).
Proof.
  apply nonneg_fl. exists (sf_of_Z 1). split; [vm_compute; reflexivity|]. split; [left; vm_compute; reflexivity|vm_compute; reflexivity].
Qed.
Lemma two_grows : grows (PFlt (sf_of_Z 2)) (PFlt (sf_of_Z 2)).
Proof. apply nonneg_grows, nonneg_fl. exists (sf_of_Z 2). split; [reflexivity|]. split; [left; vm_compute; reflexivity|vm_compute; reflexivity]. Qed.

Lemma shifted_pos q : non_negative q -> exists v, pydiv (PFlt (sf_of_Z 2)) (nadd (nflt 9 10) q) = Ok v /\ non_negative v.
Proof.
  intros Hq. destruct nine_tenths as [P E].
  assert (G : grows (nflt 9 10) (nadd (nflt 9 10) q)).
  { rewrite <- E at 1. apply grows_add; [now apply pgrows_grows, positive_pgrows|]. split; [apply zero_grows|]. split; [exact Hq|].
    destruct Hq as [_ H]. rewrite fl_zero in H. exact H. }
  set (d := nadd (nflt 9 10) q) in *. destruct G as (_ & Hd & L). apply nonneg_fl in Hd. destruct Hd as (g & -> & N & Z).
  assert (Q : py_eqb (PFlt g) (PInt 0) = false).
  { destruct (py_eqb (PFlt g) (PInt 0)) eqn:Q; [|reflexivity]. exfalso. unfold py_eqb in Q. apply andb_true_iff in Q. destruct Q as [Q _].
    pose proof (ext_trans _ _ _ L Q) as B. vm_compute in B. discriminate B. }
  unfold pydiv. change (@neqb pynum PNum (PFlt g) (nint 0)) with (py_eqb (PFlt g) (PInt 0)). rewrite Q. eexists. split; [reflexivity|].
  pose proof (eq_zero g Z Q) as Q'. apply nonneg_fl. exists (SFdiv f64 e64 (sf_of_Z 2) g). split; [reflexivity|].
  assert (Nt : nn (sf_of_Z 2)) by (left; vm_compute; reflexivity).
  assert (Zt : fle (S754_zero false) (sf_of_Z 2) = true) by (vm_compute; reflexivity).
  destruct N as [F|[s E']].
  - assert (Pg : 0 < sfR g).
    { destruct (Rlt_dec 0 (sfR g)); [assumption|]. exfalso. assert (fle g (S754_zero false) = true) by (apply fle_R; [exact F|exact I|cbn [sfR]; lra]). congruence. }
    split; [now apply div_nn|now apply div_nonneg].
  - pose proof (nonneg_inf s g E' Z) as ->. split; [left; vm_compute; exact I|vm_compute; reflexivity].
Qed.

Lemma stress_factor_grows vm vm' va va' : grows vm vm' -> pgrows va' va ->
  exists a a', ns5_11_3_alpha_vma vm va = Ok a /\ ns5_11_3_alpha_vma vm' va' = Ok a' /\ grows a' a /\ le a (nflt 1 1).
Proof.
  intros Hm Ha. unfold ns5_11_3_alpha_vma. destruct (grows_div _ _ _ _ Hm Ha) as (-> & -> & G). cbn [bind].
  change (nint 2) with (PInt 2). rewrite !idiv.
  destruct (shifted_pos (ndiv vm va) (proj1 G)) as (v & E & N), (shifted_pos (ndiv vm' va') (proj1 (proj2 G))) as (v' & E' & N').
  rewrite E, E'. cbn [bind]. do 2 eexists. split; [reflexivity|]. split; [reflexivity|].
  assert (G' : grows (nadd (nflt 9 10) (ndiv vm va)) (nadd (nflt 9 10) (ndiv vm' va'))).
  { apply grows_add; [|exact G]. apply pgrows_grows, positive_pgrows, nine_tenths. }
  split.
  - apply grows_min; [|apply nonneg_grows, one_nonneg]. split; [exact N'|]. split; [exact N|].
    apply (quot_grows _ _ _ _ _ _ two_grows G' E' E); apply some_nan; [apply N'|apply N].
  - apply min_le; [apply N|apply one_nonneg].
Qed.

(** ** Minima of which one side may be anything *)
Lemma min_first x y : some_double x -> some_double (pymin x y) -> le (pymin x y) x.
Proof.
  intros Hx Hm. unfold pymin, le in *. change (@nltb pynum PNum y x) with (py_leb y x && negb (py_leb x y)) in *.
  destruct (py_leb y x) eqn:E; cbn [andb] in *; [|now apply le_refl, some_nan].
  destruct (py_leb x y) eqn:E'; cbn [negb] in *; [now apply le_refl, some_nan|exact E].
Qed.
Lemma min_second x y : some_double y -> some_double (pymin x y) -> le (pymin x y) y.
Proof.
  intros Hy Hm. unfold pymin, le in *. change (@nltb pynum PNum y x) with (py_leb y x && negb (py_leb x y)) in *.
  destruct (py_leb y x && negb (py_leb x y)) eqn:E; [now apply le_refl, some_nan|].
  destruct (cmp_total x y (some_nan x Hm) (some_nan y Hy)) as [H|H]; [exact H|].
  rewrite H in E. cbn [andb] in E. now apply negb_false_iff in E.
Qed.

Lemma chs_cap pw d l y r : ns6_2_d_e_CHS pw d l y = Ok r -> some_double d -> some_double r -> le r d.
Proof.
  unfold ns6_2_d_e_CHS. destruct (pydiv y l); [|discriminate]. cbn [bind]. destruct (pw _ _); [|discriminate]. cbn [bind].
  destruct (pydiv _ l); [|discriminate]. cbn [bind]. destruct (pw _ _); [|discriminate]. cbn [bind]. intros [= <-]. apply min_second.
Qed.

Lemma plate_cap b l y r : ns6_2_b_e_flatplate b l y = Ok r -> some_double b -> some_double r -> le r b.
Proof. unfold ns6_2_b_e_flatplate. destruct (pydiv y l); [|discriminate]. cbn [bind]. intros [= <-]. apply min_second. Qed.

Lemma moment_cap pw M M2 M3 M4 mx a : ns5_6_1_alpha_m pw M M2 M3 M4 mx = Ok a -> some_double mx -> some_double a -> le a mx.
Proof.
  unfold ns5_6_1_alpha_m. destruct (pw _ _); [|discriminate]. cbn [bind]. destruct (pydiv _ _); [|discriminate]. cbn [bind].
  intros [= <-]. apply min_second.
Qed.

(** ** The factored capacities *)
Lemma factored phi x y : positive phi -> some_double x -> some_double y -> le x y ->
  some_double (nmul phi x) /\ le (nmul phi x) (nmul phi y).
Proof.
  intros Hp Hx Hy L. apply pos_fin in Hp. destruct Hp as (p & -> & F & P). apply some_nn in Hx, Hy.
  destruct Hx as (f & -> & N), Hy as (g & -> & N'). rewrite !(nmul_comm_fl p). split.
  - apply some_nn. exists (SFmul f64 e64 f p). split; [reflexivity|now apply mul_nn].
  - now apply mul_mono_l.
Qed.
Lemma factored_some phi x : positive phi -> some_double x -> some_double (nmul phi x).
Proof. intros Hp Hx. apply (factored phi x x Hp Hx Hx). now apply le_refl, some_nan. Qed.

Lemma le_rf x : some_double x -> le x x.
Proof. intros H. now apply le_refl, some_nan. Qed.

Lemma min_some x y : some_double x -> some_double y -> some_double (pymin x y).
Proof. intros Hx Hy. destruct (min_le x y Hx Hy) as (_ & _ & [->| ->]); auto. Qed.

Lemma tension_least ty tu phi : some_double ty -> some_double tu -> positive phi ->
  least_of (Some (pymin ty tu)) [Some ty; Some tu] /\
  least_of (Some (nmul (pymin ty tu) phi)) [Some (nmul ty phi); Some (nmul tu phi)].
Proof.
  intros Hy Hu Hp. destruct (min_le ty tu Hy Hu) as (A & B & C).
  assert (M : forall x, some_double x -> nmul x phi = nmul phi x).
  { intros x Hx. apply some_nn in Hx. apply pos_fin in Hp. destruct Hx as (f & -> & _), Hp as (p & -> & _). apply nmul_comm_fl. }
  pose proof (min_some _ _ Hy Hu) as Hm. split.
  - eexists. split; [reflexivity|]. split; [destruct C as [->| ->]; cbn; auto|]. intros v [[= <-]|[[= <-]|[]]]; assumption.
  - rewrite !M by assumption. eexists. split; [reflexivity|]. split; [destruct C as [->| ->]; cbn; auto|].
    intros v [[= <-]|[[= <-]|[]]]; apply factored; assumption.
Qed.

(** ** s6_1_1_Nc *)
Ltac ins := let v := fresh in let E := fresh in
  intros v E; repeat (destruct E as [E|E]; [first [discriminate E|injection E as <-]|]); try destruct E.

Lemma compression_least pw roots q l kx ky kz sym ref ab un phi cb ct s ps x px y py z pz c pc :
  ns6_1_1_Nc pw roots q l kx ky kz sym ref ab un phi cb ct = Ok [s; ps; x; px; y; py; z; pz; c; pc] ->
  (forall v, In (Some v) [s; x; y; z] -> some_double v) -> positive phi ->
  least_of c [s; x; y; z] /\ least_of pc [ps; px; py; pz] /\
  (exists n, s = Some n /\ forall v, In (Some v) [x; y; z; c] -> le v n) /\
  (exists n, ps = Some n /\ forall v, In (Some v) [px; py; pz; pc] -> le v n).
Proof.
  intros H S Hp. unfold ns6_1_1_Nc in H.
  set (N := ns6_2_N_s (ns6_2_A_e (w_A_n q) (w_k_f q)) (w_f_y q)) in *.
  destruct cb.
  - destruct (ns6_3_3_N_c pw _ _ (ns6_3_2_l_e l kx) _ _ _ _) as [bx|]; [|discriminate]. cbn [bind] in H.
    destruct (ns6_3_3_N_c pw _ _ (ns6_3_2_l_e l ky) _ _ _ _) as [by_|]; [|discriminate]. cbn [bind] in H.
    destruct ct.
    + destruct (ns6_3_3_N_c_torsion _ _ _ _ _ _ _ _) as [zz|]; [|discriminate]. cbn [bind] in H.
      remember (pymin bx N) as X eqn:EX. remember (pymin by_ N) as Y eqn:EY. remember (pymin N (nth 0 zz (nint 0))) as Z eqn:EZ.
      injection H as <- <- <- <- <- <- <- <- <- <-.
      assert (SN : some_double N) by (apply S; cbn; auto). assert (SX : some_double X) by (apply S; cbn; auto).
      assert (SY : some_double Y) by (apply S; cbn; auto). assert (SZ : some_double Z) by (apply S; cbn; auto 6).
      assert (LX : le X N) by (subst X; now apply min_second). assert (LY : le Y N) by (subst Y; now apply min_second).
      assert (LZ : le Z N) by (subst Z; now apply min_first).
      pose proof (min_some N X SN SX) as S1. pose proof (min_some _ Y S1 SY) as S2. pose proof (min_some _ Z S2 SZ) as S3.
      destruct (min_le N X SN SX) as (A1 & B1 & C1), (min_le _ Y S1 SY) as (A2 & B2 & C2), (min_le _ Z S2 SZ) as (A3 & B3 & C3).
      set (m1 := pymin N X) in *. set (m2 := pymin m1 Y) in *. set (m3 := pymin m2 Z) in *.
      assert (D : m3 = N \/ m3 = X \/ m3 = Y \/ m3 = Z) by intuition congruence.
      assert (L1 : le m3 m1) by now apply le_trans with m2.
      assert (LN' : le m3 N) by now apply le_trans with m1. assert (LX' : le m3 X) by now apply le_trans with m1.
      assert (LY' : le m3 Y) by now apply le_trans with m2.
      split; [|split; [|split]].
      * exists m3. split; [reflexivity|]. split; [destruct D as [->|[->|[->| ->]]]; cbn; auto 6|]. ins; assumption.
      * exists (nmul phi m3). split; [reflexivity|]. split; [destruct D as [->|[->|[->| ->]]]; cbn; auto 6|].
        ins; apply factored; assumption.
      * exists N. split; [reflexivity|]. ins; assumption.
      * exists (nmul phi N). split; [reflexivity|]. ins; apply factored; assumption.
    + remember (pymin bx N) as X eqn:EX. remember (pymin by_ N) as Y eqn:EY.
      injection H as <- <- <- <- <- <- <- <- <- <-.
      assert (SN : some_double N) by (apply S; cbn; auto). assert (SX : some_double X) by (apply S; cbn; auto).
      assert (SY : some_double Y) by (apply S; cbn; auto).
      assert (LX : le X N) by (subst X; now apply min_second). assert (LY : le Y N) by (subst Y; now apply min_second).
      assert (G : forall N X Y, some_double N -> some_double X -> some_double Y -> le X N -> le Y N ->
        least_of (Some (pymin (pymin N X) Y)) [Some N; Some X; Some Y; None] /\
        (exists n, Some N = Some n /\ forall v, In (Some v) [Some X; Some Y; None; Some (pymin (pymin N X) Y)] -> le v n)).
      { clear. intros N X Y SN SX SY LX LY. pose proof (min_some N X SN SX) as S1. pose proof (min_some _ Y S1 SY) as S2.
        destruct (min_le N X SN SX) as (A1 & B1 & C1), (min_le _ Y S1 SY) as (A2 & B2 & C2).
        set (m1 := pymin N X) in *. set (m2 := pymin m1 Y) in *.
        assert (D : m2 = N \/ m2 = X \/ m2 = Y) by intuition congruence.
        assert (LN' : le m2 N) by now apply le_trans with m1. assert (LX' : le m2 X) by now apply le_trans with m1. split.
        - exists m2. split; [reflexivity|]. split; [destruct D as [->|[->| ->]]; cbn; auto 6|]. ins; assumption.
        - exists N. split; [reflexivity|]. ins; assumption. }
      destruct (G N X Y) as [G1 G2]; try assumption.
      destruct (G (nmul phi N) (nmul phi X) (nmul phi Y)) as [G3 G4]; try (now apply factored_some); try (apply factored; assumption).
      split; [exact G1|]. split; [exact G3|]. split; [exact G2|exact G4].
  - injection H as <- <- <- <- <- <- <- <- <- <-. assert (SN : some_double N) by (apply S; cbn; auto).
    pose proof (factored_some phi N Hp SN) as SP. split; [|split; [|split]].
    + exists N. split; [reflexivity|]. split; [cbn; auto|]. ins. now apply le_rf.
    + exists (nmul phi N). split; [reflexivity|]. split; [cbn; auto|]. ins. now apply le_rf.
    + exists N. split; [reflexivity|]. ins. now apply le_rf.
    + exists (nmul phi N). split; [reflexivity|]. ins. now apply le_rf.
Qed.

Lemma tension_caps Ag An fy fu kt phi au ty tu n pty ptu pn :
  ns7_1_N_t Ag An fy fu kt phi au = [ty; tu; n; pty; ptu; pn] -> some_double ty -> some_double tu -> positive phi ->
  least_of (Some n) [Some ty; Some tu] /\ least_of (Some pn) [Some pty; Some ptu].
Proof. unfold ns7_1_N_t. intros [= <- <- <- <- <- <-]. apply tension_least. Qed.
