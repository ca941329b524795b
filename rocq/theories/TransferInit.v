(** A new model in binary64 (C76). *)
From Coq Require Import ZArith Reals Lra Lia Bool Floats.SpecFloat List FunctionalExtensionality.
From Flocq Require Import Core Relative.
From Verif Require Import Base RLemmas RoundingFlocq Shared SharedSpec SharedProofs Params State IterSpec Inputs Init InitSpec InitProofs Water VecLemmas WaterSpec WeightProofs
  RunProofs Binary64Spec Binary64 Binary64Init Transfer TransferPicks TransferWalk TransferOps TransferFlow TransferSurface.
Import ListNotations.
Local Open Scope R_scope.

(** ** Positive numbers between two powers of two *)
Definition relp (lo hi : Z) (x : sfloat) (r : R) : Prop := stands_for x r /\ bpow radix2 lo <= r <= bpow radix2 hi.
Lemma relp_rel lo hi c x r : (hi <= c)%Z -> relp lo hi x r -> rel c x r.
Proof.
  intros Hc [H1 H2]. split; [exact H1|]. pose proof (bpow_gt_0 radix2 lo). rewrite Rabs_pos_eq by lra.
  eapply Rle_trans; [apply H2|]. apply bpow_le. exact Hc.
Qed.
Lemma relp_pos lo hi x r : relp lo hi x r -> 0 < r.
Proof. intros [_ H]. pose proof (bpow_gt_0 radix2 lo). lra. Qed.
Lemma relp_res lo hi z v : (-1000 <= lo)%Z -> (hi <= 1000)%Z -> (lo <= hi)%Z -> bpow radix2 lo <= v <= bpow radix2 hi ->
  (fits v -> stands_for z (rn64 v)) -> relp lo hi z (rn64 v).
Proof.
  intros Hl Hh Hlh [V1 V2] H. pose proof (bpow_gt_0 radix2 lo). split.
  - apply H. apply (rn_fits v hi); [lia|]. rewrite Rabs_pos_eq by lra. exact V2.
  - split; [rewrite <- (bp_repr lo) by lia|rewrite <- (bp_repr hi) by lia]; apply rnd_mono; assumption.
Qed.
Lemma relp_mul a b c d x y r s : (-900 <= a)%Z -> (b <= 900)%Z -> (-900 <= c)%Z -> (d <= 900)%Z -> (-900 <= a + c)%Z -> (b + d <= 900)%Z ->
  (a + c <= b + d)%Z -> relp a b x r -> relp c d y s -> relp (a + c) (b + d) (fmul (Arith:=F64) x y) (fmul (Arith:=XR) r s).
Proof.
  intros A1 A2 A3 A4 A5 A6 A7 [X1 X2] [Y1 Y2]. cbn [fmul RA]. apply relp_res; [lia|lia|lia| |apply mul_ok; assumption].
  rewrite !bpow_plus. pose proof (bpow_gt_0 radix2 a). pose proof (bpow_gt_0 radix2 c). split; apply Rmult_le_compat; lra.
Qed.
Lemma inv_le x y : 0 < x -> x <= y -> / y <= / x.
Proof. intros H1 H2. apply Rinv_le_contravar; assumption. Qed.
Lemma relp_div a b c d x y r s : (-900 <= a - d)%Z -> (b - c <= 900)%Z -> (a - d <= b - c)%Z ->
  relp a b x r -> relp c d y s -> relp (a - d) (b - c) (fdiv (Arith:=F64) x y) (fdiv (Arith:=XR) r s).
Proof.
  intros A1 A2 A3 [X1 X2] [Y1 Y2]. pose proof (bpow_gt_0 radix2 a). pose proof (bpow_gt_0 radix2 c).
  cbn [fdiv RA]. apply relp_res; [lia|lia|lia| |apply div_ok; [assumption|assumption|lra]].
  unfold Z.sub. rewrite !bpow_plus, !bpow_opp. unfold Rdiv.
  assert (0 < / s) by (apply Rinv_0_lt_compat; lra). pose proof (inv_le s (bpow radix2 d) ltac:(lra) (proj2 Y2)). pose proof (inv_le (bpow radix2 c) s ltac:(lra) (proj1 Y2)).
  assert (0 < / bpow radix2 d) by (apply Rinv_0_lt_compat, bpow_gt_0).
  split; apply Rmult_le_compat; lra.
Qed.
Lemma relp_z n lo hi : (0 <= lo)%Z -> (2 ^ lo <= n <= 2 ^ hi)%Z -> (hi <= 20)%Z -> (0 <= hi)%Z -> relp lo hi (fz (Arith:=F64) n) (fz (Arith:=XR) n).
Proof.
  intros Hl Hn Hh H0. assert (E : (2 ^ hi <= 2 ^ 20)%Z) by (apply Z.pow_le_mono_r; lia). assert (0 < 2 ^ lo)%Z by (apply Z.pow_pos_nonneg; lia).
  destruct (rel_z n ltac:(lia)) as [Z1 _]. split; [exact Z1|]. rewrite stands_int by (change (2 ^ 52)%Z with 4503599627370496%Z; change (2 ^ 20)%Z with 1048576%Z in E; lia).
  rewrite <- !IZR_Zpower by lia. change (Z.pow radix2) with (Z.pow 2). split; apply IZR_le; lia.
Qed.
Lemma relp_of lo hi x r : stands_for x r -> bpow radix2 lo <= r <= bpow radix2 hi -> relp lo hi x r.
Proof. split; assumption. Qed.
Lemma lit_tenth_p : relp (-4) (-3) (flit (A:=F64) 1 10) (flit (A:=XR) 1 10).
Proof.
  unfold flit. change (-4)%Z with (0 - 4)%Z. change (-3)%Z with (0 - 3)%Z.
  apply relp_div; [lia|lia|lia|apply relp_z; cbn; lia|apply relp_z; cbn; lia].
Qed.

(** Division as Python does it. *)
Lemma pydiv_r a c d e x y r s : (0 <= e <= 1000)%Z -> (a - c <= e)%Z -> rel a x r -> relp c d y s ->
  pydiv (A:=F64) x y = Ok (fdiv (Arith:=F64) x y) /\ pydiv (A:=XR) r s = Ok (fdiv (Arith:=XR) r s) /\
  rel e (fdiv (Arith:=F64) x y) (fdiv (Arith:=XR) r s).
Proof.
  intros He Hac X Y. pose proof (relp_pos _ _ _ _ Y) as Ps. split; [|split]; unfold pydiv.
  - rewrite (rel_eq (relp_rel _ _ _ _ _ (Z.le_refl _) Y) zero_rel). rewrite rz by lia. cbn [feqb RA]. unfold Reqb.
    destruct (Req_EM_T s 0); [lra|reflexivity].
  - rewrite rz by lia. cbn [feqb RA]. unfold Reqb. destruct (Req_EM_T s 0); [lra|reflexivity].
  - apply (rel_div X (relp_rel _ _ _ _ _ (Z.le_refl _) Y)); [exact He|lra|]. destruct X as [_ X], Y as [_ Y].
    unfold Rdiv. rewrite Rabs_mult, (Rabs_pos_eq (/ s)) by (apply Rlt_le, Rinv_0_lt_compat; exact Ps).
    apply Rle_trans with (bpow radix2 (a - c)); [|apply bpow_le; exact Hac]. unfold Z.sub. rewrite bpow_plus, bpow_opp.
    apply Rmult_le_compat; [apply Rabs_pos|apply Rlt_le, Rinv_0_lt_compat; exact Ps|exact X|apply inv_le; [apply bpow_gt_0|apply Y]].
Qed.

(** Rounding to an integer. *)
Lemma near_le n r : r <= IZR n -> (ZnearestE r <= n)%Z.
Proof. intros H. rewrite <- (Znearest_imp (fun x => negb (Z.even x)) (IZR n) n) by (unfold Rminus; rewrite Rplus_opp_r, Rabs_R0; lra). apply Zrnd_le; [apply valid_rnd_N|exact H]. Qed.
Lemma near_ge n r : IZR n <= r -> (n <= ZnearestE r)%Z.
Proof. intros H. rewrite <- (Znearest_imp (fun x => negb (Z.even x)) (IZR n) n) at 1 by (unfold Rminus; rewrite Rplus_opp_r, Rabs_R0; lra). apply Zrnd_le; [apply valid_rnd_N|exact H]. Qed.

Lemma cells_count x y r s n m : stands_for x r -> stands_for y s -> IZR n * s <= r <= IZR m * s -> (Z.abs n <= 2 ^ 20)%Z -> (Z.abs m <= 2 ^ 20)%Z ->
  0 < s ->
  frint (Arith:=F64) (fdiv (Arith:=F64) x y) = frint (Arith:=XR) (fdiv (Arith:=XR) r s) /\ (n <= frint (Arith:=XR) (fdiv (Arith:=XR) r s) <= m)%Z.
Proof.
  intros Hx Hy H Hn Hm Ps.
  assert (Q : IZR n <= r / s <= IZR m).
  { split; apply (Rmult_le_reg_r s); try exact Ps; unfold Rdiv; rewrite Rmult_assoc, Rinv_l, Rmult_1_r by lra; apply H. }
  assert (B : Rabs (r / s) <= bpow radix2 20).
  { change (bpow radix2 20) with (IZR (2 ^ 20)). apply Rabs_le. rewrite <- opp_IZR. split; [apply Rle_trans with (IZR n)|apply Rle_trans with (IZR m)]; try apply Q; apply IZR_le; lia. }
  split.
  - cbn [frint RA]. apply rint_ok. apply div_ok; [exact Hx|exact Hy|lra|]. apply (rn_fits _ 20); [lia|exact B].
  - cbn [frint fdiv RA]. rewrite <- (stands_int n), <- (stands_int m) in Q by (change (2 ^ 52)%Z with 4503599627370496%Z; change (2 ^ 20)%Z with 1048576%Z in *; lia).
    cbn [fz RA] in Q.
    assert (En : rn64 (IZR n) = IZR n) by (apply stands_int; change (2 ^ 52)%Z with 4503599627370496%Z; change (2 ^ 20)%Z with 1048576%Z in *; lia).
    assert (Em : rn64 (IZR m) = IZR m) by (apply stands_int; change (2 ^ 52)%Z with 4503599627370496%Z; change (2 ^ 20)%Z with 1048576%Z in *; lia).
    rewrite En, Em in Q.
    split; [apply near_ge; rewrite <- En|apply near_le; rewrite <- Em]; apply rnd_mono; apply Q.
Qed.

(** ** The numbers of a new model *)
Section Made.
  Context {F : Type} {A : Arith F} {S N : Type} {G : Rng F S} {GN : NpRng N}.

  Definition n_L (c : inputs F) : Z := frint (fdiv (i_Length c) (i_dx c)).
  Definition n_W (c : inputs F) : Z := frint (fdiv (i_Width c) (i_dx c)).
  Definition n_L0 (c : inputs F) : Z := Z.max 1 (Z.min (frint (fdiv (i_L0_meters c) (i_dx c))) (n_L c / 4)).
  Definition n_N0 (c : inputs F) : Z := Z.max 3 (Z.min (frint (fdiv (i_N0_meters c) (i_dx c))) (n_W c / 4)).
  Definition n_C0 (c : inputs F) : F := fdiv (fmul (i_C0_percent c) (fz 1)) (fz 100).
  Definition n_V0 (c : inputs F) : F := fmul (i_h0 c) (fmul (i_dx c) (i_dx c)).
  Definition n_Qw0 (c : inputs F) : F := fmul (fmul (fmul (i_u0 c) (i_h0 c)) (fz (n_N0 c))) (i_dx c).
  Definition n_dVs (c : inputs F) : F := fmul (fmul (flit 1 10) (fz (n_N0 c * n_N0 c))) (n_V0 c).
  Definition n_cross (c : inputs F) : Z := frint (fdiv (n_dVs c) (n_V0 c)).
  Definition n_step (c : inputs F) : Z := match i_stepmax c with None => (2 * (n_L c + n_W c))%Z | Some x => ftrunc x end.
  Definition n_seed (c : inputs F) (np : N) : S * N :=
    match i_seed c with Some z => (seed_rng z, np) | None => let (z, np') := randint np in (seed_rng z, np') end.

  (** No setter objects and nothing divides by zero. *)
  Record sane (c : inputs F) : Prop := {
    sn_Length : fleb (i_Length c) (fz 0) = false; sn_Width : fleb (i_Width c) (fz 0) = false;
    sn_dx : (fleb (i_dx c) (fz 0) || fltb (i_Length c) (i_dx c) || fltb (i_Width c) (i_dx c))%bool = false;
    sn_L0 : fltb (i_L0_meters c) (fz 0) = false; sn_itermax : (i_itermax c <? 0)%Z = false; sn_Np : (i_Np_water c <=? 0)%Z = false;
    sn_N0 : fleb (i_N0_meters c) (fz 0) = false; sn_Np_sed : (i_Np_sed c <=? 0)%Z = false;
    sn_f : (fltb (i_f_bedload c) (fz 0) || fltb (fz 1) (i_f_bedload c))%bool = false;
    sn_active : match i_active_layer_thickness c with Some t => fltb t (fz 0) = false | None => True end;
    sn_C0 : fltb (i_C0_percent c) (fz 0) = false; sn_Csmooth : fltb (i_Csmooth c) (fz 0) = false;
    sn_u0 : feqb (fmul (i_u0 c) (i_u0 c)) (fz 0) = false; sn_Np0 : feqb (fz (i_Np_water c)) (fz 0) = false;
    sn_Np_sed0 : feqb (fz (i_Np_sed c)) (fz 0) = false; sn_Qs0 : feqb (fmul (n_Qw0 c) (n_C0 c)) (fz 0) = false;
    sn_itermax0 : feqb (fz (i_itermax c)) (fz 0) = false; sn_V0 : feqb (n_V0 c) (fz 0) = false;
    sn_cross : feqb (fz (n_cross c)) (fz 0) = false; sn_area : feqb (fmul (i_dx c) (i_dx c)) (fz 0) = false;
    sn_buffer : (Z.quot (n_step c) 2 <? 0)%Z = false }.

  Record core (c d : inputs F) : Prop := {
    co_Length : i_Length d = i_Length c; co_Width : i_Width d = i_Width c; co_dx : i_dx d = i_dx c; co_L0 : i_L0_meters d = i_L0_meters c;
    co_S0 : i_S0 d = i_S0 c; co_itermax : i_itermax d = i_itermax c; co_Np : i_Np_water d = i_Np_water c; co_u0 : i_u0 d = i_u0 c;
    co_N0 : i_N0_meters d = i_N0_meters c; co_h0 : i_h0 d = i_h0 c; co_hb : i_hb d = i_hb c; co_H_SL : i_H_SL d = i_H_SL c;
    co_Np_sed : i_Np_sed d = i_Np_sed c; co_C0 : i_C0_percent d = i_C0_percent c; co_Csmooth : i_Csmooth d = i_Csmooth c;
    co_omega_sfc : i_omega_sfc d = i_omega_sfc c; co_omega_flow : i_omega_flow d = i_omega_flow c; co_Nsmooth : i_Nsmooth d = i_Nsmooth c;
    co_theta : i_theta_water d = i_theta_water c; co_stepmax : i_stepmax d = i_stepmax c }.

  Lemma process_ok (c : inputs F) : sane c -> exists d, process_input_to_model c = Ok d /\ core c d /\ i_seed d = i_seed c.
  Proof.
    intros [H1 H2 H3 H4 H5 H6 H7 H8 H9 H10 H11 H12 _ _ _ _ _ _ _ _ _]. destruct c.
    cbn -[process_input_to_model] in *. unfold process_input_to_model.
    unfold set_Length. cbn. rewrite H1. cbn. unfold set_Width. cbn. rewrite H2. cbn. unfold set_dx. cbn. rewrite H3. cbn.
    unfold set_L0_meters. cbn. rewrite H4. cbn. unfold set_itermax. cbn. rewrite H5. cbn. unfold set_Np_water. cbn. rewrite H6. cbn.
    unfold set_N0_meters. cbn. rewrite H7. cbn. unfold set_Np_sed. cbn. rewrite H8. cbn. unfold set_f_bedload. cbn. rewrite H9. cbn.
    unfold set_active_layer_thickness. cbn.
    match type of H10 with match ?o with _ => _ end => destruct o end; [rewrite H10|];
      cbn; unfold set_C0_percent; cbn; rewrite H11; cbn; unfold set_Csmooth; cbn; rewrite H12; cbn;
      (eexists; split; [reflexivity|split; [constructor; reflexivity|reflexivity]]).
  Qed.

  Record bound (c : inputs F) (P : params F) : Prop := {
    bd_L : p_L P = n_L c; bd_W : p_W P = n_W c; bd_CTR : p_CTR P = centre (n_W c); bd_L0 : p_L0 P = n_L0 c; bd_N0 : p_N0 P = n_N0 c;
    bd_dx : p_dx P = i_dx c; bd_h0 : p_h0 P = i_h0 c; bd_u0 : p_u0 P = i_u0 c; bd_S0 : p_S0 P = i_S0 c;
    bd_u_max : p_u_max P = fmul (fz 2) (i_u0 c); bd_dry : p_dry_depth P = fmin (flit 1 10) (fmul (flit 1 10) (i_h0 c));
    bd_gamma : p_gamma P = fdiv (fmul (fmul (flit 981 100) (i_S0 c)) (i_dx c)) (fmul (i_u0 c) (i_u0 c));
    bd_qw0 : p_qw0 P = fmul (i_u0 c) (i_h0 c); bd_Qp : p_Qp_water P = fdiv (n_Qw0 c) (fz (i_Np_water c));
    bd_stepmax : p_stepmax P = n_step c; bd_iter : p_omega_flow_iter P = fdiv (fz 2) (fz (i_itermax c));
    bd_theta : p_theta_water P = i_theta_water c; bd_itermax : p_itermax P = i_itermax c; bd_Np : p_Np_water P = i_Np_water c;
    bd_omega_sfc : p_omega_sfc P = i_omega_sfc c; bd_omega_flow : p_omega_flow P = i_omega_flow c; bd_Nsmooth : p_Nsmooth P = i_Nsmooth c;
    bd_Csmooth : p_Csmooth P = i_Csmooth c }.

  Lemma sane_core c d : core c d -> n_L d = n_L c /\ n_W d = n_W c /\ n_L0 d = n_L0 c /\ n_N0 d = n_N0 c /\ n_C0 d = n_C0 c /\ n_V0 d = n_V0 c /\
    n_Qw0 d = n_Qw0 c /\ n_dVs d = n_dVs c /\ n_cross d = n_cross c /\ n_step d = n_step c.
  Proof.
    intros [E1 E2 E3 E4 E5 E6 E7 E8 E9 E10 E11 E12 E13 E14 E15 E16 E17 E18 E19 E20].
    unfold n_cross, n_dVs, n_step, n_V0, n_Qw0, n_N0, n_L0, n_L, n_W, n_C0. rewrite E1, E2, E3, E4, E8, E9, E10, E14, E20. repeat split; reflexivity.
  Qed.

  Lemma boundary_ok (c d : inputs F) : sane c -> core c d -> exists P,
    create_boundary_conditions d (create_other_variables d) = Ok P /\ bound c P.
  Proof.
    intros H C. pose proof (sane_core c d C) as (K1 & K2 & K3 & K4 & K5 & K6 & K7 & K8 & K9 & K10).
    destruct H as [_ _ _ _ _ _ _ _ _ _ _ _ H1 H2 H3 H4 H5 H6 H7 H8 _].
    destruct C as [E1 E2 E3 E4 E5 E6 E7 E8 E9 E10 E11 E12 E13 E14 E15 E16 E17 E18 E19 E20].
    unfold create_boundary_conditions.
    change (p_L (create_other_variables d)) with (n_L d). change (p_W (create_other_variables d)) with (n_W d).
    change (p_Np_water (create_other_variables d)) with (i_Np_water d). change (p_Np_sed (create_other_variables d)) with (i_Np_sed d).
    change (p_itermax (create_other_variables d)) with (i_itermax d).
    cbv zeta.
    change (Z.max 3 (Z.min (frint (fdiv (i_N0_meters d) (i_dx d))) (n_W d / 4))) with (n_N0 d).
    change (Z.max 1 (Z.min (frint (fdiv (i_L0_meters d) (i_dx d))) (n_L d / 4))) with (n_L0 d).
    change (fmul (i_h0 d) (fmul (i_dx d) (i_dx d))) with (n_V0 d).
    change (fdiv (fmul (i_C0_percent d) (fz 1)) (fz 100)) with (n_C0 d).
    change (fmul (fmul (fmul (i_u0 d) (i_h0 d)) (fz (n_N0 d))) (i_dx d)) with (n_Qw0 d).
    change (fmul (fmul (flit 1 10) (fz (n_N0 d * n_N0 d))) (n_V0 d)) with (n_dVs d).
    change (match i_stepmax d with Some x => ftrunc x | None => (2 * (n_L d + n_W d))%Z end) with (n_step d).
    unfold pydiv.
    rewrite E8, H1. cbn [rbind]. rewrite E7, H2. cbn [rbind]. rewrite E13, H3. cbn [rbind]. rewrite K7, K5, H4. cbn [rbind].
    rewrite E6, H5. cbn [rbind]. rewrite K6, H6. cbn [rbind]. rewrite K8. fold (n_cross c). rewrite H7. cbn [rbind]. rewrite E3, H8. cbn [rbind].
    eexists. split; [reflexivity|].
    constructor; cbn; try assumption; try reflexivity.
    all: try (unfold create_other_variables; cbn; fold (n_W d); rewrite K2; reflexivity).
    all: try congruence.
  Qed.

  Record made (c : inputs F) (s : S) (m : model (F:=F) S) : Prop := {
    md_P : bound c (m_P m);
    md_inlet : p_inlet (m_P m) = create_inlet (m_P m) (create_cell_type (m_P m));
    md_type : s_cell_type (m_st m) = create_cell_type (m_P m);
    md_H_SL : s_H_SL (m_st m) = i_H_SL c; md_width : s_width (m_st m) = Z.quot (n_step c) 2; md_rng : s_rng (m_st m) = s;
    md_iter : s_time_iter (m_st m) = 0%Z;
    md_stage : forall i j, s_stage (m_st m) i j = if (cell_type_0 (m_P m) i j =? 0)%Z then fz 0
      else fmul (fmul (fz (Z.max 0 (n_L0 c - i - 1))) (i_dx c)) (i_S0 c);
    md_depth : forall i j, s_depth (m_st m) i j = if (cell_type_0 (m_P m) i j =? 0)%Z then basin_depth c
      else if (cell_type_0 (m_P m) i j =? 1)%Z then i_h0 c else fz 0;
    md_eta : forall i j, s_eta (m_st m) i j = fsub (s_stage (m_st m) i j) (s_depth (m_st m) i j);
    md_qx : forall i j, s_qx (m_st m) i j = if (cell_type_0 (m_P m) i j =? 1)%Z then fmul (i_u0 c) (i_h0 c)
      else if (cell_type_0 (m_P m) i j =? 0)%Z then fdiv (fmul (i_u0 c) (i_h0 c)) (fz 5) else fz 0;
    md_qy : forall i j, s_qy (m_st m) i j = fz 0;
    md_qw : forall i j, s_qw (m_st m) i j = hypot (s_qx (m_st m) i j) (fz 0);
    md_weight : forall i j, s_mod_water_weight (m_st m) i j = fz 1;
    md_ux : forall i j, s_ux (m_st m) i j = if fltb (fz 0) (s_depth (m_st m) i j) then fdiv (s_qx (m_st m) i j) (s_depth (m_st m) i j) else fz 0;
    md_uy : forall i j, s_uy (m_st m) i j = if fltb (fz 0) (s_depth (m_st m) i j) then fdiv (fz 0) (s_depth (m_st m) i j) else fz 0;
    md_uw : forall i j, s_uw (m_st m) i j = if fltb (fz 0) (s_depth (m_st m) i j) then fdiv (s_qw (m_st m) i j) (s_depth (m_st m) i j) else fz 0 }.

  Lemma subsidence_keeps c (P : params F) : let P' := init_subsidence c (init_sediment_routers P) in
    (forall d, bound d P -> bound d P') /\ p_inlet P' = p_inlet P /\ create_cell_type P' = create_cell_type P /\ cell_type_0 P' = cell_type_0 P /\
    (forall ct, create_inlet P' ct = create_inlet P ct).
  Proof.
    cbv zeta. unfold init_subsidence, init_sediment_routers.
    destruct (p_toggle_subsidence _); (split; [intros d []; constructor; assumption|]); repeat split; reflexivity.
  Qed.

  Lemma domain_ok (c d : inputs F) (P : params F) (s : S) : sane c -> core c d -> bound c P -> exists P' st,
    create_domain d P s = Ok (P', st) /\ made c s (mkModel d (init_subsidence d (init_sediment_routers P')) st false).
  Proof.
    intros H C B. destruct H as [_ _ _ _ _ _ _ _ _ _ _ _ _ _ _ _ _ _ _ _ H]. unfold create_domain.
    unfold size_indices. rewrite (bd_stepmax c P B), H. cbv zeta. eexists _, _. split; [reflexivity|].
    match goal with |- made _ _ (mkModel _ (init_subsidence _ (init_sediment_routers ?Q)) _ _) =>
      destruct (subsidence_keeps d Q) as (K1 & K2 & K3 & K4 & K5);
      assert (BQ : bound c Q) by (destruct B; constructor; assumption) end.
    rewrite !gmemo_id in *.
    assert (Eb : basin_depth d = basin_depth c) by (unfold basin_depth; rewrite (co_hb c d C), (co_h0 c d C); reflexivity).
    constructor; cbn [m_P m_st].
    - apply K1, BQ.
    - rewrite K2, K3, K5. reflexivity.
    - rewrite K3. reflexivity.
    - apply (co_H_SL c d C).
    - reflexivity.
    - reflexivity.
    - reflexivity.
    - intros i j. rewrite K4. cbn [s_stage]. rewrite (bd_L0 c P B), (co_dx c d C), (co_S0 c d C). reflexivity.
    - intros i j. rewrite K4. cbn [s_depth]. rewrite Eb, (co_h0 c d C). reflexivity.
    - intros i j. reflexivity.
    - intros i j. rewrite K4. cbn [s_qx]. rewrite (bd_qw0 c P B). reflexivity.
    - intros i j. reflexivity.
    - intros i j. reflexivity.
    - intros i j. reflexivity.
    - intros i j. reflexivity.
    - intros i j. reflexivity.
    - intros i j. reflexivity.
  Qed.

  Lemma construct_ok (c : inputs F) (nb : S) (np : N) : sane c -> exists m,
    construct (G:=G) c nb np = Ok (m, snd (n_seed c np)) /\ made c (fst (n_seed c np)) m.
  Proof.
    intros H. destruct (process_ok c H) as (d & E & C & Es). unfold construct. rewrite E. cbn [rbind].
    unfold determine_random_seed, n_seed. rewrite Es. destruct (i_seed c) as [z|].
    - destruct (boundary_ok c d H C) as (P & E1 & B). rewrite E1. cbn [rbind].
      destruct (domain_ok c d P (seed_rng z) H C B) as (P' & st & E2 & M). rewrite E2. cbn [rbind]. eexists. split; [reflexivity|exact M].
    - destruct (randint np) as [z np'].
      assert (C' : core c (seti_seed (Some z) d)) by (destruct C; constructor; assumption).
      destruct (boundary_ok c _ H C') as (P & E1 & B). rewrite E1. cbn [rbind].
      destruct (domain_ok c _ P (seed_rng z) H C' B) as (P' & st & E2 & M). rewrite E2. cbn [rbind]. eexists. split; [reflexivity|exact M].
  Qed.
End Made.

(** ** The same numbers in binary64 *)
Lemma rel_mod c x r : (c <= 99)%Z -> rel c x r -> moderate x r.
Proof.
  intros Hc [H1 H2]. split; [exact H1|]. eapply Rle_trans; [exact H2|]. apply Rle_trans with (bpow radix2 99); [apply bpow_le; exact Hc|].
  change (bpow radix2 99) with (IZR (2 ^ 99)). change 10%R with (IZR 10). rewrite pow_IZR. apply IZR_le. vm_compute. discriminate.
Qed.
Lemma relp_mod lo hi x r : (hi <= 99)%Z -> relp lo hi x r -> moderate x r.
Proof. intros Hh H. apply (rel_mod hi); [exact Hh|]. apply (relp_rel lo hi); [lia|exact H]. Qed.
Lemma stands_nz x r : stands_for x r -> r <> 0 -> feqb (Arith:=F64) x (fz (Arith:=F64) 0) = false /\ feqb (Arith:=XR) r (fz (Arith:=XR) 0) = false.
Proof.
  intros H Hr. pose proof (proj1 (rel_z0 0 ltac:(lia))) as Hz. rewrite (proj2 (proj2 (compare_ok x _ r 0 H Hz))).
  rewrite rz by lia. cbn [feqb RA]. unfold Reqb. destruct (Req_EM_T r 0); [contradiction|split; reflexivity].
Qed.
Lemma relp_nz lo hi x r : relp lo hi x r -> feqb (Arith:=F64) x (fz (Arith:=F64) 0) = false /\ feqb (Arith:=XR) r (fz (Arith:=XR) 0) = false.
Proof. intros H. pose proof (relp_pos _ _ _ _ H). apply stands_nz; [apply H|lra]. Qed.
Lemma stands_ge x r n : (Z.abs n <= 2 ^ 20)%Z -> stands_for x r -> IZR n <= r ->
  fltb (Arith:=F64) x (fz (Arith:=F64) n) = false /\ fltb (Arith:=XR) r (fz (Arith:=XR) n) = false.
Proof.
  intros Hn H Hr. destruct (rel_z n Hn) as [Hz _]. rewrite (stands_int n) in * by (change (2 ^ 52)%Z with 4503599627370496%Z; change (2 ^ 20)%Z with 1048576%Z in *; lia).
  rewrite (proj1 (compare_ok x _ r _ H Hz)). cbn [fltb RA]. unfold Rltb. destruct (Rlt_dec r (IZR n)); [lra|split; reflexivity].
Qed.
Lemma stands_le1 x r : stands_for x r -> r <= 1 -> fltb (Arith:=F64) (fz (Arith:=F64) 1) x = false /\ fltb (Arith:=XR) (fz (Arith:=XR) 1) r = false.
Proof.
  intros H Hr. destruct rel_z1 as [Hz _]. rewrite (proj1 (compare_ok _ x _ r Hz H)). rewrite rz by lia. cbn [fltb RA]. unfold Rltb. destruct (Rlt_dec 1 r); [lra|split; reflexivity].
Qed.
Lemma stands_gt x r : stands_for x r -> 0 < r -> fleb (Arith:=F64) x (fz (Arith:=F64) 0) = false /\ fleb (Arith:=XR) r (fz (Arith:=XR) 0) = false.
Proof.
  intros H Hr. pose proof (proj1 (rel_z0 0 ltac:(lia))) as Hz. rewrite (proj1 (proj2 (compare_ok x _ r 0 H Hz))).
  rewrite rz by lia. cbn [fleb RA]. unfold Rleb. destruct (Rle_dec r 0); [lra|split; reflexivity].
Qed.
Lemma stands_lt x y r s : stands_for x r -> stands_for y s -> s <= r -> fltb (Arith:=F64) x y = false /\ fltb (Arith:=XR) r s = false.
Proof.
  intros H K Hr. rewrite (proj1 (compare_ok x y r s H K)). cbn [fltb RA]. unfold Rltb. destruct (Rlt_dec r s); [lra|split; reflexivity].
Qed.
Lemma near_rel y : bpow radix2 (-1000) <= y -> 9 / 10 * y <= rn64 y <= 11 / 10 * y.
Proof.
  intros H. pose proof (bpow_gt_0 radix2 (-1000)). 
  assert (E : Rabs (rn64 y - y) <= / 2 * bpow radix2 (- 53 + 1) * Rabs y).
  { apply (relative_error_N_FLT radix2 (-1074) 53 ltac:(lia)). rewrite Rabs_pos_eq by lra. eapply Rle_trans; [|exact H]. apply bpow_le. lia. }
  rewrite (Rabs_pos_eq y) in E by lra. assert (B : bpow radix2 (-53 + 1) <= / 16) by (change (/ 16) with (bpow radix2 (-4)); apply bpow_le; lia).
  apply Rabs_le_inv in E. assert (/ 2 * bpow radix2 (-53 + 1) * y <= / 32 * y) by (apply Rmult_le_compat_r; lra). lra.
Qed.
Lemma repr_16 u : repr u -> repr (16 * u).
Proof. intros H. replace (16 * u) with (2 * (8 * u)) by ring. apply repr_double, repr_8, H. Qed.

Lemma p3 : 10 ^ 3 = 1000. Proof. ring. Qed.
Lemma p5 : 10 ^ 5 = 100000. Proof. ring. Qed.
Lemma p6 : 10 ^ 6 = 1000000. Proof. ring. Qed.
Lemma bn10 : bpow radix2 (-10) = / 1024. Proof. reflexivity. Qed.
Lemma bn20 : bpow radix2 (-20) = / 1048576. Proof. reflexivity. Qed.

Section New.
  Context (cF : inputs sfloat) (cR : inputs R) (HS : same_inputs cF cR) (HO : ordinary cR).

  Lemma dx_p : relp (-10) 17 (i_dx cF) (i_dx cR).
  Proof. pose proof (or_dx _ HO) as H. rewrite p3, p5 in H. apply relp_of; [apply (si_dx _ _ HS)|]. rewrite bn10. change (bpow radix2 17) with 131072. lra. Qed.
  Lemma u0_p : relp (-10) 10 (i_u0 cF) (i_u0 cR).
  Proof. pose proof (or_u0 _ HO) as H. rewrite p3 in H. apply relp_of; [apply (si_u0 _ _ HS)|]. rewrite bn10. change (bpow radix2 10) with 1024. lra. Qed.
  Lemma h0_p : relp (-10) 10 (i_h0 cF) (i_h0 cR).
  Proof. pose proof (or_h0 _ HO) as H. rewrite p3 in H. apply relp_of; [apply (si_h0 _ _ HS)|]. rewrite bn10. change (bpow radix2 10) with 1024. lra. Qed.
  Lemma basin_p : relp (-10) 10 (basin_depth (A:=F64) cF) (basin_depth (A:=XR) cR).
  Proof.
    unfold basin_depth. pose proof (si_hb _ _ HS) as H. pose proof (or_hb _ HO) as K. destruct (i_hb cF) as [x|], (i_hb cR) as [r|]; try contradiction.
    - cbn in H. specialize (K r eq_refl). rewrite p3 in K. destruct K as [->|K].
      + rewrite (proj2 (proj2 (compare_ok x _ 0 0 H (proj1 (rel_z0 0 ltac:(lia)))))). rewrite (rz 0) by lia. cbn [feqb RA]. unfold Reqb.
        destruct (Req_EM_T 0 0); [exact h0_p|lra].
      + destruct (stands_nz x r H ltac:(lra)) as [-> ->]. apply relp_of; [exact H|]. rewrite bn10. change (bpow radix2 10) with 1024. lra.
    - exact h0_p.
  Qed.
  Lemma ratio x r n m : stands_for x r -> IZR n * i_dx cR <= r <= IZR m * i_dx cR -> (Z.abs n <= 2 ^ 20)%Z -> (Z.abs m <= 2 ^ 20)%Z ->
    frint (Arith:=F64) (fdiv (Arith:=F64) x (i_dx cF)) = frint (Arith:=XR) (fdiv (Arith:=XR) r (i_dx cR)) /\
    (n <= frint (Arith:=XR) (fdiv (Arith:=XR) r (i_dx cR)) <= m)%Z.
  Proof. intros H B Hn Hm. apply cells_count; try assumption; [apply (si_dx _ _ HS)|apply (relp_pos _ _ _ _ dx_p)]. Qed.
  Lemma L_eq : n_L (A:=F64) cF = n_L (A:=XR) cR /\ (8 <= n_L (A:=XR) cR <= 10000)%Z.
  Proof. apply ratio; [apply (si_Length _ _ HS)|apply (or_Length _ HO)|cbn; lia|cbn; lia]. Qed.
  Lemma W_eq : n_W (A:=F64) cF = n_W (A:=XR) cR /\ (5 <= n_W (A:=XR) cR <= 10000)%Z.
  Proof. apply ratio; [apply (si_Width _ _ HS)|apply (or_Width _ HO)|cbn; lia|cbn; lia]. Qed.
  Lemma L0_eq : n_L0 (A:=F64) cF = n_L0 (A:=XR) cR /\ (2 <= n_L0 (A:=XR) cR <= n_L (A:=XR) cR / 4)%Z.
  Proof.
    destruct L_eq as [E B]. unfold n_L0. rewrite E.
    destruct (ratio _ _ 2 10000 (si_L0 _ _ HS) (or_L0 _ HO) ltac:(cbn; lia) ltac:(cbn; lia)) as [-> K].
    split; [reflexivity|]. pose proof (Z.div_le_lower_bound (n_L (A:=XR) cR) 4 2 ltac:(lia) ltac:(lia)). lia.
  Qed.
  Lemma N0_eq : n_N0 (A:=F64) cF = n_N0 (A:=XR) cR /\ (3 <= n_N0 (A:=XR) cR <= 900)%Z /\ (n_N0 (A:=XR) cR <= Z.max 3 (n_W (A:=XR) cR / 4))%Z.
  Proof.
    destruct W_eq as [E B]. unfold n_N0. rewrite E.
    assert (K0 : IZR 1 * i_dx cR <= i_N0_meters cR <= IZR 900 * i_dx cR) by (pose proof (or_N0 _ HO); lra).
    destruct (ratio _ _ 1 900 (si_N0 _ _ HS) K0 ltac:(cbn; lia) ltac:(cbn; lia)) as [-> K]. split; [reflexivity|]. lia.
  Qed.

  Lemma area_p : relp (-20) 34 (fmul (Arith:=F64) (i_dx cF) (i_dx cF)) (fmul (Arith:=XR) (i_dx cR) (i_dx cR)).
  Proof. apply (relp_mul (-10) 17 (-10) 17); try lia; apply dx_p. Qed.
  Lemma u2_p : relp (-20) 20 (fmul (Arith:=F64) (i_u0 cF) (i_u0 cF)) (fmul (Arith:=XR) (i_u0 cR) (i_u0 cR)).
  Proof. apply (relp_mul (-10) 10 (-10) 10); try lia; apply u0_p. Qed.
  Lemma qw0_p : relp (-20) 20 (fmul (Arith:=F64) (i_u0 cF) (i_h0 cF)) (fmul (Arith:=XR) (i_u0 cR) (i_h0 cR)).
  Proof. apply (relp_mul (-10) 10 (-10) 10); try lia; [apply u0_p|apply h0_p]. Qed.
  Lemma V0_p : relp (-30) 44 (n_V0 (A:=F64) cF) (n_V0 (A:=XR) cR).
  Proof. apply (relp_mul (-10) 10 (-20) 34); try lia; [apply h0_p|apply area_p]. Qed.
  Lemma C0_p : relp (-27) 1 (n_C0 (A:=F64) cF) (n_C0 (A:=XR) cR).
  Proof.
    pose proof (or_C0 _ HO) as H. rewrite p6 in H.
    assert (relp (-20) 7 (i_C0_percent cF) (i_C0_percent cR)).
    { apply relp_of; [apply (si_C0 _ _ HS)|]. rewrite bn20. change (bpow radix2 7) with 128. lra. }
    unfold n_C0. apply (relp_div (-20) 7 6 7); try lia; [|apply relp_z; cbn; lia]. apply (relp_mul (-20) 7 0 0); try lia; [assumption|apply relp_z; cbn; lia].
  Qed.
  Lemma N0_p : relp 1 10 (fz (Arith:=F64) (n_N0 (A:=F64) cF)) (fz (Arith:=XR) (n_N0 (A:=XR) cR)).
  Proof. destruct N0_eq as (-> & H & _). apply relp_z; try lia; cbn; lia. Qed.
  Lemma Qw0_p : relp (-29) 47 (n_Qw0 (A:=F64) cF) (n_Qw0 (A:=XR) cR).
  Proof. apply (relp_mul (-19) 30 (-10) 17); try lia; [|apply dx_p]. apply (relp_mul (-20) 20 1 10); try lia; [apply qw0_p|apply N0_p]. Qed.
  Lemma Np_p : relp 0 20 (fz (Arith:=F64) (i_Np_water cF)) (fz (Arith:=XR) (i_Np_water cR)).
  Proof. rewrite (si_Np _ _ HS). pose proof (or_Np _ HO). apply relp_z; try lia; cbn; lia. Qed.
  Lemma Np_sed_p : relp 0 20 (fz (Arith:=F64) (i_Np_sed cF)) (fz (Arith:=XR) (i_Np_sed cR)).
  Proof. rewrite (si_Np_sed _ _ HS). pose proof (or_Np_sed _ HO). apply relp_z; try lia; cbn; lia. Qed.
  Lemma itermax_p : relp 1 3 (fz (Arith:=F64) (i_itermax cF)) (fz (Arith:=XR) (i_itermax cR)).
  Proof. rewrite (si_itermax _ _ HS). pose proof (or_itermax _ HO). apply relp_z; try lia; cbn; lia. Qed.
  Lemma dVs_p : relp (-31) 61 (n_dVs (A:=F64) cF) (n_dVs (A:=XR) cR).
  Proof.
    unfold n_dVs. destruct N0_eq as (-> & H & _). apply (relp_mul (-1) 17 (-30) 44); try lia; [|apply V0_p].
    apply (relp_mul (-4) (-3) 3 20); try lia; [apply lit_tenth_p|]. apply relp_z; try lia. change (2 ^ 3)%Z with 8%Z. change (2 ^ 20)%Z with 1048576%Z. nia.
  Qed.
  Lemma Qs0_p : relp (-56) 48 (fmul (Arith:=F64) (n_Qw0 (A:=F64) cF) (n_C0 (A:=F64) cF)) (fmul (Arith:=XR) (n_Qw0 (A:=XR) cR) (n_C0 (A:=XR) cR)).
  Proof. apply (relp_mul (-29) 47 (-27) 1); try lia; [apply Qw0_p|apply C0_p]. Qed.

  Lemma tenth_lo : 9 / 100 <= flit (A:=XR) 1 10.
  Proof. unfold flit. rewrite !rz by lia. cbn [fdiv RA]. destruct (near_rel (1 / 10)); [|lra]. apply Rle_trans with (bpow radix2 (-4)); [apply bpow_le; lia|]. change (bpow radix2 (-4)) with (/ 16). lra. Qed.
  Lemma small_1000 lo x r hi : (-1000 <= lo)%Z -> relp lo hi x r -> bpow radix2 (-1000) <= r.
  Proof. intros Hl [_ H]. eapply Rle_trans; [apply bpow_le; exact Hl|apply H]. Qed.

  Lemma cross_eq : n_cross (A:=F64) cF = n_cross (A:=XR) cR /\ (1 <= n_cross (A:=XR) cR <= 2 ^ 20)%Z.
  Proof.
    pose proof dVs_p as D. pose proof V0_p as V.
    pose proof (relp_div (-31) 61 (-30) 44 _ _ _ _ ltac:(lia) ltac:(lia) ltac:(lia) D V) as Q.
    unfold n_cross. split; [cbn [frint RA]; apply rint_ok, Q|].
    set (v := n_V0 (A:=XR) cR) in *. pose proof (relp_pos _ _ _ _ V) as Pv.
    destruct N0_eq as (_ & H & _). set (n := n_N0 (A:=XR) cR) in *.
    assert (En : fz (Arith:=XR) (n * n) = IZR (n * n)) by (apply rz; nia).
    assert (Bn : 9 <= IZR (n * n) <= 810000) by (split; [apply (IZR_le 9)|apply (IZR_le _ 810000)]; nia).
    pose proof tenth_lo as T. destruct lit_tenth_p as [_ [_ T']]. change (bpow radix2 (-3)) with (/ 8) in T'.
    set (t := flit (A:=XR) 1 10) in *.
    assert (A1 : 72 / 100 <= fmul (Arith:=XR) t (fz (Arith:=XR) (n * n)) <= 120000).
    { rewrite En. cbn [fmul RA]. destruct (near_rel (t * IZR (n * n))) as [L1 L2].
      - apply Rle_trans with (bpow radix2 (-4)); [apply bpow_le; lia|]. change (bpow radix2 (-4)) with (/ 16). nra.
      - split; [|eapply Rle_trans; [exact L2|]]; nra. }
    set (a := fmul (Arith:=XR) t (fz (Arith:=XR) (n * n))) in *.
    assert (Ed : n_dVs (A:=XR) cR = rn64 (a * v)) by reflexivity.
    assert (A2 : 64 / 100 * v <= n_dVs (A:=XR) cR <= 132000 * v).
    { rewrite Ed. destruct (near_rel (a * v)) as [L1 L2].
      - apply Rle_trans with (bpow radix2 (-1 + -30)); [apply bpow_le; lia|]. rewrite bpow_plus. destruct V as [_ [V1 _]]. pose proof (bpow_gt_0 radix2 (-30)).
        change (bpow radix2 (-1)) with (/ 2). apply Rmult_le_compat; lra.
      - split; nra. }
    set (d := n_dVs (A:=XR) cR) in *. cbn [frint fdiv RA].
    assert (A3 : 64 / 100 <= d / v <= 132000).
    { assert (Ev : d / v * v = d) by (field; lra). split; apply (Rmult_le_reg_r v); try exact Pv; rewrite Ev; apply A2. }
    destruct (near_rel (d / v)) as [L1 L2].
    { apply Rle_trans with (bpow radix2 (-1)); [apply bpow_le; lia|]. change (bpow radix2 (-1)) with (/ 2). lra. }
    set (y := rn64 (d / v)) in *. assert (57 / 100 <= y <= 150000) by lra.
    split; [|eapply Z.le_trans; [apply (near_le 150000); lra|cbn; lia]].
    destruct (Rle_dec 1 y); [apply near_ge; assumption|].
    rewrite (Znearest_imp _ y 1); [lia|]. rewrite Rabs_left1 by lra. lra.
  Qed.
  Lemma cross_p : relp 0 20 (fz (Arith:=F64) (n_cross (A:=F64) cF)) (fz (Arith:=XR) (n_cross (A:=XR) cR)).
  Proof. destruct cross_eq as (-> & H). apply relp_z; try lia. Qed.

  Lemma step_eq : n_step (A:=F64) cF = n_step (A:=XR) cR /\ (4 <= n_step (A:=XR) cR <= 1000000)%Z.
  Proof.
    unfold n_step. destruct L_eq as [-> L], W_eq as [-> W].
    pose proof (si_stepmax _ _ HS) as H. pose proof (or_stepmax _ HO) as K. destruct (i_stepmax cF) as [x|], (i_stepmax cR) as [r|]; try contradiction; [|lia].
    specialize (K r eq_refl). rewrite p6 in K. cbn [ftrunc RA]. split; [apply trunc_ok; exact H|]. 
    rewrite Ztrunc_floor by lra. split; [apply Zfloor_lub; apply K|]. apply le_IZR. eapply Rle_trans; [apply Zfloor_lb|apply K].
  Qed.

  Lemma both_sane : sane (A:=F64) cF /\ sane (A:=XR) cR.
  Proof.
    pose proof (relp_pos _ _ _ _ dx_p) as Pd.
    pose proof (or_Length _ HO) as OL. pose proof (or_Width _ HO) as OW. pose proof (or_L0 _ HO) as OL0. pose proof (or_N0 _ HO) as ON.
    destruct (stands_gt _ _ (si_Length _ _ HS) ltac:(lra)) as [A1 B1]. destruct (stands_gt _ _ (si_Width _ _ HS) ltac:(lra)) as [A2 B2].
    destruct (stands_gt _ _ (si_dx _ _ HS) ltac:(lra)) as [A3 B3]. destruct (stands_lt _ _ _ _ (si_Length _ _ HS) (si_dx _ _ HS) ltac:(lra)) as [A4 B4].
    destruct (stands_lt _ _ _ _ (si_Width _ _ HS) (si_dx _ _ HS) ltac:(lra)) as [A5 B5].
    destruct (stands_ge _ _ 0 ltac:(cbn; lia) (si_L0 _ _ HS) ltac:(lra)) as [A6 B6]. destruct (stands_gt _ _ (si_N0 _ _ HS) ltac:(lra)) as [A7 B7].
    destruct (stands_ge _ _ 0 ltac:(cbn; lia) (si_f _ _ HS) ltac:(apply (or_f _ HO))) as [A8 B8].
    destruct (stands_le1 _ _ (si_f _ _ HS) ltac:(apply (or_f _ HO))) as [A9 B9].
    pose proof (or_C0 _ HO) as OC. rewrite p6 in OC.
    destruct (stands_ge _ _ 0 ltac:(cbn; lia) (si_C0 _ _ HS) ltac:(lra)) as [A10 B10].
    destruct (stands_ge _ _ 0 ltac:(cbn; lia) (si_Csmooth _ _ HS) ltac:(apply (or_Csmooth _ HO))) as [A11 B11].
    destruct (relp_nz _ _ _ _ u2_p) as [A12 B12]. destruct (relp_nz _ _ _ _ Np_p) as [A13 B13]. destruct (relp_nz _ _ _ _ Np_sed_p) as [A14 B14].
    destruct (relp_nz _ _ _ _ Qs0_p) as [A15 B15]. destruct (relp_nz _ _ _ _ itermax_p) as [A16 B16]. destruct (relp_nz _ _ _ _ V0_p) as [A17 B17].
    destruct (relp_nz _ _ _ _ cross_p) as [A18 B18]. destruct (relp_nz _ _ _ _ area_p) as [A19 B19].
    destruct step_eq as [Es Hs]. pose proof (Z.quot_pos (n_step (A:=XR) cR) 2 ltac:(lia) ltac:(lia)) as Hq.
    pose proof (or_itermax _ HO). pose proof (or_Np _ HO). pose proof (or_Np_sed _ HO).
    pose proof (si_active _ _ HS) as Sa. pose proof (or_active _ HO) as Oa.
    assert (Ac : match i_active_layer_thickness cF with Some t => fltb (Arith:=F64) t (fz (Arith:=F64) 0) = false | None => True end /\
                 match i_active_layer_thickness cR with Some t => fltb (Arith:=XR) t (fz (Arith:=XR) 0) = false | None => True end).
    { destruct (i_active_layer_thickness cF), (i_active_layer_thickness cR); try contradiction; [|split; exact I].
      apply stands_ge; [cbn; lia|exact Sa|]. apply Oa. reflexivity. }
    destruct Ac as [Ac1 Ac2].
    split; constructor; try assumption;
      rewrite ?(si_itermax _ _ HS), ?(si_Np _ _ HS), ?(si_Np_sed _ _ HS), ?Es; try (apply Z.ltb_ge; lia); try (apply Z.leb_gt; lia).
    - rewrite A3, A4, A5. reflexivity.
    - rewrite A8, A9. reflexivity.
    - rewrite B3, B4, B5. reflexivity.
    - rewrite B8, B9. reflexivity.
  Qed.
End New.

Lemma min_p a b c d x y r s : (a <= c)%Z -> (b <= d)%Z -> relp c b x r -> relp a d y s -> relp a b (fmin (A:=F64) x y) (fmin (A:=XR) r s).
Proof.
  intros H1 H2 X Y. unfold fmin. rewrite (rel_lt (relp_rel a d d y s ltac:(lia) Y) (relp_rel c b b x r ltac:(lia) X)).
  cbn [fltb RA]. unfold Rltb. destruct X as [X1 X2], Y as [Y1 Y2]. destruct (Rlt_dec s r).
  - split; [exact Y1|]. split; [apply Y2|lra].
  - split; [exact X1|]. split; [|apply X2]. eapply Rle_trans; [apply bpow_le; exact H1|apply X2].
Qed.
Lemma finite_or x r : stands_for x r -> forall y, y = S754_infinity false -> fleb (Arith:=F64) x y = true.
Proof. intros [_ H] y ->. destruct x as [b|b| |b m e]; try contradiction; destruct b; reflexivity. Qed.

(** The cells of the domain have the same types, even far outside the grid. *)
Lemma radius_eq (PF : params sfloat) (PR : params R) i j : p_L PF = p_L PR -> p_W PF = p_W PR -> p_CTR PF = p_CTR PR ->
  (Z.abs (p_L PR) <= 10000)%Z -> (Z.abs (p_W PR) <= 10000)%Z ->
  outside_radius (A:=F64) PF i j = outside_radius (A:=XR) PR i j.
Proof.
  intros E1 E2 E3 B1 B2. unfold outside_radius. rewrite E1, E2, E3.
  set (n := ((i - 3) * (i - 3) + (j - p_CTR PR) * (j - p_CTR PR))%Z). assert (Hn : (0 <= n)%Z) by (unfold n; pose proof (Z.square_nonneg (i - 3)); pose proof (Z.square_nonneg (j - p_CTR PR)); lia).
  pose proof (rel_z (p_L PR - 5) ltac:(change (2 ^ 20)%Z with 1048576%Z; lia)) as X.
  pose proof (rel_z (p_W PR) ltac:(change (2 ^ 20)%Z with 1048576%Z; lia)) as W.
  assert (Y : rel 20 (fdiv (Arith:=F64) (fz (Arith:=F64) (p_W PR)) (fz (Arith:=F64) 2)) (fdiv (Arith:=XR) (fz (Arith:=XR) (p_W PR)) (fz (Arith:=XR) 2))).
  { apply (rel_div1 20 20); [lia|exact W|apply rel_z; cbn; lia|]. rewrite rz by lia. lra. }
  pose proof (rel_sub (a:=20) (b:=20) ltac:(lia) ltac:(lia) Y (rel_z 5 ltac:(cbn; lia))) as Z. cbn [Z.max Z.compare Pos.compare Pos.compare_cont] in Z.
  set (yF := fsub (Arith:=F64) (fdiv (Arith:=F64) (fz (Arith:=F64) (p_W PR)) (fz (Arith:=F64) 2)) (fz (Arith:=F64) 5)) in *.
  set (yR := fsub (Arith:=XR) (fdiv (Arith:=XR) (fz (Arith:=XR) (p_W PR)) (fz (Arith:=XR) 2)) (fz (Arith:=XR) 5)) in *.
  assert (M : rel 21 (fmin (A:=F64) (fz (Arith:=F64) (p_L PR - 5)) yF) (fmin (A:=XR) (fz (Arith:=XR) (p_L PR - 5)) yR)).
  { unfold fmin. rewrite (rel_lt Z X). destruct (fltb (Arith:=XR) yR (fz (Arith:=XR) (p_L PR - 5))); [apply (rel_mono (20 + 1)); [lia|exact Z]|apply (rel_mono 20); [lia|exact X]]. }
  set (mF := fmin (A:=F64) _ yF) in *. set (mR := fmin (A:=XR) _ yR) in *. clearbody mF mR. clear X W Y Z yF yR.
  assert (Hz : 0 <= IZR n) by (apply (IZR_le 0); exact Hn).
  assert (Hr : 0 <= rn64 (IZR n)) by (rewrite <- rnd_0; apply rnd_mono; exact Hz).
  assert (D : fits (IZR n) \/ ~ fits (IZR n)) by (unfold fits; destruct (Rlt_dec (Rabs (rn64 (IZR n))) (powerRZ 2 1024)); auto).
  destruct D as [D|D].
  - pose proof (proj1 (of_Z_ok n) D) as Q. pose proof (sqrt_ok _ _ Q Hr) as Q'.
    rewrite (proj1 (proj2 (compare_ok _ _ _ _ (proj1 M) Q'))). reflexivity.
  - pose proof (proj2 (of_Z_ok n) D) as Q. unfold infinite in Q. destruct (Rlt_dec (IZR n) 0); [lra|].
    rewrite Q. rewrite (finite_or mF mR (proj1 M)) by reflexivity. cbn [fleb fsqrt fz RA]. unfold Rleb.
    destruct (Rle_dec mR (rn64 (sqrt (rn64 (IZR n))))) as [K|K]; [reflexivity|]. exfalso. apply K.
    destruct M as [_ M]. apply Rle_trans with (bpow radix2 21); [eapply Rle_trans; [apply RRle_abs|exact M]|].
    rewrite <- (bp_repr 21) by lia. apply rnd_mono. rewrite <- (sqrt_square (bpow radix2 21)) by apply bpow_ge_0. apply sqrt_le_1_alt.
    rewrite <- bpow_plus. apply Rle_trans with (bpow radix2 1024); [apply bpow_le; lia|]. rewrite bpow2. unfold fits in D. rewrite Rabs_pos_eq in D by exact Hr. lra.
Qed.

Lemma channel_eq (PF : params sfloat) (PR : params R) j : p_W PF = p_W PR -> p_CTR PF = p_CTR PR -> p_N0 PF = p_N0 PR -> channel_col PF j = channel_col PR j.
Proof. intros E1 E2 E3. unfold channel_col, channel_inds. rewrite E1, E2, E3. reflexivity. Qed.

(** Inlet and domain of the model in rounded reals. *)
Lemma zseq_size n : forall k, length (zseq k n) = n.
Proof. induction n as [|n IH]; intros k; cbn [zseq length]; [reflexivity|]. rewrite IH. reflexivity. Qed.
Lemma columns_of (P : params R) : (5 <= p_W P)%Z -> (1 <= p_L P)%Z -> (1 <= p_L0 P)%Z ->
  p_CTR P = centre (p_W P) -> (3 <= p_N0 P <= Z.max 3 (p_W P / 4))%Z ->
  create_inlet P (create_cell_type (A:=XR) P) = zseq (channel_inds P) (Z.to_nat (p_N0 P)).
Proof.
  intros HW HL HL0 HC HN. destruct (channel_columns P HW HC HN) as [Hb Hc].
  unfold create_inlet. apply filter_range; try lia. intros j Hj. rewrite existsb_exists. split.
  - intros (i & Hi & E). apply zrange_In in Hi. apply Z.eqb_eq in E. unfold create_cell_type, cell_type_0 in E.
    destruct (Z.ltb_spec i (p_L0 P)).
    + rewrite Hc in E. destruct ((channel_inds P <=? j) && _)%Z%bool eqn:E1; [|discriminate].
      apply andb_prop in E1 as [E1 E2]. apply Z.leb_le in E1. apply Z.ltb_lt in E2. lia.
    + destruct (outside_radius P i j); [discriminate|]. destruct (_ || _)%bool; discriminate.
  - intros Hin. exists 0%Z. split; [apply zrange_In; lia|]. unfold create_cell_type.
    destruct (Z.ltb_spec 0 (p_L0 P)); [|lia]. rewrite Hc.
    destruct (Z.leb_spec (channel_inds P) j); [|lia]. destruct (Z.ltb_spec j (channel_inds P + p_N0 P)); [|lia].
    reflexivity.
Qed.
Lemma walk_of (P : params R) : (5 <= p_W P)%Z -> (1 <= p_L0 P <= p_L P - 2)%Z ->
  p_CTR P = centre (p_W P) -> (3 <= p_N0 P <= Z.max 3 (p_W P / 4))%Z ->
  walk_domain (p_L P) (p_W P) (p_L0 P) (create_cell_type (A:=XR) P) (create_inlet P (create_cell_type (A:=XR) P)).
Proof.
  intros HW HL0 HC HN. rewrite columns_of by (assumption || lia).
  destruct (channel_columns P HW HC HN) as [Hb Hc].
  constructor; [exact HL0|lia| | | | |].
  - intros i j [Hi Hj]. unfold create_cell_type, cell_type_0. destruct (Z.ltb_spec i (p_L0 P)).
    + rewrite Hc. destruct (Z.leb_spec (channel_inds P) j), (Z.ltb_spec j (channel_inds P + p_N0 P)); cbn [andb]; intros K1 K2; try (exfalso; apply K1; reflexivity); lia.
    + destruct (outside_radius P i j); [intros _ K; exfalso; apply K; reflexivity|].
      destruct (Z.eqb_spec i (p_L P - 1)), (Z.eqb_spec j 0), (Z.eqb_spec j (p_W P - 1)); cbn [orb]; intros _ K; try (exfalso; apply K; reflexivity); lia.
  - intros j Hj. unfold create_cell_type. destruct (Z.ltb_spec (p_L P - 1) (p_L0 P)); [lia|]. destruct (outside_radius P (p_L P - 1) j); [reflexivity|].
    rewrite Z.eqb_refl. reflexivity.
  - intros i j _. unfold create_cell_type, cell_type_0. destruct (Z.ltb_spec i (p_L0 P)); [auto|].
    destruct (outside_radius P i j); [discriminate|]. destruct (_ || _)%bool; discriminate.
  - intros c Hin. apply zseq_In in Hin. rewrite Z2Nat.id in Hin by lia. split; [lia|]. unfold create_cell_type. destruct (Z.ltb_spec 0 (p_L0 P)); [|lia]. rewrite Hc.
    destruct (Z.leb_spec (channel_inds P) c); [|lia]. destruct (Z.ltb_spec c (channel_inds P + p_N0 P)); [|lia]. split; discriminate.
  - intros K. apply (f_equal (@length Z)) in K. rewrite zseq_size in K. cbn in K. lia.
Qed.

(** Length of a vector along an axis. *)
Lemma hypot_axis a r : (-500 <= a <= 400)%Z -> bpow radix2 a <= r -> bpow radix2 a <= hypot (A:=XR) r (fz (Arith:=XR) 0).
Proof.
  intros Ha H. unfold hypot. rewrite rz by lia. cbn [fsqrt fadd fmul RA]. rewrite Rmult_0_l, rnd_0, Rplus_0_r.
  pose proof (bpow_gt_0 radix2 a). rewrite <- (bp_repr a) at 1 by lia. apply rnd_mono.
  rewrite <- (sqrt_square (bpow radix2 a)) by apply bpow_ge_0. apply sqrt_le_1_alt. rewrite <- bpow_plus, rn_repr.
  rewrite <- (bp_repr (a + a)) by lia. apply rnd_mono. rewrite bpow_plus. apply Rmult_le_compat; lra.
Qed.

Section Alike.
  Context {S : Type} (cF : inputs sfloat) (cR : inputs R) (HS : same_inputs cF cR) (HO : ordinary cR).
  Context (mF : model (F:=sfloat) S) (mR : model (F:=R) S) (s : S).
  Context (MF : made (A:=F64) cF s mF) (MR : made (A:=XR) cR s mR).

  Lemma gamma_ok : let g := fdiv (Arith:=XR) (fmul (Arith:=XR) (fmul (Arith:=XR) (flit (A:=XR) 981 100) (i_S0 cR)) (i_dx cR)) (fmul (Arith:=XR) (i_u0 cR) (i_u0 cR)) in
    stands_for (fdiv (Arith:=F64) (fmul (Arith:=F64) (fmul (Arith:=F64) (flit (A:=F64) 981 100) (i_S0 cF)) (i_dx cF)) (fmul (Arith:=F64) (i_u0 cF) (i_u0 cF))) g /\ 0 <= g <= 1.
  Proof.
    intros g. destruct (or_slope _ HO) as [Sr Sb].
    assert (Lp : relp 2 4 (flit (A:=F64) 981 100) (flit (A:=XR) 981 100)).
    { unfold flit. apply (relp_div 9 10 6 7); try lia; apply relp_z; cbn; lia. }
    assert (Ls : rel 10 (i_S0 cF) (i_S0 cR)).
    { split; [apply (si_S0 _ _ HS)|]. rewrite Rabs_pos_eq by lra. change (bpow radix2 10) with 1024. lra. }
    pose proof (dx_p cF cR HS HO) as D. pose proof (u2_p cF cR HS HO) as U.
    pose proof (rel_mul (a:=4) (b:=10) ltac:(lia) ltac:(lia) (relp_rel 2 4 4 _ _ ltac:(lia) Lp) Ls ltac:(lia)) as X1.
    pose proof (rel_mul (a:=4 + 10) (b:=17) ltac:(lia) ltac:(lia) X1 (relp_rel (-10) 17 17 _ _ ltac:(lia) D) ltac:(lia)) as X2.
    destruct (pydiv_r (4 + 10 + 17) (-20) 20 51 _ _ _ _ ltac:(lia) ltac:(lia) X2 U) as (_ & _ & X3).
    split; [apply X3|]. unfold g. clear X3 g.
    set (t := fmul (Arith:=XR) (flit (A:=XR) 981 100) (i_S0 cR)) in *.
    pose proof (relp_pos _ _ _ _ D) as Pd. pose proof (relp_pos _ _ _ _ U) as Pu. pose proof (relp_pos _ _ _ _ Lp) as Pl.
    assert (T0 : 0 <= t) by (apply mul_pos; lra).
    assert (T1 : t <= 16 * i_S0 cR).
    { unfold t. cbn [fmul RA]. rewrite <- (repr_16 (i_S0 cR)) by (apply (stands_repr (i_S0 cF)), (si_S0 _ _ HS)). apply rnd_mono.
      destruct Lp as [_ [_ Lu]]. change (bpow radix2 4) with 16 in Lu. apply Rmult_le_compat_r; lra. }
    set (y := fmul (Arith:=XR) t (i_dx cR)) in *.
    assert (Y0 : 0 <= y) by (apply mul_pos; lra).
    assert (Y1 : y <= fmul (Arith:=XR) (i_u0 cR) (i_u0 cR)).
    { unfold y. cbn [fmul RA]. apply rnd_mono. apply Rle_trans with (16 * i_S0 cR * i_dx cR); [apply Rmult_le_compat_r; lra|lra]. }
    set (u := fmul (Arith:=XR) (i_u0 cR) (i_u0 cR)) in *. cbn [fdiv RA].
    assert (E : y / u * u = y) by (field; lra).
    assert (Q : 0 <= y / u <= 1).
    { split; apply (Rmult_le_reg_r u); try exact Pu; rewrite E; lra. }
    split; [rewrite <- rnd_0|rewrite <- rnd_1]; apply rnd_mono; lra.
  Qed.

  Lemma consts : same_constants (m_P mF) (m_P mR).
  Proof.
    pose proof (md_P _ _ _ MF) as BF. pose proof (md_P _ _ _ MR) as BR.
    destruct (L_eq cF cR HS HO) as [EL HL], (W_eq cF cR HS HO) as [EW HW], (L0_eq cF cR HS HO) as [EL0 HL0], (N0_eq cF cR HS HO) as (EN & HN & HN').
    destruct (step_eq cF cR HS HO) as [Es Hs]. destruct gamma_ok as [G1 G2].
    assert (Hc : (0 <= centre (n_W (A:=XR) cR) < n_W (A:=XR) cR)%Z).
    { unfold centre. pose proof (Z.div_mod (n_W (A:=XR) cR) 2 ltac:(lia)). pose proof (Z.mod_pos_bound (n_W (A:=XR) cR) 2 ltac:(lia)).
      destruct (Z.leb_spec (n_W (A:=XR) cR / 2 - 1) 1); lia. }
    assert (FL : p_L (m_P mF) = p_L (m_P mR)) by (rewrite (bd_L _ _ BF), (bd_L _ _ BR); exact EL).
    assert (FW : p_W (m_P mF) = p_W (m_P mR)) by (rewrite (bd_W _ _ BF), (bd_W _ _ BR); exact EW).
    assert (FC : p_CTR (m_P mF) = p_CTR (m_P mR)) by (rewrite (bd_CTR _ _ BF), (bd_CTR _ _ BR), EW; reflexivity).
    assert (F0 : p_L0 (m_P mF) = p_L0 (m_P mR)) by (rewrite (bd_L0 _ _ BF), (bd_L0 _ _ BR); exact EL0).
    assert (FN : p_N0 (m_P mF) = p_N0 (m_P mR)) by (rewrite (bd_N0 _ _ BF), (bd_N0 _ _ BR); exact EN).
    assert (Ty : create_cell_type (A:=F64) (m_P mF) = create_cell_type (A:=XR) (m_P mR)).
    { apply functional_extensionality; intro i. apply functional_extensionality; intro j. unfold create_cell_type, cell_type_0.
      rewrite F0, FL, FW, (channel_eq (m_P mF) (m_P mR) j FW FC FN).
      rewrite (radius_eq (m_P mF) (m_P mR) i j FL FW FC); [reflexivity|rewrite (bd_L _ _ BR); lia|rewrite (bd_W _ _ BR); lia]. }
    assert (In : p_inlet (m_P mF) = p_inlet (m_P mR)).
    { rewrite (md_inlet _ _ _ MF), (md_inlet _ _ _ MR), Ty. unfold create_inlet. rewrite FL, FW. reflexivity. }
    pose proof (or_itermax _ HO). pose proof (or_Np _ HO). pose proof (or_Nsmooth _ HO).
    assert (Dry : relp (-14) (-3) (p_dry_depth (m_P mF)) (p_dry_depth (m_P mR))).
    { rewrite (bd_dry _ _ BF), (bd_dry _ _ BR). apply (min_p (-14) (-3) (-4) 7); try lia; [apply lit_tenth_p|].
      apply (relp_mul (-4) (-3) (-10) 10); try lia; [apply lit_tenth_p|apply h0_p; assumption]. }
    assert (Um : relp (-9) 11 (p_u_max (m_P mF)) (p_u_max (m_P mR))).
    { rewrite (bd_u_max _ _ BF), (bd_u_max _ _ BR). apply (relp_mul 1 1 (-10) 10); try lia; [apply relp_z; cbn; lia|apply u0_p; assumption]. }
    assert (Qp : relp (-49) 47 (p_Qp_water (m_P mF)) (p_Qp_water (m_P mR))).
    { rewrite (bd_Qp _ _ BF), (bd_Qp _ _ BR). apply (relp_div (-29) 47 0 20); try lia; [apply Qw0_p|apply Np_p]; assumption. }
    assert (It : relp (-2) 0 (p_omega_flow_iter (m_P mF)) (p_omega_flow_iter (m_P mR))).
    { rewrite (bd_iter _ _ BF), (bd_iter _ _ BR). apply (relp_div 1 1 1 3); try lia; [apply relp_z; cbn; lia|apply itermax_p; assumption]. }
    pose proof (dx_p cF cR HS HO) as Dx. pose proof (or_dx _ HO) as Ox. rewrite p3, p5 in Ox.
    constructor; try assumption;
      rewrite ?(bd_stepmax _ _ BF), ?(bd_stepmax _ _ BR), ?(bd_Np _ _ BF), ?(bd_Np _ _ BR), ?(bd_itermax _ _ BF), ?(bd_itermax _ _ BR),
        ?(bd_Nsmooth _ _ BF), ?(bd_Nsmooth _ _ BR), ?(bd_L _ _ BR), ?(bd_W _ _ BR), ?(bd_CTR _ _ BR), ?(bd_gamma _ _ BF), ?(bd_gamma _ _ BR),
        ?(bd_theta _ _ BF), ?(bd_theta _ _ BR), ?(bd_dx _ _ BF), ?(bd_dx _ _ BR), ?(bd_S0 _ _ BF), ?(bd_S0 _ _ BR), ?(bd_u0 _ _ BF), ?(bd_u0 _ _ BR),
        ?(bd_h0 _ _ BF), ?(bd_h0 _ _ BR), ?(bd_qw0 _ _ BF), ?(bd_qw0 _ _ BR), ?(bd_Csmooth _ _ BF), ?(bd_Csmooth _ _ BR),
        ?(bd_omega_sfc _ _ BF), ?(bd_omega_sfc _ _ BR), ?(bd_omega_flow _ _ BF), ?(bd_omega_flow _ _ BR).
    all: try (apply HS); try (exact (or_theta _ HO)); try (exact (or_Csmooth _ HO)); try (exact (or_omega_sfc _ HO)); try (exact (or_omega_flow _ HO)); try lia; try assumption.
    - rewrite (md_inlet _ _ _ MR), columns_of, zseq_size, (bd_N0 _ _ BR); rewrite ?(bd_W _ _ BR), ?(bd_L _ _ BR), ?(bd_L0 _ _ BR), ?(bd_N0 _ _ BR), ?(bd_CTR _ _ BR); try lia; try reflexivity.
    - apply (relp_mod (-14) (-3)); [lia|exact Dry].
    - destruct Dry as [_ [Dl _]]. eapply Rle_trans; [|exact Dl]. change (bpow radix2 (-14)) with (/ 16384). replace (10 ^ 10) with 10000000000 by ring. lra.
    - rewrite p6. lra.
    - apply Qp.
    - destruct Qp as [_ [Ql Qh]]. pose proof (bpow_gt_0 radix2 (-49)). rewrite Rabs_pos_eq by lra. eapply Rle_trans; [exact Qh|].
      change (bpow radix2 47) with 140737488355328. replace (10 ^ 15) with 1000000000000000 by ring. lra.
    - rewrite Rabs_pos_eq by apply (or_slope _ HO). apply (or_slope _ HO).
    - apply (relp_mod (-10) 10); [lia|apply u0_p; assumption].
    - apply (relp_mod (-10) 10); [lia|apply h0_p; assumption].
    - apply (relp_mod (-20) 20); [lia|apply qw0_p; assumption].
    - apply (relp_mod (-9) 11); [lia|exact Um].
    - pose proof (relp_pos _ _ _ _ Um). lra.
    - apply It.
    - destruct It as [_ [Il Ih]]. pose proof (bpow_gt_0 radix2 (-2)). change (bpow radix2 0) with 1 in Ih. lra.
  Qed.

  Lemma type0_eq i j : cell_type_0 (m_P mF) i j = cell_type_0 (m_P mR) i j.
  Proof.
    pose proof consts as C. unfold cell_type_0.
    rewrite (sc_L0 _ _ C), (channel_eq (m_P mF) (m_P mR) j (sc_W _ _ C) (sc_CTR _ _ C)); [reflexivity|].
    rewrite (bd_N0 _ _ (md_P _ _ _ MF)), (bd_N0 _ _ (md_P _ _ _ MR)). apply (N0_eq cF cR HS HO).
  Qed.
  Lemma types_eq : s_cell_type (m_st mF) = s_cell_type (m_st mR).
  Proof.
    rewrite (md_type _ _ _ MF), (md_type _ _ _ MR). pose proof consts as C.
    apply functional_extensionality; intro i. apply functional_extensionality; intro j. unfold create_cell_type.
    rewrite type0_eq, (sc_L0 _ _ C), (sc_L _ _ C), (sc_W _ _ C), (channel_eq (m_P mF) (m_P mR) j (sc_W _ _ C) (sc_CTR _ _ C)).
    2:{ rewrite (bd_N0 _ _ (md_P _ _ _ MF)), (bd_N0 _ _ (md_P _ _ _ MR)). apply (N0_eq cF cR HS HO). }
    rewrite (radius_eq (m_P mF) (m_P mR) i j (sc_L _ _ C) (sc_W _ _ C) (sc_CTR _ _ C)); [reflexivity| |].
    - pose proof (sc_rows _ _ C). lia.
    - pose proof (sc_cols _ _ C). lia.
  Qed.

  Lemma depth_p i j : relp (-10) 10 (s_depth (m_st mF) i j) (s_depth (m_st mR) i j) \/
    (s_depth (m_st mF) i j = fz (Arith:=F64) 0 /\ s_depth (m_st mR) i j = 0).
  Proof.
    rewrite (md_depth _ _ _ MF), (md_depth _ _ _ MR), type0_eq.
    destruct (cell_type_0 (m_P mR) i j =? 0)%Z; [left; apply basin_p; assumption|].
    destruct (cell_type_0 (m_P mR) i j =? 1)%Z; [left; apply h0_p; assumption|right; split; [reflexivity|apply rz; lia]].
  Qed.
  Lemma qx_p i j : relp (-23) 20 (s_qx (m_st mF) i j) (s_qx (m_st mR) i j) \/
    (s_qx (m_st mF) i j = fz (Arith:=F64) 0 /\ s_qx (m_st mR) i j = fz (Arith:=XR) 0).
  Proof.
    rewrite (md_qx _ _ _ MF), (md_qx _ _ _ MR), type0_eq. pose proof (qw0_p cF cR HS HO) as Q.
    destruct (cell_type_0 (m_P mR) i j =? 1)%Z.
    { left. destruct Q as [Q1 [Q2 Q3]]. split; [exact Q1|]. split; [|exact Q3]. eapply Rle_trans; [|exact Q2]. apply bpow_le. lia. }
    destruct (cell_type_0 (m_P mR) i j =? 0)%Z; [left|right; split; reflexivity].
    assert (H : relp (-23) 18 (fdiv (Arith:=F64) (fmul (Arith:=F64) (i_u0 cF) (i_h0 cF)) (fz (Arith:=F64) 5)) (fdiv (Arith:=XR) (fmul (Arith:=XR) (i_u0 cR) (i_h0 cR)) (fz (Arith:=XR) 5))).
    { apply (relp_div (-20) 20 2 3); try lia; [exact Q|apply relp_z; cbn; lia]. }
    destruct H as [Q1 [Q2 Q3]]. split; [exact Q1|]. split; [exact Q2|]. eapply Rle_trans; [exact Q3|]. apply bpow_le. lia.
  Qed.
  Lemma qx_rel i j : rel 20 (s_qx (m_st mF) i j) (s_qx (m_st mR) i j) /\ 0 <= s_qx (m_st mR) i j.
  Proof.
    destruct (qx_p i j) as [H|[-> ->]].
    - split; [apply (relp_rel (-23) 20 20 _ _ ltac:(lia) H)|]. pose proof (relp_pos _ _ _ _ H). lra.
    - split; [apply rel_z; cbn; lia|]. rewrite rz by lia. lra.
  Qed.
  Lemma stage_rel i j : inb (p_L (m_P mR)) (p_W (m_P mR)) i j -> rel 60 (s_stage (m_st mF) i j) (s_stage (m_st mR) i j).
  Proof.
    intros [Hi _]. rewrite (md_stage _ _ _ MF), (md_stage _ _ _ MR), type0_eq.
    destruct (cell_type_0 (m_P mR) i j =? 0)%Z; [apply (rel_mono 20); [lia|]; apply rel_z; cbn; lia|].
    destruct (L0_eq cF cR HS HO) as [E H]. rewrite E. destruct (L_eq cF cR HS HO) as [_ HL].
    rewrite (bd_L _ _ (md_P _ _ _ MR)) in Hi.
    pose proof (Z.div_mod (n_L (A:=XR) cR) 4 ltac:(lia)). pose proof (Z.mod_pos_bound (n_L (A:=XR) cR) 4 ltac:(lia)).
    apply (rel_mono (20 + 17 + 10)); [lia|]. apply rel_mul; try lia.
    - apply rel_mul; try lia; [apply rel_z; change (2 ^ 20)%Z with 1048576%Z; lia|]. apply (relp_rel (-10) 17); [lia|apply dx_p; assumption].
    - split; [apply (si_S0 _ _ HS)|]. destruct (or_slope _ HO) as [K _]. rewrite Rabs_pos_eq by lra. change (bpow radix2 10) with 1024. lra.
  Qed.
  Lemma depth_rel i j : rel 20 (s_depth (m_st mF) i j) (s_depth (m_st mR) i j) /\ 0 <= s_depth (m_st mR) i j.
  Proof.
    destruct (depth_p i j) as [H|[-> ->]].
    - split; [apply (relp_rel (-10) 10 20 _ _ ltac:(lia) H)|]. pose proof (relp_pos _ _ _ _ H). lra.
    - split; [apply rel_z0; lia|lra].
  Qed.
  Lemma qw_rel i j : rel 21 (s_qw (m_st mF) i j) (s_qw (m_st mR) i j) /\ 0 <= s_qw (m_st mR) i j /\
    s_qx (m_st mR) i j <= 4 * s_qw (m_st mR) i j /\ (0 < s_qx (m_st mR) i j -> bpow radix2 (-23) <= s_qw (m_st mR) i j).
  Proof.
    rewrite (md_qw _ _ _ MF), (md_qw _ _ _ MR). destruct (qx_rel i j) as [Q Q0].
    destruct (hypot_rel 20 _ _ _ _ ltac:(lia) Q (rel_z 0 ltac:(cbn; lia))) as (H1 & H2 & H3).
    split; [exact H1|]. split; [exact H2|].
    destruct (qx_p i j) as [H|[_ E]].
    - pose proof (hypot_axis (-23) (s_qx (m_st mR) i j) ltac:(lia) (proj1 (proj2 H))) as B. pose proof (bpow_gt_0 radix2 (-23)).
      split; [|intros _; exact B]. destruct H3 as (K & _); [lra|]. rewrite Rabs_pos_eq in K by exact Q0. exact K.
    - rewrite E in *. rewrite rz in * by lia. split; [lra|intros; lra].
  Qed.
  Lemma over_rel q r i j : rel 21 q r ->
    rel 31 (if fltb (Arith:=F64) (fz (Arith:=F64) 0) (s_depth (m_st mF) i j) then fdiv (Arith:=F64) q (s_depth (m_st mF) i j) else fz (Arith:=F64) 0)
           (if fltb (Arith:=XR) (fz (Arith:=XR) 0) (s_depth (m_st mR) i j) then fdiv (Arith:=XR) r (s_depth (m_st mR) i j) else fz (Arith:=XR) 0).
  Proof.
    intros Q. destruct (depth_rel i j) as [D _]. rewrite (rel_lt zero_rel D). cbn [fltb RA]. unfold Rltb.
    destruct (Rlt_dec (fz (Arith:=XR) 0) (s_depth (m_st mR) i j)) as [P|P]; [|apply (rel_mono 0); [lia|exact zero_rel]]. rewrite rz in P by lia.
    destruct (depth_p i j) as [H|[_ E]]; [|lra]. destruct (pydiv_r 21 (-10) 10 31 _ _ _ _ ltac:(lia) ltac:(lia) Q H) as (_ & _ & K). exact K.
  Qed.
  Lemma speed i j : 0 <= s_uw (m_st mR) i j /\ Rabs (s_ux (m_st mR) i j) <= 8 * s_uw (m_st mR) i j /\ Rabs (s_uy (m_st mR) i j) <= 8 * s_uw (m_st mR) i j.
  Proof.
    rewrite (md_uw _ _ _ MR), (md_ux _ _ _ MR), (md_uy _ _ _ MR). destruct (qw_rel i j) as (_ & W0 & W1 & W2). destruct (qx_rel i j) as [_ X0].
    rewrite (rz 0) by lia. cbn [fltb RA]. unfold Rltb. destruct (Rlt_dec 0 (s_depth (m_st mR) i j)) as [P|P].
    2:{ rewrite Rabs_R0. lra. }
    cbn [fdiv RA]. set (d := s_depth (m_st mR) i j) in *. set (qw := s_qw (m_st mR) i j) in *. set (qx := s_qx (m_st mR) i j) in *.
    assert (Pi : 0 < / d) by (apply Rinv_0_lt_compat; exact P).
    assert (U0 : 0 <= rn64 (qw / d)) by (rewrite <- rnd_0; apply rnd_mono; unfold Rdiv; apply Rmult_le_pos; lra).
    split; [exact U0|]. split.
    - assert (X1 : 0 <= rn64 (qx / d)) by (rewrite <- rnd_0; apply rnd_mono; unfold Rdiv; apply Rmult_le_pos; lra).
      rewrite Rabs_pos_eq by exact X1. destruct (Req_EM_T qx 0) as [Z|Z].
      + rewrite Z. unfold Rdiv at 1. rewrite Rmult_0_l, rnd_0. lra.
      + specialize (W2 ltac:(lra)). 
        assert (U1 : 0 < rn64 (qw / d)).
        { destruct (depth_p i j) as [[_ H]|[_ E]]; [|fold d in E; lra]. fold d in H.
          apply Rlt_le_trans with (bpow radix2 (-33)); [apply bpow_gt_0|]. rewrite <- (bp_repr (-33)) by lia. apply rnd_mono.
          change (-33)%Z with (-23 + - (10))%Z. rewrite bpow_plus, bpow_opp. pose proof (bpow_gt_0 radix2 (-23)). unfold Rdiv.
          apply Rmult_le_compat; [lra|apply Rlt_le, Rinv_0_lt_compat, bpow_gt_0|exact W2|apply inv_le; [exact P|apply H]]. }
        pose proof (rn_half (qw / d) (rn64 (qw / d)) (rnd_idem _) U1 (Rle_refl _)) as Hh.
        rewrite <- (repr_8 (rn64 (qw / d))) by apply rnd_idem. apply rnd_mono.
        assert (qx / d <= 4 * (qw / d)); [|lra]. unfold Rdiv. rewrite <- Rmult_assoc. apply Rmult_le_compat_r; lra.
    - unfold Rdiv at 1. rewrite Rmult_0_l, rnd_0, Rabs_R0. lra.
  Qed.

  Lemma waters : same_water (m_P mR) (m_st mF) (m_st mR).
  Proof.
    constructor.
    - split; [rewrite (md_H_SL _ _ _ MF), (md_H_SL _ _ _ MR)|].
      { split; [apply (si_H_SL _ _ HS)|]. eapply Rle_trans; [apply (or_H_SL _ HO)|]. apply Rle_pow; [lra|lia]. }
      split; [exact types_eq|].
      split; [rewrite (md_width _ _ _ MF), (md_width _ _ _ MR), (proj1 (step_eq cF cR HS HO)); reflexivity|].
      split; [rewrite (md_rng _ _ _ MF), (md_rng _ _ _ MR); reflexivity|].
      split; [rewrite (md_iter _ _ _ MF), (md_iter _ _ _ MR); reflexivity|].
      intros i j Hij. pose proof (stage_rel i j Hij) as X1. destruct (depth_rel i j) as [X2 _]. destruct (qx_rel i j) as [X3 _]. destruct (qw_rel i j) as [X4 _].
      split; [|split; [|split; [|split; [|split; [|split; [|split; [|split; [|split]]]]]]]].
      + rewrite (md_eta _ _ _ MF), (md_eta _ _ _ MR). apply (rel_mod (60 + 1)); [lia|]. exact (rel_sub (a:=60) (b:=20) ltac:(lia) ltac:(lia) X1 X2).
      + apply (rel_mod 60); [lia|exact X1].
      + apply (rel_mod 20); [lia|exact X2].
      + rewrite (md_weight _ _ _ MF), (md_weight _ _ _ MR). apply (rel_mod 0); [lia|exact one_rel].
      + apply (rel_mod 20); [lia|exact X3].
      + rewrite (md_qy _ _ _ MF), (md_qy _ _ _ MR). apply (rel_mod 0); [lia|exact zero_rel].
      + apply (rel_mod 21); [lia|exact X4].
      + rewrite (md_ux _ _ _ MF), (md_ux _ _ _ MR). apply (rel_mod 31); [lia|]. apply over_rel, (rel_mono 20); [lia|exact X3].
      + rewrite (md_uy _ _ _ MF), (md_uy _ _ _ MR). apply (rel_mod 31); [lia|]. apply over_rel, (rel_mono 0); [lia|exact zero_rel].
      + rewrite (md_uw _ _ _ MF), (md_uw _ _ _ MR). apply (rel_mod 31); [lia|]. apply over_rel, X4.
    - intros i j _. apply depth_rel.
    - intros i j _. rewrite (md_weight _ _ _ MR), rz by lia. lra.
    - intros i j _. apply speed.
  Qed.

  Lemma ready : water_ready (m_P mR) (m_st mR).
  Proof.
    pose proof (md_P _ _ _ MR) as BR. pose proof consts as C.
    destruct (L_eq cF cR HS HO) as [_ HL], (W_eq cF cR HS HO) as [_ HW], (L0_eq cF cR HS HO) as [_ HL0], (N0_eq cF cR HS HO) as (_ & HN & HN').
    destruct (step_eq cF cR HS HO) as [_ Hs].
    pose proof (Z.div_mod (n_L (A:=XR) cR) 4 ltac:(lia)). pose proof (Z.mod_pos_bound (n_L (A:=XR) cR) 4 ltac:(lia)).
    constructor.
    - rewrite (md_type _ _ _ MR), (md_inlet _ _ _ MR). apply walk_of; rewrite ?(bd_W _ _ BR), ?(bd_L _ _ BR), ?(bd_L0 _ _ BR), ?(bd_N0 _ _ BR), ?(bd_CTR _ _ BR); try lia; reflexivity.
    - rewrite (bd_L0 _ _ BR). lia.
    - rewrite (bd_CTR _ _ BR), (bd_W _ _ BR). unfold centre. pose proof (Z.div_mod (n_W (A:=XR) cR) 2 ltac:(lia)). pose proof (Z.mod_pos_bound (n_W (A:=XR) cR) 2 ltac:(lia)).
      destruct (Z.leb_spec (n_W (A:=XR) cR / 2 - 1) 1); lia.
    - rewrite (bd_stepmax _ _ BR). lia.
    - rewrite (md_width _ _ _ MR). apply Z.quot_le_lower_bound; lia.
    - rewrite (bd_Np _ _ BR). pose proof (or_Np _ HO). lia.
    - apply (sc_gamma_range _ _ C).
  Qed.
End Alike.

(** Construction of both models. *)
Lemma construct_rel {S N : Type} (GF : Rng sfloat S) (GR : Rng R S) (GN : NpRng N) (cF : inputs sfloat) (cR : inputs R) (nb : S) (np : N) :
  (forall z, seed_rng (Rng:=GF) z = seed_rng (Rng:=GR) z) -> same_inputs cF cR -> ordinary cR ->
  exists x y, construct (A:=F64) (G:=GF) cF nb np = Ok x /\ construct (A:=XR) (G:=GR) cR nb np = Ok y /\
    same_start x y /\ water_ready (m_P (fst y)) (m_st (fst y)) /\ p_itermax (m_P (fst x)) = i_itermax cF.
Proof.
  intros Hg HS HO. destruct (both_sane cF cR HS HO) as [S1 S2].
  destruct (construct_ok (A:=F64) (G:=GF) cF nb np S1) as (mF & E1 & M1). destruct (construct_ok (A:=XR) (G:=GR) cR nb np S2) as (mR & E2 & M2).
  assert (Es : n_seed (G:=GF) cF np = n_seed (G:=GR) cR np).
  { unfold n_seed. rewrite (si_seed _ _ HS). destruct (i_seed cR) as [z|]; [rewrite Hg; reflexivity|]. destruct (randint np) as [z np']. rewrite Hg. reflexivity. }
  rewrite Es in E1, M1. exists (mF, snd (n_seed (G:=GR) cR np)), (mR, snd (n_seed (G:=GR) cR np)).
  split; [exact E1|]. split; [exact E2|]. cbn [fst snd]. split; [split; [|split; [|reflexivity]]|split].
  - exact (consts cF cR HS HO mF mR _ M1 M2).
  - exact (waters cF cR HS HO mF mR _ M1 M2).
  - exact (ready cF cR HS HO mF mR _ M1 M2).
  - apply (bd_itermax _ _ (md_P _ _ _ M1)).
Qed.
