(** Another pace: construction and whole runs (C83). *)
From Coq Require Import ZArith List Bool Reals Lra Lia FunctionalExtensionality.
From Flocq Require Import Core.
From Verif Require Import Base RLemmas Shared SharedSpec Params State Water Sed Iter Inputs Init
  InitSpec InitProofs PaceSpec PaceProofs PaceSed.
Import ListNotations.
Local Open Scope R_scope.

Lemma state_ext {S} (x y : state R S) : s_eta x = s_eta y -> s_eta0 x = s_eta0 y -> s_stage x = s_stage y -> s_depth x = s_depth y -> s_qx x = s_qx y -> s_qy x = s_qy y -> s_qw x = s_qw y -> s_qxn x = s_qxn y -> s_qyn x = s_qyn y -> s_qwn x = s_qwn y -> s_ux x = s_ux y -> s_uy x = s_uy y -> s_uw x = s_uw y -> s_qs x = s_qs y -> s_sand_frac x = s_sand_frac y -> s_active_layer x = s_active_layer y -> s_Vp_dep_sand x = s_Vp_dep_sand y -> s_Vp_dep_mud x = s_Vp_dep_mud y -> s_mod_water_weight x = s_mod_water_weight y -> s_mod_sed_weight x = s_mod_sed_weight y -> s_mod_erosion x = s_mod_erosion y -> s_sfc_visit x = s_sfc_visit y -> s_sfc_sum x = s_sfc_sum y -> s_Hnew x = s_Hnew y -> s_cf x = s_cf y -> s_cell_type x = s_cell_type y -> s_H_SL x = s_H_SL y -> s_time x = s_time y -> s_time_iter x = s_time_iter y -> s_save_time_since_data x = s_save_time_since_data y -> s_save_time_since_checkpoint x = s_save_time_since_checkpoint y -> s_save_iter x = s_save_iter y -> s_width x = s_width y -> s_rng x = s_rng y -> x = y.
Proof. destruct x, y. cbn. intros. subst. reflexivity. Qed.

Lemma params_ext (P Q : params R) : p_L P = p_L Q -> p_W P = p_W Q -> p_CTR P = p_CTR Q -> p_L0 P = p_L0 Q -> p_N0 P = p_N0 Q -> p_inlet P = p_inlet Q -> p_dx P = p_dx Q -> p_h0 P = p_h0 Q -> p_hb P = p_hb Q -> p_u0 P = p_u0 Q -> p_S0 P = p_S0 Q -> p_u_max P = p_u_max Q -> p_C0 P = p_C0 Q -> p_dry_depth P = p_dry_depth Q -> p_gamma P = p_gamma Q -> p_V0 P = p_V0 Q -> p_Qw0 P = p_Qw0 Q -> p_qw0 P = p_qw0 Q -> p_Qp_water P = p_Qp_water Q -> p_qs0 P = p_qs0 Q -> p_dVs P = p_dVs Q -> p_Qs0 P = p_Qs0 Q -> p_Vp_sed P = p_Vp_sed Q -> p_stepmax P = p_stepmax Q -> p_dt P = p_dt Q -> p_omega_flow_iter P = p_omega_flow_iter Q -> p_N_crossdiff P = p_N_crossdiff Q -> p_lambda P = p_lambda Q -> p_diffusion_multiplier P = p_diffusion_multiplier Q -> p_theta_water P = p_theta_water Q -> p_theta_sand P = p_theta_sand Q -> p_theta_mud P = p_theta_mud Q -> p_U_dep_mud P = p_U_dep_mud Q -> p_U_ero_sand P = p_U_ero_sand Q -> p_U_ero_mud P = p_U_ero_mud Q -> p_itermax P = p_itermax Q -> p_Np_water P = p_Np_water Q -> p_Np_sed P = p_Np_sed Q -> p_f_bedload P = p_f_bedload Q -> p_f_bedload_router P = p_f_bedload_router Q -> p_beta P = p_beta Q -> p_omega_sfc P = p_omega_sfc Q -> p_omega_flow P = p_omega_flow Q -> p_Nsmooth P = p_Nsmooth Q -> p_Csmooth P = p_Csmooth Q -> p_SLR P = p_SLR Q -> p_sand_frac_bc P = p_sand_frac_bc Q -> p_active_layer_thickness P = p_active_layer_thickness Q -> p_toggle_subsidence P = p_toggle_subsidence Q -> p_start_subsidence P = p_start_subsidence Q -> p_sigma P = p_sigma Q -> p_save_dt P = p_save_dt Q -> p_checkpoint_dt P = p_checkpoint_dt Q -> p_save_checkpoint P = p_save_checkpoint Q -> P = Q.
Proof. destruct P, Q. cbn. intros. subst. reflexivity. Qed.

Section GetI.
  Context (a b : R) (c : inputs R).
  Lemma gi_Length : i_Length (paced_config a b c) = i_Length c.
  Proof. reflexivity. Qed.
  Lemma gi_Width : i_Width (paced_config a b c) = i_Width c.
  Proof. reflexivity. Qed.
  Lemma gi_dx : i_dx (paced_config a b c) = i_dx c.
  Proof. reflexivity. Qed.
  Lemma gi_L0_meters : i_L0_meters (paced_config a b c) = i_L0_meters c.
  Proof. reflexivity. Qed.
  Lemma gi_S0 : i_S0 (paced_config a b c) = i_S0 c.
  Proof. reflexivity. Qed.
  Lemma gi_itermax : i_itermax (paced_config a b c) = i_itermax c.
  Proof. reflexivity. Qed.
  Lemma gi_Np_water : i_Np_water (paced_config a b c) = i_Np_water c.
  Proof. reflexivity. Qed.
  Lemma gi_u0 : i_u0 (paced_config a b c) = a * i_u0 c.
  Proof. reflexivity. Qed.
  Lemma gi_N0_meters : i_N0_meters (paced_config a b c) = i_N0_meters c.
  Proof. reflexivity. Qed.
  Lemma gi_h0 : i_h0 (paced_config a b c) = i_h0 c.
  Proof. reflexivity. Qed.
  Lemma gi_hb : i_hb (paced_config a b c) = i_hb c.
  Proof. reflexivity. Qed.
  Lemma gi_H_SL : i_H_SL (paced_config a b c) = i_H_SL c.
  Proof. reflexivity. Qed.
  Lemma gi_SLR : i_SLR (paced_config a b c) = b * i_SLR c.
  Proof. reflexivity. Qed.
  Lemma gi_Np_sed : i_Np_sed (paced_config a b c) = i_Np_sed c.
  Proof. reflexivity. Qed.
  Lemma gi_f_bedload : i_f_bedload (paced_config a b c) = i_f_bedload c.
  Proof. reflexivity. Qed.
  Lemma gi_active_layer_thickness : i_active_layer_thickness (paced_config a b c) = i_active_layer_thickness c.
  Proof. reflexivity. Qed.
  Lemma gi_C0_percent : i_C0_percent (paced_config a b c) = b / a * i_C0_percent c.
  Proof. reflexivity. Qed.
  Lemma gi_Csmooth : i_Csmooth (paced_config a b c) = i_Csmooth c.
  Proof. reflexivity. Qed.
  Lemma gi_toggle_subsidence : i_toggle_subsidence (paced_config a b c) = i_toggle_subsidence c.
  Proof. reflexivity. Qed.
  Lemma gi_subsidence_rate : i_subsidence_rate (paced_config a b c) = b * i_subsidence_rate c.
  Proof. reflexivity. Qed.
  Lemma gi_start_subsidence : i_start_subsidence (paced_config a b c) = i_start_subsidence c / b.
  Proof. reflexivity. Qed.
  Lemma gi_save_dt : i_save_dt (paced_config a b c) = i_save_dt c / b.
  Proof. reflexivity. Qed.
  Lemma gi_checkpoint_dt : i_checkpoint_dt (paced_config a b c) = option_map (fun t => t / b) (i_checkpoint_dt c).
  Proof. reflexivity. Qed.
  Lemma gi_save_checkpoint : i_save_checkpoint (paced_config a b c) = i_save_checkpoint c.
  Proof. reflexivity. Qed.
  Lemma gi_omega_sfc : i_omega_sfc (paced_config a b c) = i_omega_sfc c.
  Proof. reflexivity. Qed.
  Lemma gi_omega_flow : i_omega_flow (paced_config a b c) = i_omega_flow c.
  Proof. reflexivity. Qed.
  Lemma gi_Nsmooth : i_Nsmooth (paced_config a b c) = i_Nsmooth c.
  Proof. reflexivity. Qed.
  Lemma gi_theta_water : i_theta_water (paced_config a b c) = i_theta_water c.
  Proof. reflexivity. Qed.
  Lemma gi_coeff_theta_sand : i_coeff_theta_sand (paced_config a b c) = i_coeff_theta_sand c.
  Proof. reflexivity. Qed.
  Lemma gi_coeff_theta_mud : i_coeff_theta_mud (paced_config a b c) = i_coeff_theta_mud c.
  Proof. reflexivity. Qed.
  Lemma gi_beta : i_beta (paced_config a b c) = i_beta c.
  Proof. reflexivity. Qed.
  Lemma gi_sed_lag : i_sed_lag (paced_config a b c) = i_sed_lag c.
  Proof. reflexivity. Qed.
  Lemma gi_coeff_U_dep_mud : i_coeff_U_dep_mud (paced_config a b c) = i_coeff_U_dep_mud c.
  Proof. reflexivity. Qed.
  Lemma gi_coeff_U_ero_mud : i_coeff_U_ero_mud (paced_config a b c) = i_coeff_U_ero_mud c.
  Proof. reflexivity. Qed.
  Lemma gi_coeff_U_ero_sand : i_coeff_U_ero_sand (paced_config a b c) = i_coeff_U_ero_sand c.
  Proof. reflexivity. Qed.
  Lemma gi_alpha : i_alpha (paced_config a b c) = i_alpha c.
  Proof. reflexivity. Qed.
  Lemma gi_stepmax : i_stepmax (paced_config a b c) = i_stepmax c.
  Proof. reflexivity. Qed.
  Lemma gi_sand_frac_bc : i_sand_frac_bc (paced_config a b c) = i_sand_frac_bc c.
  Proof. reflexivity. Qed.
  Lemma gi_seed : i_seed (paced_config a b c) = i_seed c.
  Proof. reflexivity. Qed.
End GetI.
#[global] Hint Rewrite gi_Length gi_Width gi_dx gi_L0_meters gi_S0 gi_itermax gi_Np_water gi_u0 gi_N0_meters gi_h0 gi_hb gi_H_SL gi_SLR gi_Np_sed gi_f_bedload gi_active_layer_thickness gi_C0_percent gi_Csmooth gi_toggle_subsidence gi_subsidence_rate gi_start_subsidence gi_save_dt gi_checkpoint_dt gi_save_checkpoint gi_omega_sfc gi_omega_flow gi_Nsmooth gi_theta_water gi_coeff_theta_sand gi_coeff_theta_mud gi_beta gi_sed_lag gi_coeff_U_dep_mud gi_coeff_U_ero_mud gi_coeff_U_ero_sand gi_alpha gi_stepmax gi_sand_frac_bc gi_seed : gi.

Ltac go := unfold paced_params, create_other_variables; cbv beta iota zeta delta [p_L setp_L p_W setp_W p_CTR setp_CTR p_L0 setp_L0 p_N0 setp_N0 p_inlet setp_inlet p_dx setp_dx p_h0 setp_h0 p_hb setp_hb p_u0 setp_u0 p_S0 setp_S0 p_u_max setp_u_max p_C0 setp_C0 p_dry_depth setp_dry_depth p_gamma setp_gamma p_V0 setp_V0 p_Qw0 setp_Qw0 p_qw0 setp_qw0 p_Qp_water setp_Qp_water p_qs0 setp_qs0 p_dVs setp_dVs p_Qs0 setp_Qs0 p_Vp_sed setp_Vp_sed p_stepmax setp_stepmax p_dt setp_dt p_omega_flow_iter setp_omega_flow_iter p_N_crossdiff setp_N_crossdiff p_lambda setp_lambda p_diffusion_multiplier setp_diffusion_multiplier p_theta_water setp_theta_water p_theta_sand setp_theta_sand p_theta_mud setp_theta_mud p_U_dep_mud setp_U_dep_mud p_U_ero_sand setp_U_ero_sand p_U_ero_mud setp_U_ero_mud p_itermax setp_itermax p_Np_water setp_Np_water p_Np_sed setp_Np_sed p_f_bedload setp_f_bedload p_f_bedload_router setp_f_bedload_router p_beta setp_beta p_omega_sfc setp_omega_sfc p_omega_flow setp_omega_flow p_Nsmooth setp_Nsmooth p_Csmooth setp_Csmooth p_SLR setp_SLR p_sand_frac_bc setp_sand_frac_bc p_active_layer_thickness setp_active_layer_thickness p_toggle_subsidence setp_toggle_subsidence p_start_subsidence setp_start_subsidence p_sigma setp_sigma p_save_dt setp_save_dt p_checkpoint_dt setp_checkpoint_dt p_save_checkpoint setp_save_checkpoint];
  rewrite ?gi_u0, ?gi_coeff_U_dep_mud, ?gi_coeff_U_ero_sand, ?gi_coeff_U_ero_mud; ra.

Ltac gst := cbv beta iota delta [pacing s_eta s_eta0 s_stage s_depth s_qx s_qy s_qw s_qxn s_qyn s_qwn s_ux s_uy s_uw s_qs s_sand_frac s_active_layer s_Vp_dep_sand s_Vp_dep_mud s_mod_water_weight s_mod_sed_weight s_mod_erosion s_sfc_visit s_sfc_sum s_Hnew s_cf s_cell_type s_H_SL s_time s_time_iter s_save_time_since_data s_save_time_since_checkpoint s_save_iter s_width s_rng].

Section Pace.
  Context {S N : Type} {G : Rng R S} {GN : NpRng N} (a b : R) (Ha : 0 < a) (Hb : 0 < b).
  Local Notation pc := (paced_config a b).

  Lemma ba_pos : 0 < b / a.
  Proof. unfold Rdiv. apply Rmult_lt_0_compat; auto. now apply Rinv_0_lt_compat. Qed.
  Lemma accepted_pace c : accepted (pc c) <-> accepted c.
  Proof.
    pose proof ba_pos as Hba. split; intros H; destruct H; constructor; try assumption.
    - change (0 <= b / a * i_C0_percent c) in ac_C0. apply (Rmult_le_reg_l (b / a)); lra.
    - change (0 <= b / a * i_C0_percent c). apply Rmult_le_pos; lra.
  Qed.
  Lemma resolved_pace c : resolved (fun x => x) (pc c) = pc (resolved (fun x => x) c).
  Proof.
    unfold resolved. destruct c. unfold paced_config. cbn. destruct i_checkpoint_dt; reflexivity.
  Qed.
  Lemma process_pace c : process_input_to_model (A:=XA) (pc c) = rmp pc (process_input_to_model (A:=XA) c).
  Proof.
    pose proof (process_spec (fun x => x) c) as H1. pose proof (process_spec (fun x => x) (pc c)) as H2.
    destruct (process_input_to_model (A:=XA) c) as [c1 | e1]; destruct (process_input_to_model (A:=XA) (pc c)) as [c2 | e2]; cbn [rmp].
    - destruct H1 as [_ ->]. destruct H2 as [_ ->]. now rewrite resolved_pace.
    - destruct H1 as [K _]. destruct H2 as [_ K']. now rewrite accepted_pace in K'.
    - destruct H1 as [_ K]. destruct H2 as [K' _]. now rewrite accepted_pace in K'.
    - destruct H1 as [-> _]. destruct H2 as [-> _]. reflexivity.
  Qed.

  Lemma pydiv_pace u v x y : v <> 0 -> pydiv (A:=XA) (u * x) (v * y) = rmp (fun z => u / v * z) (pydiv (A:=XA) x y).
  Proof.
    intros Hv. unfold pydiv. ra. rewrite Reqb_scale by assumption. destruct (Reqb_spec y 0) as [K | K]; [reflexivity |].
    cbn [rmp]. f_equal. field. split; assumption.
  Qed.
  Lemma pc_seed z c : seti_seed z (pc c) = pc (seti_seed z c).
  Proof. destruct c. reflexivity. Qed.
  Lemma seed_pace c (np : N) : determine_random_seed (G:=G) (pc c) np
    = let '(c', s, np') := determine_random_seed (G:=G) c np in (pc c', s, np').
  Proof.
    unfold determine_random_seed. rewrite gi_seed. destruct (i_seed c); [reflexivity |].
    destruct (randint np). now rewrite pc_seed.
  Qed.

  Lemma pydiv_eq x y x' y' k : (y' = 0 <-> y = 0) -> (y <> 0 -> x' / y' = k (x / y)) ->
    pydiv (A:=XA) x' y' = rmp k (pydiv (A:=XA) x y).
  Proof.
    intros H1 H2. unfold pydiv. ra. destruct (Reqb_spec y 0) as [K | K]; destruct (Reqb_spec y' 0) as [K' | K']; auto.
    - exfalso. tauto.
    - exfalso. tauto.
    - cbn [rmp]. now rewrite H2.
  Qed.
  Lemma mult_0_iff k y : k <> 0 -> (k * y = 0 <-> y = 0).
  Proof. intros Hk. split; intros H; [apply Rmult_integral in H; tauto | rewrite H; ring]. Qed.

  Lemma boundary_pace c : i_S0 c = 0 \/ a = 1 ->
    create_boundary_conditions (A:=XA) (pc c) (create_other_variables (A:=XA) (pc c))
    = rmp (paced_params a b) (create_boundary_conditions (A:=XA) c (create_other_variables (A:=XA) c)).
  Proof.
    intros HS. unfold create_boundary_conditions. cbv zeta. autorewrite with gi.
    set (P' := create_other_variables (A:=XA) (pc c)). set (P0 := create_other_variables (A:=XA) c).
    change (p_L P') with (p_L P0). change (p_W P') with (p_W P0). change (p_Np_water P') with (p_Np_water P0).
    change (p_Np_sed P') with (p_Np_sed P0). change (p_itermax P') with (p_itermax P0).
    set (N0 := Z.max 3 _). set (L0 := Z.max 1 _).
    set (sm := match i_stepmax c with None => _ | Some _ => _ end).
    set (dd := fmin _ _). set (V0 := fmul (i_h0 c) _). set (dVs := fmul _ V0).
    clearbody N0 L0 sm dd.
    assert (Hba := ba_pos).
    rewrite (pydiv_eq (fmul (Arith:=XA) (fmul (Arith:=XA) (flit (A:=XA) 981 100) (i_S0 c)) (i_dx c)) (fmul (Arith:=XA) (i_u0 c) (i_u0 c)) _ _ (fun x => x)).
    2: { ra. replace (a * i_u0 c * (a * i_u0 c)) with (a * a * (i_u0 c * i_u0 c)) by ring. apply mult_0_iff. nra. }
    2: { ra. intros K. destruct HS as [-> | ->]; [| now rewrite !Rmult_1_l]. unfold Rdiv. ring. }
    destruct (pydiv (A:=XA) (fmul (Arith:=XA) (fmul (Arith:=XA) _ (i_S0 c)) (i_dx c)) _) as [gam | e]; cbn [rbind rmp]; [| reflexivity].
    rewrite (pydiv_eq (fmul (Arith:=XA) (fmul (Arith:=XA) (fmul (Arith:=XA) (i_u0 c) (i_h0 c)) (fz (Arith:=XA) N0)) (i_dx c)) (fz (Arith:=XA) (p_Np_water P0)) _ _ (fun x => a * x)).
    2: tauto.
    2: { ra. intros K. field. assumption. }
    destruct (pydiv (A:=XA) _ (fz (Arith:=XA) (p_Np_water P0))) as [Qp | e]; cbn [rbind rmp]; [| reflexivity].
    destruct (pydiv (A:=XA) dVs (fz (Arith:=XA) (p_Np_sed P0))) as [Vp | e]; cbn [rbind rmp]; [| reflexivity].
    rewrite (pydiv_eq dVs (fmul (Arith:=XA) (fmul (Arith:=XA) (fmul (Arith:=XA) (fmul (Arith:=XA) (i_u0 c) (i_h0 c)) (fz (Arith:=XA) N0)) (i_dx c)) (fdiv (Arith:=XA) (fmul (Arith:=XA) (i_C0_percent c) (fz (Arith:=XA) 1)) (fz (Arith:=XA) 100))) _ _ (fun x => x / b)).
    2: { ra. replace (a * i_u0 c * i_h0 c * IZR N0 * i_dx c * (b / a * i_C0_percent c * 1 / 100))
           with (b * (i_u0 c * i_h0 c * IZR N0 * i_dx c * (i_C0_percent c * 1 / 100))) by (field; lra).
         apply mult_0_iff. lra. }
    2: { ra. intros K.
         replace (a * i_u0 c * i_h0 c * IZR N0 * i_dx c * (b / a * i_C0_percent c * 1 / 100))
           with (b * (i_u0 c * i_h0 c * IZR N0 * i_dx c * (i_C0_percent c * 1 / 100))) by (field; lra).
         set (Q := i_u0 c * _ * _ * _ * _) in *. clearbody Q. field. split; lra. }
    destruct (pydiv (A:=XA) dVs (fmul (Arith:=XA) _ (fdiv (Arith:=XA) _ _))) as [dt | e]; cbn [rbind rmp]; [| reflexivity].
    destruct (pydiv (A:=XA) (fz (Arith:=XA) 2) (fz (Arith:=XA) (p_itermax P0))) as [oi | e]; cbn [rbind rmp]; [| reflexivity].
    destruct (pydiv (A:=XA) dVs V0) as [cd | e]; cbn [rbind rmp]; [| reflexivity].
    set (Nc := frint (Arith:=XA) cd). clearbody Nc.
    rewrite (pydiv_eq dt (fz (Arith:=XA) Nc) (dt / b) (fz (Arith:=XA) Nc) (fun x => x / b)).
    2: tauto.
    2: { ra. intros K. field. split; [assumption | lra]. }
    destruct (pydiv (A:=XA) dt (fz (Arith:=XA) Nc)) as [dp | e]; cbn [rbind rmp]; [| reflexivity].
    rewrite (pydiv_eq (fmul (Arith:=XA) (fmul (Arith:=XA) dp (i_alpha c)) (flit (A:=XA) 1 2)) (fmul (Arith:=XA) (i_dx c) (i_dx c)) _ _ (fun x => x / b)).
    2: tauto.
    2: { ra. unfold Rdiv. intros K. ring. }
    destruct (pydiv (A:=XA) _ (fmul (Arith:=XA) (i_dx c) (i_dx c))) as [mu | e]; cbn [rbind rmp]; [| reflexivity].
    f_equal. clearbody dVs V0. unfold P', P0. clear P' P0.
    apply params_ext.
    - (* L *) reflexivity.
    - (* W *) reflexivity.
    - (* CTR *) reflexivity.
    - (* L0 *) reflexivity.
    - (* N0 *) reflexivity.
    - (* inlet *) reflexivity.
    - (* dx *) reflexivity.
    - (* h0 *) reflexivity.
    - (* hb *) reflexivity.
    - (* u0 *) reflexivity.
    - (* S0 *) reflexivity.
    - (* u_max *) go; ring.
    - (* C0 *) go; field; lra.
    - (* dry_depth *) reflexivity.
    - (* gamma *) reflexivity.
    - (* V0 *) reflexivity.
    - (* Qw0 *) go; ring.
    - (* qw0 *) go; ring.
    - (* Qp_water *) reflexivity.
    - (* qs0 *) go; field; lra.
    - (* dVs *) reflexivity.
    - (* Qs0 *) go; field; lra.
    - (* Vp_sed *) reflexivity.
    - (* stepmax *) reflexivity.
    - (* dt *) reflexivity.
    - (* omega_flow_iter *) reflexivity.
    - (* N_crossdiff *) reflexivity.
    - (* lambda *) reflexivity.
    - (* diffusion_multiplier *) reflexivity.
    - (* theta_water *) reflexivity.
    - (* theta_sand *) reflexivity.
    - (* theta_mud *) reflexivity.
    - (* U_dep_mud *) go; ring.
    - (* U_ero_sand *) go; ring.
    - (* U_ero_mud *) go; ring.
    - (* itermax *) reflexivity.
    - (* Np_water *) reflexivity.
    - (* Np_sed *) reflexivity.
    - (* f_bedload *) reflexivity.
    - (* f_bedload_router *) reflexivity.
    - (* beta *) reflexivity.
    - (* omega_sfc *) reflexivity.
    - (* omega_flow *) reflexivity.
    - (* Nsmooth *) reflexivity.
    - (* Csmooth *) reflexivity.
    - (* SLR *) reflexivity.
    - (* sand_frac_bc *) reflexivity.
    - (* active_layer_thickness *) reflexivity.
    - (* toggle_subsidence *) reflexivity.
    - (* start_subsidence *) reflexivity.
    - (* sigma *) reflexivity.
    - (* save_dt *) reflexivity.
    - (* checkpoint_dt *) go; rewrite ?gi_checkpoint_dt, ?gi_save_dt; destruct (i_checkpoint_dt c); reflexivity.
    - (* save_checkpoint *) reflexivity.
  Qed.

  (** ** The first fields *)
  Lemma hypot_0 x : hypot (A:=XA) (a * x) 0 = a * hypot (A:=XA) x 0.
  Proof. rewrite <- hypot_scale by assumption. f_equal. ring. Qed.
  Lemma domain_pace c P (s : S) :
    create_domain (A:=XA) (pc c) (paced_params a b P) s
    = rmp (fun r => (paced_params a b (fst r), pacing a a b (snd r))) (create_domain (A:=XA) c P s).
  Proof.
    unfold create_domain. cbv zeta. change (size_indices (paced_params a b P)) with (size_indices P).
    destruct (size_indices P <? 0)%Z; [reflexivity |]. cbn [rmp fst snd]. f_equal.
    replace (basin_depth (A:=XA) (pc c)) with (basin_depth (A:=XA) c) by reflexivity.
    rewrite !gmemo_id. autorewrite with gp. rewrite gi_dx, gi_S0, gi_h0, gi_sand_frac_bc, gi_H_SL.
    change (cell_type_0 (paced_params a b P)) with (cell_type_0 P).
    change (create_cell_type (A:=XA) (paced_params a b P)) with (create_cell_type (A:=XA) P).
    set (q := fun i j => if (cell_type_0 P i j =? 1)%Z then p_qw0 P
                         else if (cell_type_0 P i j =? 0)%Z then fdiv (Arith:=XA) (p_qw0 P) (fz (Arith:=XA) 5) else fz (Arith:=XA) 0).
    assert (Eq : (fun i j => if (cell_type_0 P i j =? 1)%Z then a * p_qw0 P
                         else if (cell_type_0 P i j =? 0)%Z then fdiv (Arith:=XA) (a * p_qw0 P) (fz (Arith:=XA) 5) else fz (Arith:=XA) 0)
                 = scaled a q).
    { apply functional_extensionality; intro i. apply functional_extensionality; intro j. unfold q, scaled.
      destruct (_ =? 1)%Z; [reflexivity |]. destruct (_ =? 0)%Z; ra; [field | ring]. }
    assert (Ei : forall i j, (if (cell_type_0 P i j =? 1)%Z then a * p_qw0 P
                         else if (cell_type_0 P i j =? 0)%Z then fdiv (Arith:=XA) (a * p_qw0 P) (fz (Arith:=XA) 5) else fz (Arith:=XA) 0)
                 = a * (if (cell_type_0 P i j =? 1)%Z then p_qw0 P
                         else if (cell_type_0 P i j =? 0)%Z then fdiv (Arith:=XA) (p_qw0 P) (fz (Arith:=XA) 5) else fz (Arith:=XA) 0)).
    { intros i j. exact (f_equal (fun f => f i j) Eq). }
    f_equal. apply state_ext.
    - (* eta *) reflexivity.
    - (* eta0 *) reflexivity.
    - (* stage *) reflexivity.
    - (* depth *) reflexivity.
    - (* qx *) exact Eq.
    - (* qy *) gst; symmetry; apply scaled_0.
    - (* qw *) gst; apply functional_extensionality; intro i; apply functional_extensionality; intro j; unfold scaled; rewrite Ei; rewrite <- hypot_scale by assumption; f_equal; ra; ring.
    - (* qxn *) gst; symmetry; apply scaled_0.
    - (* qyn *) gst; symmetry; apply scaled_0.
    - (* qwn *) gst; symmetry; apply scaled_0.
    - (* ux *) gst; apply functional_extensionality; intro i; apply functional_extensionality; intro j; unfold scaled; rewrite Ei; destruct (fltb _ _); ra; unfold Rdiv; ring.
    - (* uy *) gst; apply functional_extensionality; intro i; apply functional_extensionality; intro j; unfold scaled; destruct (fltb _ _); ra; unfold Rdiv; ring.
    - (* uw *) gst; apply functional_extensionality; intro i; apply functional_extensionality; intro j; unfold scaled; rewrite Ei; destruct (fltb _ _); [| ra; ring]; change (fz (Arith:=XA) 0) with 0; rewrite hypot_0; ra; unfold Rdiv; ring.
    - (* qs *) gst; symmetry; apply scaled_0.
    - (* sand_frac *) reflexivity.
    - (* active_layer *) reflexivity.
    - (* Vp_dep_sand *) reflexivity.
    - (* Vp_dep_mud *) reflexivity.
    - (* mod_water_weight *) reflexivity.
    - (* mod_sed_weight *) reflexivity.
    - (* mod_erosion *) reflexivity.
    - (* sfc_visit *) reflexivity.
    - (* sfc_sum *) reflexivity.
    - (* Hnew *) reflexivity.
    - (* cf *) reflexivity.
    - (* cell_type *) reflexivity.
    - (* H_SL *) reflexivity.
    - (* time *) gst; unfold Rdiv; ra; ring.
    - (* time_iter *) reflexivity.
    - (* save_time_since_data *) reflexivity.
    - (* save_time_since_checkpoint *) reflexivity.
    - (* save_iter *) reflexivity.
    - (* width *) reflexivity.
    - (* rng *) reflexivity.
  Qed.

  Lemma subsidence_init_pace c P :
    init_subsidence (A:=XA) (pc c) (paced_params a b P) = paced_params a b (init_subsidence (A:=XA) c P).
  Proof.
    unfold init_subsidence. rewrite gp_toggle_subsidence, gp_L0, gp_dt, gi_subsidence_rate.
    destruct (p_toggle_subsidence P); [| reflexivity].
    match goal with |- setp_sigma ?x _ = paced_params _ _ (setp_sigma ?y _) => assert (E : x = y); [| rewrite E; reflexivity] end.
    apply functional_extensionality; intro i. apply functional_extensionality; intro j. ra. field. lra.
  Qed.

  (** ** Construction and runs *)
  Lemma routers_pace P : init_sediment_routers (paced_params a b P) = paced_params a b (init_sediment_routers P).
  Proof. destruct P. reflexivity. Qed.
  Lemma construct_pace c (nb : S) (np : N) : i_S0 c = 0 \/ a = 1 ->
    construct (A:=XA) (G:=G) (pc c) nb np
    = rmp (fun r => (paced_model a b (fst r), snd r)) (construct (A:=XA) (G:=G) c nb np).
  Proof.
    intros HS. unfold construct. rewrite process_pace.
    pose proof (process_spec (fun x => x) c) as HP.
    destruct (process_input_to_model (A:=XA) c) as [c1 | e]; cbn [rbind rmp]; [| reflexivity].
    destruct HP as [_ HP]. assert (HS1 : i_S0 c1 = 0 \/ a = 1) by (rewrite HP; exact HS). clear HP HS.
    rewrite seed_pace.
    assert (HS2 : i_S0 (fst (fst (determine_random_seed (G:=G) c1 np))) = 0 \/ a = 1).
    { unfold determine_random_seed. destruct (i_seed c1); [exact HS1 |]. destruct (randint np). exact HS1. }
    destruct (determine_random_seed (G:=G) c1 np) as [[c2 s] np1]. cbn [fst] in HS2.
    rewrite boundary_pace by assumption.
    destruct (create_boundary_conditions (A:=XA) c2 _) as [P2 | e]; cbn [rbind rmp]; [| reflexivity].
    rewrite domain_pace.
    destruct (create_domain (A:=XA) c2 P2 s) as [[P3 st] | e]; cbn [rbind rmp fst snd]; [| reflexivity].
    rewrite routers_pace, subsidence_init_pace. reflexivity.
  Qed.
  Lemma new_model_pace c (nb : S) (np : N) : i_S0 c = 0 \/ a = 1 ->
    new_model (A:=XA) (G:=G) (pc c) nb np
    = rmp (fun r => let '(m, o, np') := r in (paced_model a b m, map (paced_output a b) o, np'))
        (new_model (A:=XA) (G:=G) c nb np).
  Proof.
    intros HS. unfold new_model. rewrite construct_pace by assumption.
    destruct (construct (A:=XA) c nb np) as [[m np1] | e]; cbn [rbind rmp fst snd]; [| reflexivity].
    cbn [paced_model m_P m_st m_in]. rewrite paced_pacing, write_output_pace by assumption.
    destruct (write_output (A:=XA) (m_P m) (m_st m)) as [st o]. reflexivity.
  Qed.
  Lemma updates_paced P n (st : state R S) :
    updates (A:=XA) (paced_params a b P) n (paced a b st) = paced_result a b (updates (A:=XA) P n st).
  Proof.
    rewrite paced_pacing, updates_pace by assumption.
    destruct (updates (A:=XA) P n st) as [[st1 o] | e]; reflexivity.
  Qed.
  Lemma run_model_pace c (nb : S) (np : N) n : i_S0 c = 0 \/ a = 1 ->
    run_model (A:=XA) (G:=G) (GN:=GN) (pc c) nb np n = paced_result a b (run_model (A:=XA) (G:=G) (GN:=GN) c nb np n).
  Proof.
    intros HS. unfold run_model. rewrite new_model_pace by assumption.
    destruct (new_model (A:=XA) c nb np) as [[[m o] np1] | e]; cbn [rbind rmp]; [| reflexivity].
    cbn [paced_model m_P m_st]. rewrite updates_paced.
    destruct (updates (A:=XA) (m_P m) n (m_st m)) as [[st1 o1] | e]; cbn [rbind paced_result]; [| reflexivity].
    now rewrite map_app.
  Qed.

  (** ** Without subsidence its rate does not matter *)
  Lemma resolved_rate r c : resolved (fun x => x) (seti_subsidence_rate r c) = seti_subsidence_rate r (resolved (fun x => x) c).
  Proof. destruct c. reflexivity. Qed.
  Lemma accepted_rate r c : accepted (seti_subsidence_rate r c) <-> accepted c.
  Proof. split; intros H; destruct H; constructor; assumption. Qed.
  Lemma process_rate r c :
    process_input_to_model (A:=XA) (seti_subsidence_rate r c) = rmp (seti_subsidence_rate r) (process_input_to_model (A:=XA) c).
  Proof.
    pose proof (process_spec (fun x => x) c) as H1. pose proof (process_spec (fun x => x) (seti_subsidence_rate r c)) as H2.
    destruct (process_input_to_model (A:=XA) c) as [c1 | e1]; destruct (process_input_to_model (A:=XA) (seti_subsidence_rate r c)) as [c2 | e2]; cbn [rmp].
    - destruct H1 as [_ ->]. destruct H2 as [_ ->]. now rewrite resolved_rate.
    - destruct H1 as [K _]. destruct H2 as [_ K']. now rewrite accepted_rate in K'.
    - destruct H1 as [_ K]. destruct H2 as [K' _]. now rewrite accepted_rate in K'.
    - destruct H1 as [-> _]. destruct H2 as [-> _]. reflexivity.
  Qed.
  Lemma seed_rate r c (np : N) : determine_random_seed (G:=G) (seti_subsidence_rate r c) np
    = let '(c', s, np') := determine_random_seed (G:=G) c np in (seti_subsidence_rate r c', s, np').
  Proof.
    unfold determine_random_seed. change (i_seed (seti_subsidence_rate r c)) with (i_seed c).
    destruct (i_seed c); [reflexivity |]. destruct (randint np). destruct c. reflexivity.
  Qed.
  Lemma other_rate r c : create_other_variables (A:=XA) (seti_subsidence_rate r c) = create_other_variables (A:=XA) c.
  Proof. destruct c. reflexivity. Qed.
  Lemma boundary_rate r c P : create_boundary_conditions (A:=XA) (seti_subsidence_rate r c) P = create_boundary_conditions (A:=XA) c P.
  Proof. destruct c. reflexivity. Qed.
  Lemma domain_rate r c P (s : S) : create_domain (A:=XA) (seti_subsidence_rate r c) P s = create_domain (A:=XA) c P s.
  Proof. destruct c. reflexivity. Qed.
  Lemma boundary_toggle c P : create_boundary_conditions (A:=XA) c (create_other_variables (A:=XA) c) = Ok P ->
    p_toggle_subsidence P = i_toggle_subsidence c.
  Proof.
    pose proof (boundary_spec c (create_other_variables (A:=XA) c)) as H. cbn zeta in H. intros E. rewrite E in H.
    destruct H as (_ & _ & _ & _ & _ & _ & _ & _ & EP). rewrite EP. reflexivity.
  Qed.
  Lemma domain_toggle c P P1 (s : S) st : create_domain (A:=XA) c P s = Ok (P1, st) ->
    p_toggle_subsidence P1 = p_toggle_subsidence P.
  Proof.
    unfold create_domain. cbv zeta. destruct (_ <? 0)%Z; [discriminate |]. intros E.
    apply (f_equal (fun r => match r with Ok x => p_toggle_subsidence (fst x) | Err _ => p_toggle_subsidence P end)) in E.
    cbv beta iota in E. cbn [fst] in E. rewrite <- E. reflexivity.
  Qed.
  Lemma construct_rate r c (nb : S) (np : N) : i_toggle_subsidence c = false ->
    construct (A:=XA) (G:=G) (seti_subsidence_rate r c) nb np
    = rmp (fun x => (mkModel (seti_subsidence_rate r (m_in (fst x))) (m_P (fst x)) (m_st (fst x)) (m_finalized (fst x)), snd x))
        (construct (A:=XA) (G:=G) c nb np).
  Proof.
    intros HT. unfold construct. rewrite process_rate.
    pose proof (process_spec (fun x => x) c) as HP.
    destruct (process_input_to_model (A:=XA) c) as [c1 | e]; cbn [rbind rmp]; [| reflexivity].
    destruct HP as [_ HP]. assert (HT1 : i_toggle_subsidence c1 = false) by (rewrite HP; exact HT). clear HP HT.
    rewrite seed_rate.
    assert (HT2 : i_toggle_subsidence (fst (fst (determine_random_seed (G:=G) c1 np))) = false).
    { unfold determine_random_seed. destruct (i_seed c1); [exact HT1 |]. destruct (randint np). exact HT1. }
    destruct (determine_random_seed (G:=G) c1 np) as [[c2 s] np1]. cbn [fst] in HT2.
    rewrite other_rate, boundary_rate.
    destruct (create_boundary_conditions (A:=XA) c2 _) as [P2 | e] eqn:E2; cbn [rbind rmp]; [| reflexivity].
    apply boundary_toggle in E2. rewrite domain_rate.
    destruct (create_domain (A:=XA) c2 P2 s) as [[P3 st] | e] eqn:E3; cbn [rbind rmp fst snd]; [| reflexivity].
    apply domain_toggle in E3. cbn [m_in m_P m_st m_finalized].
    assert (E : p_toggle_subsidence (init_sediment_routers P3) = false).
    { transitivity (p_toggle_subsidence P3); [reflexivity |]. congruence. }
    unfold init_subsidence. rewrite E. reflexivity.
  Qed.
  Lemma run_rate r c (nb : S) (np : N) n : i_toggle_subsidence c = false ->
    run_model (A:=XA) (G:=G) (GN:=GN) (seti_subsidence_rate r c) nb np n = run_model (A:=XA) (G:=G) (GN:=GN) c nb np n.
  Proof.
    intros HT. unfold run_model, new_model. rewrite construct_rate by assumption.
    destruct (construct (A:=XA) c nb np) as [[m np1] | e]; cbn [rbind rmp fst snd m_P m_st m_in]; [| reflexivity].
    destruct (write_output (A:=XA) (m_P m) (m_st m)) as [st o]. reflexivity.
  Qed.
End Pace.
