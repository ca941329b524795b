(** Another pace: the routing of water (C83). *)
From Coq Require Import ZArith List Bool Reals Lra Lia FunctionalExtensionality.
From Flocq Require Import Core.
From Verif Require Import Base RLemmas Shared SharedSpec SharedProofs Params State Water Sed Iter VecLemmas
  WaterSpec WeightProofs WalkProofs RunProofs PaceSpec.
Import ListNotations.
Local Open Scope R_scope.

(** [paced] with another factor [n] on the two direction accumulators, which
    count parcels until the end of a water iteration. *)
Definition pacing {S} (a n b : R) (st : state R S) : state R S :=
  mkState (s_eta st)
    (s_eta0 st)
    (s_stage st)
    (s_depth st)
    (scaled a (s_qx st))
    (scaled a (s_qy st))
    (scaled a (s_qw st))
    (scaled n (s_qxn st))
    (scaled n (s_qyn st))
    (scaled a (s_qwn st))
    (scaled a (s_ux st))
    (scaled a (s_uy st))
    (scaled a (s_uw st))
    (scaled b (s_qs st))
    (s_sand_frac st)
    (s_active_layer st)
    (s_Vp_dep_sand st)
    (s_Vp_dep_mud st)
    (s_mod_water_weight st)
    (s_mod_sed_weight st)
    (s_mod_erosion st)
    (s_sfc_visit st)
    (s_sfc_sum st)
    (s_Hnew st)
    (s_cf st)
    (s_cell_type st)
    (s_H_SL st)
    (s_time st / b)
    (s_time_iter st)
    (sooner b (s_save_time_since_data st))
    (sooner b (s_save_time_since_checkpoint st))
    (s_save_iter st)
    (s_width st)
    (s_rng st).

Lemma paced_pacing {S} a b (st : state R S) : paced a b st = pacing a a b st.
Proof. reflexivity. Qed.

Section Get.
  Context {S : Type} (a n b : R) (st : state R S).
  Lemma gs_eta : s_eta (pacing a n b st) = s_eta st.
  Proof. reflexivity. Qed.
  Lemma gs_eta0 : s_eta0 (pacing a n b st) = s_eta0 st.
  Proof. reflexivity. Qed.
  Lemma gs_stage : s_stage (pacing a n b st) = s_stage st.
  Proof. reflexivity. Qed.
  Lemma gs_depth : s_depth (pacing a n b st) = s_depth st.
  Proof. reflexivity. Qed.
  Lemma gs_qx : s_qx (pacing a n b st) = scaled a (s_qx st).
  Proof. reflexivity. Qed.
  Lemma gs_qy : s_qy (pacing a n b st) = scaled a (s_qy st).
  Proof. reflexivity. Qed.
  Lemma gs_qw : s_qw (pacing a n b st) = scaled a (s_qw st).
  Proof. reflexivity. Qed.
  Lemma gs_qxn : s_qxn (pacing a n b st) = scaled n (s_qxn st).
  Proof. reflexivity. Qed.
  Lemma gs_qyn : s_qyn (pacing a n b st) = scaled n (s_qyn st).
  Proof. reflexivity. Qed.
  Lemma gs_qwn : s_qwn (pacing a n b st) = scaled a (s_qwn st).
  Proof. reflexivity. Qed.
  Lemma gs_ux : s_ux (pacing a n b st) = scaled a (s_ux st).
  Proof. reflexivity. Qed.
  Lemma gs_uy : s_uy (pacing a n b st) = scaled a (s_uy st).
  Proof. reflexivity. Qed.
  Lemma gs_uw : s_uw (pacing a n b st) = scaled a (s_uw st).
  Proof. reflexivity. Qed.
  Lemma gs_qs : s_qs (pacing a n b st) = scaled b (s_qs st).
  Proof. reflexivity. Qed.
  Lemma gs_sand_frac : s_sand_frac (pacing a n b st) = s_sand_frac st.
  Proof. reflexivity. Qed.
  Lemma gs_active_layer : s_active_layer (pacing a n b st) = s_active_layer st.
  Proof. reflexivity. Qed.
  Lemma gs_Vp_dep_sand : s_Vp_dep_sand (pacing a n b st) = s_Vp_dep_sand st.
  Proof. reflexivity. Qed.
  Lemma gs_Vp_dep_mud : s_Vp_dep_mud (pacing a n b st) = s_Vp_dep_mud st.
  Proof. reflexivity. Qed.
  Lemma gs_mod_water_weight : s_mod_water_weight (pacing a n b st) = s_mod_water_weight st.
  Proof. reflexivity. Qed.
  Lemma gs_mod_sed_weight : s_mod_sed_weight (pacing a n b st) = s_mod_sed_weight st.
  Proof. reflexivity. Qed.
  Lemma gs_mod_erosion : s_mod_erosion (pacing a n b st) = s_mod_erosion st.
  Proof. reflexivity. Qed.
  Lemma gs_sfc_visit : s_sfc_visit (pacing a n b st) = s_sfc_visit st.
  Proof. reflexivity. Qed.
  Lemma gs_sfc_sum : s_sfc_sum (pacing a n b st) = s_sfc_sum st.
  Proof. reflexivity. Qed.
  Lemma gs_Hnew : s_Hnew (pacing a n b st) = s_Hnew st.
  Proof. reflexivity. Qed.
  Lemma gs_cf : s_cf (pacing a n b st) = s_cf st.
  Proof. reflexivity. Qed.
  Lemma gs_cell_type : s_cell_type (pacing a n b st) = s_cell_type st.
  Proof. reflexivity. Qed.
  Lemma gs_H_SL : s_H_SL (pacing a n b st) = s_H_SL st.
  Proof. reflexivity. Qed.
  Lemma gs_time : s_time (pacing a n b st) = s_time st / b.
  Proof. reflexivity. Qed.
  Lemma gs_time_iter : s_time_iter (pacing a n b st) = s_time_iter st.
  Proof. reflexivity. Qed.
  Lemma gs_save_time_since_data : s_save_time_since_data (pacing a n b st) = sooner b (s_save_time_since_data st).
  Proof. reflexivity. Qed.
  Lemma gs_save_time_since_checkpoint : s_save_time_since_checkpoint (pacing a n b st) = sooner b (s_save_time_since_checkpoint st).
  Proof. reflexivity. Qed.
  Lemma gs_save_iter : s_save_iter (pacing a n b st) = s_save_iter st.
  Proof. reflexivity. Qed.
  Lemma gs_width : s_width (pacing a n b st) = s_width st.
  Proof. reflexivity. Qed.
  Lemma gs_rng : s_rng (pacing a n b st) = s_rng st.
  Proof. reflexivity. Qed.
  Lemma ps_eta x : pacing a n b (set_eta x st) = set_eta x (pacing a n b st).
  Proof. reflexivity. Qed.
  Lemma ps_eta0 x : pacing a n b (set_eta0 x st) = set_eta0 x (pacing a n b st).
  Proof. reflexivity. Qed.
  Lemma ps_stage x : pacing a n b (set_stage x st) = set_stage x (pacing a n b st).
  Proof. reflexivity. Qed.
  Lemma ps_depth x : pacing a n b (set_depth x st) = set_depth x (pacing a n b st).
  Proof. reflexivity. Qed.
  Lemma ps_qx x : pacing a n b (set_qx x st) = set_qx (scaled a x) (pacing a n b st).
  Proof. reflexivity. Qed.
  Lemma ps_qy x : pacing a n b (set_qy x st) = set_qy (scaled a x) (pacing a n b st).
  Proof. reflexivity. Qed.
  Lemma ps_qw x : pacing a n b (set_qw x st) = set_qw (scaled a x) (pacing a n b st).
  Proof. reflexivity. Qed.
  Lemma ps_qxn x : pacing a n b (set_qxn x st) = set_qxn (scaled n x) (pacing a n b st).
  Proof. reflexivity. Qed.
  Lemma ps_qyn x : pacing a n b (set_qyn x st) = set_qyn (scaled n x) (pacing a n b st).
  Proof. reflexivity. Qed.
  Lemma ps_qwn x : pacing a n b (set_qwn x st) = set_qwn (scaled a x) (pacing a n b st).
  Proof. reflexivity. Qed.
  Lemma ps_ux x : pacing a n b (set_ux x st) = set_ux (scaled a x) (pacing a n b st).
  Proof. reflexivity. Qed.
  Lemma ps_uy x : pacing a n b (set_uy x st) = set_uy (scaled a x) (pacing a n b st).
  Proof. reflexivity. Qed.
  Lemma ps_uw x : pacing a n b (set_uw x st) = set_uw (scaled a x) (pacing a n b st).
  Proof. reflexivity. Qed.
  Lemma ps_qs x : pacing a n b (set_qs x st) = set_qs (scaled b x) (pacing a n b st).
  Proof. reflexivity. Qed.
  Lemma ps_sand_frac x : pacing a n b (set_sand_frac x st) = set_sand_frac x (pacing a n b st).
  Proof. reflexivity. Qed.
  Lemma ps_active_layer x : pacing a n b (set_active_layer x st) = set_active_layer x (pacing a n b st).
  Proof. reflexivity. Qed.
  Lemma ps_Vp_dep_sand x : pacing a n b (set_Vp_dep_sand x st) = set_Vp_dep_sand x (pacing a n b st).
  Proof. reflexivity. Qed.
  Lemma ps_Vp_dep_mud x : pacing a n b (set_Vp_dep_mud x st) = set_Vp_dep_mud x (pacing a n b st).
  Proof. reflexivity. Qed.
  Lemma ps_mod_water_weight x : pacing a n b (set_mod_water_weight x st) = set_mod_water_weight x (pacing a n b st).
  Proof. reflexivity. Qed.
  Lemma ps_mod_sed_weight x : pacing a n b (set_mod_sed_weight x st) = set_mod_sed_weight x (pacing a n b st).
  Proof. reflexivity. Qed.
  Lemma ps_mod_erosion x : pacing a n b (set_mod_erosion x st) = set_mod_erosion x (pacing a n b st).
  Proof. reflexivity. Qed.
  Lemma ps_sfc_visit x : pacing a n b (set_sfc_visit x st) = set_sfc_visit x (pacing a n b st).
  Proof. reflexivity. Qed.
  Lemma ps_sfc_sum x : pacing a n b (set_sfc_sum x st) = set_sfc_sum x (pacing a n b st).
  Proof. reflexivity. Qed.
  Lemma ps_Hnew x : pacing a n b (set_Hnew x st) = set_Hnew x (pacing a n b st).
  Proof. reflexivity. Qed.
  Lemma ps_cf x : pacing a n b (set_cf x st) = set_cf x (pacing a n b st).
  Proof. reflexivity. Qed.
  Lemma ps_cell_type x : pacing a n b (set_cell_type x st) = set_cell_type x (pacing a n b st).
  Proof. reflexivity. Qed.
  Lemma ps_H_SL x : pacing a n b (set_H_SL x st) = set_H_SL x (pacing a n b st).
  Proof. reflexivity. Qed.
  Lemma ps_time x : pacing a n b (set_time x st) = set_time (x / b) (pacing a n b st).
  Proof. reflexivity. Qed.
  Lemma ps_time_iter x : pacing a n b (set_time_iter x st) = set_time_iter x (pacing a n b st).
  Proof. reflexivity. Qed.
  Lemma ps_save_time_since_data x : pacing a n b (set_save_time_since_data x st) = set_save_time_since_data (sooner b x) (pacing a n b st).
  Proof. reflexivity. Qed.
  Lemma ps_save_time_since_checkpoint x : pacing a n b (set_save_time_since_checkpoint x st) = set_save_time_since_checkpoint (sooner b x) (pacing a n b st).
  Proof. reflexivity. Qed.
  Lemma ps_save_iter x : pacing a n b (set_save_iter x st) = set_save_iter x (pacing a n b st).
  Proof. reflexivity. Qed.
  Lemma ps_width x : pacing a n b (set_width x st) = set_width x (pacing a n b st).
  Proof. reflexivity. Qed.
  Lemma ps_rng x : pacing a n b (set_rng x st) = set_rng x (pacing a n b st).
  Proof. reflexivity. Qed.
End Get.
#[global] Hint Rewrite @gs_eta @gs_eta0 @gs_stage @gs_depth @gs_qx @gs_qy @gs_qw @gs_qxn @gs_qyn @gs_qwn @gs_ux @gs_uy @gs_uw @gs_qs @gs_sand_frac @gs_active_layer @gs_Vp_dep_sand @gs_Vp_dep_mud @gs_mod_water_weight @gs_mod_sed_weight @gs_mod_erosion @gs_sfc_visit @gs_sfc_sum @gs_Hnew @gs_cf @gs_cell_type @gs_H_SL @gs_time @gs_time_iter @gs_save_time_since_data @gs_save_time_since_checkpoint @gs_save_iter @gs_width @gs_rng : gs.
#[global] Hint Rewrite @ps_eta @ps_eta0 @ps_stage @ps_depth @ps_qx @ps_qy @ps_qw @ps_qxn @ps_qyn @ps_qwn @ps_ux @ps_uy @ps_uw @ps_qs @ps_sand_frac @ps_active_layer @ps_Vp_dep_sand @ps_Vp_dep_mud @ps_mod_water_weight @ps_mod_sed_weight @ps_mod_erosion @ps_sfc_visit @ps_sfc_sum @ps_Hnew @ps_cf @ps_cell_type @ps_H_SL @ps_time @ps_time_iter @ps_save_time_since_data @ps_save_time_since_checkpoint @ps_save_iter @ps_width @ps_rng : ps.

Section GetP.
  Context (a b : R) (P : params R).
  Lemma gp_L : p_L (paced_params a b P) = p_L P.
  Proof. reflexivity. Qed.
  Lemma gp_W : p_W (paced_params a b P) = p_W P.
  Proof. reflexivity. Qed.
  Lemma gp_CTR : p_CTR (paced_params a b P) = p_CTR P.
  Proof. reflexivity. Qed.
  Lemma gp_L0 : p_L0 (paced_params a b P) = p_L0 P.
  Proof. reflexivity. Qed.
  Lemma gp_N0 : p_N0 (paced_params a b P) = p_N0 P.
  Proof. reflexivity. Qed.
  Lemma gp_inlet : p_inlet (paced_params a b P) = p_inlet P.
  Proof. reflexivity. Qed.
  Lemma gp_dx : p_dx (paced_params a b P) = p_dx P.
  Proof. reflexivity. Qed.
  Lemma gp_h0 : p_h0 (paced_params a b P) = p_h0 P.
  Proof. reflexivity. Qed.
  Lemma gp_hb : p_hb (paced_params a b P) = p_hb P.
  Proof. reflexivity. Qed.
  Lemma gp_u0 : p_u0 (paced_params a b P) = a * p_u0 P.
  Proof. reflexivity. Qed.
  Lemma gp_S0 : p_S0 (paced_params a b P) = p_S0 P.
  Proof. reflexivity. Qed.
  Lemma gp_u_max : p_u_max (paced_params a b P) = a * p_u_max P.
  Proof. reflexivity. Qed.
  Lemma gp_C0 : p_C0 (paced_params a b P) = b / a * p_C0 P.
  Proof. reflexivity. Qed.
  Lemma gp_dry_depth : p_dry_depth (paced_params a b P) = p_dry_depth P.
  Proof. reflexivity. Qed.
  Lemma gp_gamma : p_gamma (paced_params a b P) = p_gamma P.
  Proof. reflexivity. Qed.
  Lemma gp_V0 : p_V0 (paced_params a b P) = p_V0 P.
  Proof. reflexivity. Qed.
  Lemma gp_Qw0 : p_Qw0 (paced_params a b P) = a * p_Qw0 P.
  Proof. reflexivity. Qed.
  Lemma gp_qw0 : p_qw0 (paced_params a b P) = a * p_qw0 P.
  Proof. reflexivity. Qed.
  Lemma gp_Qp_water : p_Qp_water (paced_params a b P) = a * p_Qp_water P.
  Proof. reflexivity. Qed.
  Lemma gp_qs0 : p_qs0 (paced_params a b P) = b * p_qs0 P.
  Proof. reflexivity. Qed.
  Lemma gp_dVs : p_dVs (paced_params a b P) = p_dVs P.
  Proof. reflexivity. Qed.
  Lemma gp_Qs0 : p_Qs0 (paced_params a b P) = b * p_Qs0 P.
  Proof. reflexivity. Qed.
  Lemma gp_Vp_sed : p_Vp_sed (paced_params a b P) = p_Vp_sed P.
  Proof. reflexivity. Qed.
  Lemma gp_stepmax : p_stepmax (paced_params a b P) = p_stepmax P.
  Proof. reflexivity. Qed.
  Lemma gp_dt : p_dt (paced_params a b P) = p_dt P / b.
  Proof. reflexivity. Qed.
  Lemma gp_omega_flow_iter : p_omega_flow_iter (paced_params a b P) = p_omega_flow_iter P.
  Proof. reflexivity. Qed.
  Lemma gp_N_crossdiff : p_N_crossdiff (paced_params a b P) = p_N_crossdiff P.
  Proof. reflexivity. Qed.
  Lemma gp_lambda : p_lambda (paced_params a b P) = p_lambda P.
  Proof. reflexivity. Qed.
  Lemma gp_diffusion_multiplier : p_diffusion_multiplier (paced_params a b P) = p_diffusion_multiplier P / b.
  Proof. reflexivity. Qed.
  Lemma gp_theta_water : p_theta_water (paced_params a b P) = p_theta_water P.
  Proof. reflexivity. Qed.
  Lemma gp_theta_sand : p_theta_sand (paced_params a b P) = p_theta_sand P.
  Proof. reflexivity. Qed.
  Lemma gp_theta_mud : p_theta_mud (paced_params a b P) = p_theta_mud P.
  Proof. reflexivity. Qed.
  Lemma gp_U_dep_mud : p_U_dep_mud (paced_params a b P) = a * p_U_dep_mud P.
  Proof. reflexivity. Qed.
  Lemma gp_U_ero_sand : p_U_ero_sand (paced_params a b P) = a * p_U_ero_sand P.
  Proof. reflexivity. Qed.
  Lemma gp_U_ero_mud : p_U_ero_mud (paced_params a b P) = a * p_U_ero_mud P.
  Proof. reflexivity. Qed.
  Lemma gp_itermax : p_itermax (paced_params a b P) = p_itermax P.
  Proof. reflexivity. Qed.
  Lemma gp_Np_water : p_Np_water (paced_params a b P) = p_Np_water P.
  Proof. reflexivity. Qed.
  Lemma gp_Np_sed : p_Np_sed (paced_params a b P) = p_Np_sed P.
  Proof. reflexivity. Qed.
  Lemma gp_f_bedload : p_f_bedload (paced_params a b P) = p_f_bedload P.
  Proof. reflexivity. Qed.
  Lemma gp_f_bedload_router : p_f_bedload_router (paced_params a b P) = p_f_bedload_router P.
  Proof. reflexivity. Qed.
  Lemma gp_beta : p_beta (paced_params a b P) = p_beta P.
  Proof. reflexivity. Qed.
  Lemma gp_omega_sfc : p_omega_sfc (paced_params a b P) = p_omega_sfc P.
  Proof. reflexivity. Qed.
  Lemma gp_omega_flow : p_omega_flow (paced_params a b P) = p_omega_flow P.
  Proof. reflexivity. Qed.
  Lemma gp_Nsmooth : p_Nsmooth (paced_params a b P) = p_Nsmooth P.
  Proof. reflexivity. Qed.
  Lemma gp_Csmooth : p_Csmooth (paced_params a b P) = p_Csmooth P.
  Proof. reflexivity. Qed.
  Lemma gp_SLR : p_SLR (paced_params a b P) = b * p_SLR P.
  Proof. reflexivity. Qed.
  Lemma gp_sand_frac_bc : p_sand_frac_bc (paced_params a b P) = p_sand_frac_bc P.
  Proof. reflexivity. Qed.
  Lemma gp_active_layer_thickness : p_active_layer_thickness (paced_params a b P) = p_active_layer_thickness P.
  Proof. reflexivity. Qed.
  Lemma gp_toggle_subsidence : p_toggle_subsidence (paced_params a b P) = p_toggle_subsidence P.
  Proof. reflexivity. Qed.
  Lemma gp_start_subsidence : p_start_subsidence (paced_params a b P) = p_start_subsidence P / b.
  Proof. reflexivity. Qed.
  Lemma gp_sigma : p_sigma (paced_params a b P) = p_sigma P.
  Proof. reflexivity. Qed.
  Lemma gp_save_dt : p_save_dt (paced_params a b P) = p_save_dt P / b.
  Proof. reflexivity. Qed.
  Lemma gp_checkpoint_dt : p_checkpoint_dt (paced_params a b P) = p_checkpoint_dt P / b.
  Proof. reflexivity. Qed.
  Lemma gp_save_checkpoint : p_save_checkpoint (paced_params a b P) = p_save_checkpoint P.
  Proof. reflexivity. Qed.
End GetP.
#[global] Hint Rewrite gp_L gp_W gp_CTR gp_L0 gp_N0 gp_inlet gp_dx gp_h0 gp_hb gp_u0 gp_S0 gp_u_max gp_C0 gp_dry_depth gp_gamma gp_V0 gp_Qw0 gp_qw0 gp_Qp_water gp_qs0 gp_dVs gp_Qs0 gp_Vp_sed gp_stepmax gp_dt gp_omega_flow_iter gp_N_crossdiff gp_lambda gp_diffusion_multiplier gp_theta_water gp_theta_sand gp_theta_mud gp_U_dep_mud gp_U_ero_sand gp_U_ero_mud gp_itermax gp_Np_water gp_Np_sed gp_f_bedload gp_f_bedload_router gp_beta gp_omega_sfc gp_omega_flow gp_Nsmooth gp_Csmooth gp_SLR gp_sand_frac_bc gp_active_layer_thickness gp_toggle_subsidence gp_start_subsidence gp_sigma gp_save_dt gp_checkpoint_dt gp_save_checkpoint : gp.

(** ** Factors *)
Lemma Rltb_scale c x y : 0 < c -> Rltb (c * x) (c * y) = Rltb x y.
Proof.
  intros Hc. destruct (Rltb_spec x y) as [K | K]; destruct (Rltb_spec (c * x) (c * y)) as [K' | K']; auto; exfalso.
  - apply K'. apply Rmult_lt_compat_l; auto.
  - apply K. apply (Rmult_lt_reg_l c); auto.
Qed.
Lemma Rltb_scale0 c x : 0 < c -> Rltb 0 (c * x) = Rltb 0 x.
Proof. intros Hc. rewrite <- (Rltb_scale c 0 x Hc). now rewrite Rmult_0_r. Qed.
Lemma Rleb_div c x y : 0 < c -> Rleb (x / c) (y / c) = Rleb x y.
Proof.
  intros Hc. assert (Hi := Rinv_0_lt_compat c Hc). unfold Rdiv.
  destruct (Rleb_spec x y) as [K | K]; destruct (Rleb_spec (x * / c) (y * / c)) as [K' | K']; auto; exfalso.
  - apply K'. apply Rmult_le_compat_r; lra.
  - apply K. apply (Rmult_le_reg_r (/ c)); auto.
Qed.
Lemma Reqb_scale c x : c <> 0 -> Reqb (c * x) 0 = Reqb x 0.
Proof.
  intros Hc. destruct (Reqb_spec x 0) as [K | K]; destruct (Reqb_spec (c * x) 0) as [K' | K']; auto; exfalso.
  - apply K'. rewrite K. ring.
  - apply Rmult_integral in K'. destruct K'; auto.
Qed.
Lemma Reqb_div c x : c <> 0 -> Reqb (x / c) 0 = Reqb x 0.
Proof.
  intros Hc. unfold Rdiv. rewrite Rmult_comm. apply Reqb_scale. now apply Rinv_neq_0_compat.
Qed.
Lemma npmin_scale c x y : 0 < c ->
  npmin (A:=RA (fun x => x)) (c * x) (c * y) = c * npmin (A:=RA (fun x => x)) x y.
Proof.
  intros Hc. unfold npmin, fmin. ra. cbn [orb]. rewrite (Rltb_scale c y x Hc). now destruct (Rltb y x).
Qed.
Lemma npmax_scale0 c x : 0 < c ->
  npmax (A:=RA (fun x => x)) 0 (c * x) = c * npmax (A:=RA (fun x => x)) 0 x.
Proof.
  intros Hc. rewrite !(npmax_R (fun x => x)). destruct (Rle_dec 0 x) as [K | K].
  - rewrite !Rmax_right; auto. apply Rmult_le_pos; lra.
  - rewrite !Rmax_left; try lra. apply Rlt_le in Hc. assert (0 <= c * - x) by (apply Rmult_le_pos; lra). lra.
Qed.
Lemma npow_scale c x y : 0 < c -> npow (c * x) y = npow c y * npow x y.
Proof.
  intros Hc. unfold npow. destruct (Req_EM_T c 0) as [K | _]; [lra |].
  destruct (Rlt_dec 0 c) as [_ | K]; [| lra].
  destruct (Req_EM_T x 0) as [K | K].
  - destruct (Req_EM_T (c * x) 0) as [_ | K']; [| exfalso; apply K'; rewrite K; ring].
    destruct (Req_EM_T y 0) as [K2 | _]; [| ring].
    rewrite K2, Rpower_O by assumption. ring.
  - destruct (Req_EM_T (c * x) 0) as [K' | _].
    { exfalso. apply Rmult_integral in K'. destruct K'; lra. }
    destruct (Rlt_dec 0 x) as [K2 | K2].
    + destruct (Rlt_dec 0 (c * x)) as [_ | K3]; [| exfalso; apply K3; now apply Rmult_lt_0_compat].
      symmetry. now apply Rpower_mult_distr.
    + destruct (Rlt_dec 0 (c * x)) as [K3 | _]; [| ring].
      exfalso. apply K2. apply (Rmult_lt_reg_l c); lra.
Qed.
Lemma npow_pos c y : 0 < c -> 0 < npow c y.
Proof.
  intros Hc. unfold npow. destruct (Req_EM_T c 0) as [K | _]; [lra |].
  destruct (Rlt_dec 0 c) as [_ | K]; [| lra]. apply exp_pos.
Qed.
Lemma hypot_scale c x y : 0 < c ->
  hypot (A:=RA (fun x => x)) (c * x) (c * y) = c * hypot (A:=RA (fun x => x)) x y.
Proof.
  intros Hc. unfold hypot. ra.
  replace (c * x * (c * x) + c * y * (c * y)) with (c * c * (x * x + y * y)) by ring.
  rewrite sqrt_mult_alt by nra. now rewrite sqrt_square by lra.
Qed.
Definition rmp {T U} (f : T -> U) (r : result T) : result U :=
  match r with Ok x => Ok (f x) | Err e => Err e end.
Lemma rmap_bind {T U V} (f : T -> U) (r : result T) (k : U -> result V) :
  rbind (rmp f r) k = rbind r (fun x => k (f x)).
Proof. now destruct r. Qed.
Lemma rmap_rbind {T U V} (f : U -> V) (r : result T) (k : T -> result U) :
  rmp f (rbind r k) = rbind r (fun x => rmp f (k x)).
Proof. now destruct r. Qed.
Lemma rbind_ext {T U} (r : result T) (f g : T -> result U) :
  (forall x, f x = g x) -> rbind r f = rbind r g.
Proof. intros H. destruct r; cbn [rbind]; auto. Qed.

Notation XA := (RA (fun x => x)).

(** ** Weights *)
Lemma get_weight_int_scale c qx qy : 0 < c ->
  get_weight_int (A:=XA) (c * qx) (c * qy) = fun k => c * get_weight_int (A:=XA) qx qy k.
Proof.
  intros Hc. apply functional_extensionality; intro k. unfold get_weight_int.
  rewrite <- npmax_scale0 by assumption. f_equal. ra. unfold Rdiv. ring.
Qed.
Lemma get_weight_int_nonneg qx qy k : 0 <= get_weight_int (A:=XA) qx qy k.
Proof. unfold get_weight_int. rewrite (npmax_R (fun x => x)). apply Rmax_l. Qed.

Lemma clear_dirs_scale c (v : vec R) m :
  clear_dirs (A:=XA) (fun k => c * v k) m = fun k => c * clear_dirs (A:=XA) v m k.
Proof.
  apply functional_extensionality; intro k. unfold clear_dirs, vset. ra.
  destruct (isctr k); [ring |]. destruct (m k); [ring | reflexivity].
Qed.
Lemma clear_dirs_nonneg (v : vec R) m k : (forall k, 0 <= v k) -> 0 <= clear_dirs (A:=XA) v m k.
Proof. intros H. unfold clear_dirs, vset. ra. destruct (isctr k); [lra |]. destruct (m k); [lra | apply H]. Qed.

Lemma vsum_scale c (v : vec R) : vsum (A:=XA) (fun k => c * v k) = c * vsum (A:=XA) v.
Proof. unfold vsum, D9. cbn [seq map fold_left]. ra. ring. Qed.

Lemma rebalance_scale c (v : vec R) : 0 < c -> (forall k, 0 <= v k) -> (forall k, ~ (k < 9)%nat -> v k = 0) ->
  rebalance (A:=XA) (fun k => c * v k) = rebalance (A:=XA) v.
Proof.
  intros Hc Hv H9. unfold rebalance. rewrite vsum_scale. ra. rewrite Rltb_scale0 by assumption.
  destruct (Rltb_spec 0 (vsum (A:=XA) v)) as [K | K].
  - rewrite !vmemo_id. apply functional_extensionality; intro k. field. split; lra.
  - apply functional_extensionality; intro k. 
    assert (v k = 0) as E; [| rewrite E; ring].
    destruct (Nat.ltb_spec k 9) as [K9 | K9]; [| apply H9; lia].
    unfold vsum, D9 in K. cbn [seq fold_left] in K. ra_in K.
    pose proof (Hv 0%nat). pose proof (Hv 1%nat). pose proof (Hv 2%nat). pose proof (Hv 3%nat). pose proof (Hv 4%nat).
    pose proof (Hv 5%nat). pose proof (Hv 6%nat). pose proof (Hv 7%nat). pose proof (Hv 8%nat).
    do 9 (destruct k as [| k]; [lra |]). lia.
Qed.

Lemma get_weight_int_9 qx qy k : ~ (k < 9)%nat -> get_weight_int (A:=XA) qx qy k = 0.
Proof.
  intros K. unfold get_weight_int, jvec_flat, ivec_flat.
  rewrite !(nth_overflow _ (fz (Arith:=XA) 0)) by (cbn; lia). rewrite (npmax_R (fun x => x)). ra.
  replace ((qx * 0 + qy * 0) / distances_flat (A:=XA) k) with 0 by (unfold Rdiv; ring). apply Rmax_left; lra.
Qed.

Section Pace.
  Context {S : Type} {G : Rng R S} (a b : R) (Ha : 0 < a) (Hb : 0 < b) (P : params R).
  Local Notation L := (p_L P).
  Local Notation W := (p_W P).
  Local Notation PP := (paced_params a b P).

  Lemma water_weight_cell_pace depth stage mw ct qx qy i j :
    water_weight_cell (A:=XA) PP depth stage mw ct (scaled a qx) (scaled a qy) i j
    = water_weight_cell (A:=XA) P depth stage mw ct qx qy i j.
  Proof.
    unfold water_weight_cell. autorewrite with gp. unfold scaled. rewrite get_weight_int_scale by assumption.
    rewrite !vmemo_id. unfold get_weight_at_cell_water. rewrite clear_dirs_scale.
    rewrite rebalance_scale; auto.
    - intros k. apply clear_dirs_nonneg. intros; apply get_weight_int_nonneg.
    - intros k Hk. unfold clear_dirs, vset. rewrite get_weight_int_9 by assumption. ra.
      destruct (isctr k); auto. now destruct (_ || _).
  Qed.
  Lemma water_weight_array_pace depth stage mw ct qx qy :
    get_water_weight_array (A:=XA) PP depth stage mw ct (scaled a qx) (scaled a qy)
    = get_water_weight_array (A:=XA) P depth stage mw ct qx qy.
  Proof.
    unfold get_water_weight_array. autorewrite with gp.
    replace (water_weight_cell (A:=XA) PP depth stage mw ct (scaled a qx) (scaled a qy))
      with (water_weight_cell (A:=XA) P depth stage mw ct qx qy); [reflexivity |].
    apply functional_extensionality; intro i. apply functional_extensionality; intro j.
    symmetry. apply water_weight_cell_pace.
  Qed.

  (** ** Parcels *)
  Definition fscaled (q : Z -> R) : Z -> R := fun m => a * q m.
  Lemma fset_scaled q m x : fset (fscaled q) m (a * x) = fscaled (fset q m x).
  Proof. apply functional_extensionality; intro k. unfold fset, fscaled. now destruct (_ =? _)%Z. Qed.
  Lemma half_flux_pace : half_flux (A:=XA) PP = a * half_flux (A:=XA) P.
  Proof. unfold half_flux. autorewrite with gp. ra. unfold Rdiv. ring. Qed.
  Lemma update_dirQfield_pace q ix stp ps :
    update_dirQfield (A:=XA) PP q ix stp ps = update_dirQfield (A:=XA) P q ix stp ps.
  Proof. reflexivity. Qed.
  Lemma flat_pace m : flat_ix PP m = flat_ix P m.
  Proof. reflexivity. Qed.
  Lemma update_absQfield_pace ix ps : forall q,
    update_absQfield (A:=XA) PP (fscaled q) ix ps = rmp fscaled (update_absQfield (A:=XA) P q ix ps).
  Proof.
    induction ps as [| p ps IH]; intros q; cbn [update_absQfield]; [reflexivity |].
    destruct (get_steps (A:=XA) (dir p)) as [[[d i] j] s]. destruct s; [| apply IH].
    rewrite flat_pace.
    destruct (flat_ix P (ix p)) as [m | e]; cbn [rbind rmp]; [| reflexivity].
    rewrite half_flux_pace. unfold fscaled at 2. ra.
    replace (a * q m + a * half_flux (A:=XA) P) with (a * (q m + half_flux (A:=XA) P)) by ring.
    rewrite fset_scaled. apply IH.
  Qed.
  Definition qpace (q : qfields (F:=R)) : qfields (F:=R) := let '(x, y, w) := q in (x, y, fscaled w).
  Lemma update_Q_pace q ix ps :
    update_Q (A:=XA) PP (qpace q) ix ps = rmp qpace (update_Q (A:=XA) P q ix ps).
  Proof.
    destruct q as [[x y] w]. cbn [qpace]. unfold update_Q.
    rewrite !update_dirQfield_pace. rewrite update_absQfield_pace.
    destruct (update_dirQfield (A:=XA) P x ix jwalk_flat ps) as [x' | e]; cbn [rbind rmp]; [| reflexivity].
    destruct (update_dirQfield (A:=XA) P y ix iwalk_flat ps) as [y' | e]; cbn [rbind rmp]; [| reflexivity].
    destruct (update_absQfield (A:=XA) P w ix ps) as [w' | e]; cbn [rbind rmp]; [| reflexivity].
    cbn [qpace]. now rewrite !fmemo_id.
  Qed.

  Lemma choose_pace weights ps s :
    choose_next_directions (A:=XA) PP weights ps s = choose_next_directions (A:=XA) P weights ps s.
  Proof. reflexivity. Qed.
  Lemma new_inds_pace ps : calculate_new_inds PP ps = calculate_new_inds P ps.
  Proof. reflexivity. Qed.
  Lemma size_pace w step : check_size_of_indices_matrix PP w step = check_size_of_indices_matrix P w step.
  Proof. reflexivity. Qed.
  Lemma relocate_pace o x y : relocate (A:=XA) PP o x y = relocate (A:=XA) P o x y.
  Proof. reflexivity. Qed.
  Lemma check_from_pace stage H ps : forall o,
    check_loops_from (A:=XA) PP stage H o ps = check_loops_from (A:=XA) P stage H o ps.
  Proof.
    induction ps as [| p ps IH]; intros o; cbn [check_loops_from]; [reflexivity |].
    autorewrite with gp. destruct (_ && _).
    - apply rbind_ext; intros [px0 py0]. rewrite relocate_pace. apply rbind_ext; intros [px py].
      apply rbind_ext; intros m. now rewrite IH.
    - now rewrite IH.
  Qed.
  Lemma check_for_loops_pace stage H step ps :
    check_for_loops (A:=XA) PP stage H step ps = check_for_loops (A:=XA) P stage H step ps.
  Proof. unfold check_for_loops. autorewrite with gp. now rewrite check_from_pace. Qed.
  Lemma record_pace ct ps : mapM (record_step PP ct) ps = mapM (record_step P ct) ps.
  Proof. reflexivity. Qed.

  Definition lpace (st : list parcel * qfields (F:=R) * Z * S) : list parcel * qfields (F:=R) * Z * S :=
    let '(ps, q, w, s) := st in (ps, qpace q, w, s).
  Lemma water_step_pace weights stage H ct step st :
    water_step (A:=XA) PP weights stage H ct step (lpace st)
    = rmp lpace (water_step (A:=XA) P weights stage H ct step st).
  Proof.
    destruct st as [[[ps q] w] s]. cbn [lpace]. unfold water_step.
    rewrite size_pace, choose_pace.
    destruct (choose_next_directions (A:=XA) P weights ps s) as [[ps1 s1] | e]; cbn [rbind rmp]; [| reflexivity].
    rewrite new_inds_pace, update_Q_pace.
    destruct (update_Q (A:=XA) P q cur (calculate_new_inds P ps1)) as [q1 | e]; cbn [rbind rmp]; [| reflexivity].
    rewrite update_Q_pace.
    destruct (update_Q (A:=XA) P q1 new (calculate_new_inds P ps1)) as [q2 | e]; cbn [rbind rmp]; [| reflexivity].
    rewrite check_for_loops_pace.
    destruct (check_for_loops (A:=XA) P stage H step (calculate_new_inds P ps1)) as [ps2 | e]; cbn [rbind rmp]; [| reflexivity].
    rewrite record_pace.
    destruct (mapM (record_step P ct) ps2) as [pbs | e]; cbn [rbind rmp]; [| reflexivity].
    destruct (_ <? _)%Z; [| reflexivity]. rewrite update_Q_pace.
    destruct (update_Q (A:=XA) P q2 new _) as [q3 | e]; cbn [rbind rmp]; reflexivity.
  Qed.
  Lemma water_loop_pace weights stage H ct fuel : forall step st,
    water_loop (A:=XA) PP weights stage H ct fuel step (lpace st)
    = rmp lpace (water_loop (A:=XA) P weights stage H ct fuel step st).
  Proof.
    induction fuel as [| fuel IH]; intros step st; cbn [water_loop]; [reflexivity |].
    replace (fst (fst (fst (lpace st)))) with (fst (fst (fst st))) by (now destruct st as [[[ps q] w] s]).
    destruct (any_active _); [| reflexivity].
    rewrite water_step_pace.
    destruct (water_step (A:=XA) P weights stage H ct (step + 1) st) as [st' | e]; cbn [rbind rmp]; [| reflexivity].
    apply IH.
  Qed.
  Lemma run_water_iteration_pace n (st : state R S) :
    run_water_iteration (A:=XA) PP (pacing a n b st) = rmp lpace (run_water_iteration (A:=XA) P st).
  Proof.
    unfold run_water_iteration. autorewrite with gp gs. rewrite water_weight_array_pace.
    destruct (get_start_indices _ _ _ _) as [[starts s] | e]; cbn [rbind rmp]; [| reflexivity].
    destruct (_ <=? _)%Z; [reflexivity |].
    destruct (get_water_weight_array (A:=XA) P _ _ _ _ _ _) as [ww | e]; cbn [rbind rmp]; [| reflexivity].
    rewrite <- water_loop_pace. f_equal. cbn [lpace qpace]. repeat f_equal.
    apply functional_extensionality; intro m. unfold fancy_add, fscaled, zero_flat. rewrite half_flux_pace. ra.
    destruct (existsb _ _); ring.
  Qed.

  (** ** Free surface *)
  Lemma walk_back_pace h0 uw ux uy depth S0 dx rest : forall inoc dH ip jp H v t,
    walk_back (A:=XA) (a * p_u0 P) h0 S0 dx (scaled a uw) (scaled a ux) (scaled a uy) depth inoc dH ip jp rest H v t
    = walk_back (A:=XA) (p_u0 P) h0 S0 dx uw ux uy depth inoc dH ip jp rest H v t.
  Proof.
    induction rest as [| [i j] rest IH]; intros; cbn [walk_back]; [reflexivity |]. rewrite IH.
    assert (E1 : fltb (Arith:=XA) (fmul (Arith:=XA) (a * p_u0 P) (flit (A:=XA) 1 2)) (scaled a uw i j)
                 = fltb (Arith:=XA) (fmul (Arith:=XA) (p_u0 P) (flit (A:=XA) 1 2)) (uw i j)).
    { ra. unfold scaled. rewrite Rmult_assoc. now apply Rltb_scale. }
    rewrite E1.
    assert (E2 : (if feqb (Arith:=XA) (scaled a uw i j) (fz (Arith:=XA) 0) then fz (Arith:=XA) 0
            else fdiv (Arith:=XA) (fmul (Arith:=XA) S0 (fadd (Arith:=XA) (fmul (Arith:=XA) (fmul (Arith:=XA) (scaled a ux i j) (fz (Arith:=XA) (ip - i))) dx)
                                     (fmul (Arith:=XA) (fmul (Arith:=XA) (scaled a uy i j) (fz (Arith:=XA) (jp - j))) dx)))
                      (scaled a uw i j))
      = (if feqb (Arith:=XA) (uw i j) (fz (Arith:=XA) 0) then fz (Arith:=XA) 0
            else fdiv (Arith:=XA) (fmul (Arith:=XA) S0 (fadd (Arith:=XA) (fmul (Arith:=XA) (fmul (Arith:=XA) (ux i j) (fz (Arith:=XA) (ip - i))) dx)
                                     (fmul (Arith:=XA) (fmul (Arith:=XA) (uy i j) (fz (Arith:=XA) (jp - j))) dx)))
                      (uw i j))).
    { ra. unfold scaled. rewrite Reqb_scale by lra. destruct (Reqb_spec (uw i j) 0); [reflexivity |]. field. split; lra. }
    rewrite E2. reflexivity.
  Qed.
  Lemma unravel_pace : mapM (unravel_in PP) = mapM (unravel_in P).
  Proof. reflexivity. Qed.
  Lemma accumulate_one_pace n (st : state R S) p vt :
    accumulate_one (A:=XA) PP (pacing a n b st) p vt = accumulate_one (A:=XA) P st p vt.
  Proof.
    unfold accumulate_one. rewrite unravel_pace. autorewrite with gp gs.
    destruct (mapM (unravel_in P) _) as [xys | e]; cbn [rbind]; [| reflexivity].
    destruct xys as [| [x y] rest]; [reflexivity |]. now rewrite walk_back_pace.
  Qed.
  Lemma accumulate_pace n (st : state R S) ps : forall vt,
    accumulate_free_surface_walks (A:=XA) PP (pacing a n b st) ps vt
    = accumulate_free_surface_walks (A:=XA) P st ps vt.
  Proof.
    induction ps as [| p ps IH]; intros vt; cbn [accumulate_free_surface_walks]; [reflexivity |].
    rewrite accumulate_one_pace. apply rbind_ext. intros [v t]. apply IH.
  Qed.
  Lemma compute_free_surface_pace n ps (st : state R S) :
    compute_free_surface (A:=XA) PP ps (pacing a n b st)
    = rmp (pacing a n b) (compute_free_surface (A:=XA) P ps st).
  Proof.
    unfold compute_free_surface. rewrite accumulate_pace.
    destruct (accumulate_free_surface_walks (A:=XA) P st ps _) as [[v t] | e]; cbn [rbind rmp]; [| reflexivity].
    f_equal.
  Qed.

  (** ** Flow fields *)
  Lemma qn_scaled_pace x y w :
    qn_scaled (A:=XA) x y (a * w) = (a * fst (qn_scaled (A:=XA) x y w), a * snd (qn_scaled (A:=XA) x y w)).
  Proof.
    unfold qn_scaled. ra. destruct (Rltb_spec 0 (hypot (A:=XA) x y)) as [K | K]; cbn [fst snd].
    - f_equal; field; lra.
    - assert (E : x = 0 /\ y = 0).
      { unfold hypot in K. ra_in K. destruct (Req_dec x 0) as [E | E]; destruct (Req_dec y 0) as [E' | E']; auto; exfalso; apply K; apply sqrt_lt_R0; nra. }
      destruct E as [-> ->]. f_equal; ring.
  Qed.

  Lemma update_flow_field_pace it (st : state R S) :
    update_flow_field (A:=XA) PP it (pacing a 1 b st) = pacing a a b (update_flow_field (A:=XA) P it st).
  Proof.
    unfold update_flow_field. autorewrite with gp gs. rewrite !gmemo_id.
    change (in_inlet PP) with (in_inlet P).
    set (om := if (it =? 0)%Z then p_omega_flow P else p_omega_flow_iter P).
    rewrite ps_qxn, ps_qyn, ps_qx, ps_qy, ps_qw.
    assert (E : forall i j, qn_scaled (A:=XA) (scaled 1 (s_qxn st) i j) (scaled 1 (s_qyn st) i j) (scaled a (s_qwn st) i j)
       = (a * fst (qn_scaled (A:=XA) (s_qxn st i j) (s_qyn st i j) (s_qwn st i j)),
          a * snd (qn_scaled (A:=XA) (s_qxn st i j) (s_qyn st i j) (s_qwn st i j)))).
    { intros i j. unfold scaled. rewrite !Rmult_1_l. apply qn_scaled_pace. }
    assert (Ex : forall i j, (if (0 <? s_time_iter st)%Z
        then fadd (Arith:=XA) (fmul (Arith:=XA) (fst (qn_scaled (A:=XA) (scaled 1 (s_qxn st) i j) (scaled 1 (s_qyn st) i j) (scaled a (s_qwn st) i j))) om)
               (fmul (Arith:=XA) (scaled a (s_qx st) i j) (fsub (Arith:=XA) (fz (Arith:=XA) 1) om))
        else fst (qn_scaled (A:=XA) (scaled 1 (s_qxn st) i j) (scaled 1 (s_qyn st) i j) (scaled a (s_qwn st) i j)))
      = a * (if (0 <? s_time_iter st)%Z
        then fadd (Arith:=XA) (fmul (Arith:=XA) (fst (qn_scaled (A:=XA) (s_qxn st i j) (s_qyn st i j) (s_qwn st i j))) om)
               (fmul (Arith:=XA) (s_qx st i j) (fsub (Arith:=XA) (fz (Arith:=XA) 1) om))
        else fst (qn_scaled (A:=XA) (s_qxn st i j) (s_qyn st i j) (s_qwn st i j)))).
    { intros i j. rewrite E. cbn [fst snd]. destruct (0 <? s_time_iter st)%Z; [| reflexivity]. ra. unfold scaled. ring. }
    assert (Ey : forall i j, (if (0 <? s_time_iter st)%Z
        then fadd (Arith:=XA) (fmul (Arith:=XA) (snd (qn_scaled (A:=XA) (scaled 1 (s_qxn st) i j) (scaled 1 (s_qyn st) i j) (scaled a (s_qwn st) i j))) om)
               (fmul (Arith:=XA) (scaled a (s_qy st) i j) (fsub (Arith:=XA) (fz (Arith:=XA) 1) om))
        else snd (qn_scaled (A:=XA) (scaled 1 (s_qxn st) i j) (scaled 1 (s_qyn st) i j) (scaled a (s_qwn st) i j)))
      = a * (if (0 <? s_time_iter st)%Z
        then fadd (Arith:=XA) (fmul (Arith:=XA) (snd (qn_scaled (A:=XA) (s_qxn st i j) (s_qyn st i j) (s_qwn st i j))) om)
               (fmul (Arith:=XA) (s_qy st i j) (fsub (Arith:=XA) (fz (Arith:=XA) 1) om))
        else snd (qn_scaled (A:=XA) (s_qxn st i j) (s_qyn st i j) (s_qwn st i j)))).
    { intros i j. rewrite E. cbn [fst snd]. destruct (0 <? s_time_iter st)%Z; [| reflexivity]. ra. unfold scaled. ring. }
    match goal with |- set_qxn ?x (set_qyn ?y (set_qx ?u (set_qy ?v (set_qw ?w _)))) = set_qxn ?x' (set_qyn ?y' (set_qx ?u' (set_qy ?v' (set_qw ?w' _)))) =>
      assert (H1 : x = x'); [| assert (H2 : y = y'); [| assert (H3 : u = u'); [| assert (H4 : v = v'); [| assert (H5 : w = w'); [| rewrite H1, H2, H3, H4, H5; clear; destruct st; reflexivity ]]]]]
    end;
    apply functional_extensionality; intro i; apply functional_extensionality; intro j;
    match goal with |- ?l = scaled a ?g ?i0 ?j0 => change (l = a * g i0 j0) end; cbv beta.
    - now rewrite E.
    - now rewrite E.
    - rewrite Ex. now destruct (_ && _).
    - rewrite Ey. destruct (_ && _); [ra; ring | reflexivity].
    - rewrite Ex, Ey. destruct (_ && _); [reflexivity | now apply hypot_scale].
  Qed.

  Lemma velocity_cell_pace dry um depth qw qx qy :
    velocity_cell (A:=XA) dry (a * um) depth (a * qw) (a * qx) (a * qy)
    = let '(u, x, y) := velocity_cell (A:=XA) dry um depth qw qx qy in (a * u, a * x, a * y).
  Proof.
    unfold velocity_cell. ra. rewrite Rltb_scale0 by assumption.
    destruct (Rltb dry depth); cbn [andb]; [| f_equal; [f_equal |]; ring].
    destruct (Rltb_spec 0 qw) as [K | K]; [| f_equal; [f_equal |]; ring].
    replace (a * qw / depth) with (a * (qw / depth)) by (unfold Rdiv; ring).
    rewrite npmin_scale by assumption. f_equal; [f_equal |]; field; split; lra.
  Qed.
  Lemma update_velocity_field_pace n (st : state R S) :
    update_velocity_field (A:=XA) PP (pacing a n b st) = pacing a n b (update_velocity_field (A:=XA) P st).
  Proof.
    unfold update_velocity_field. autorewrite with gp gs. rewrite !gmemo_id. autorewrite with ps.
    match goal with |- set_uw ?x (set_ux ?y (set_uy ?u _)) = set_uw ?x' (set_ux ?y' (set_uy ?u' _)) =>
      assert (H1 : x = x'); [| assert (H2 : y = y'); [| assert (H3 : u = u'); [| rewrite H1, H2, H3; reflexivity ]]]
    end;
    apply functional_extensionality; intro i; apply functional_extensionality; intro j;
    match goal with |- ?l = scaled a ?g ?i0 ?j0 => change (l = a * g i0 j0) end; cbv beta;
    unfold scaled; rewrite velocity_cell_pace;
    now destruct (velocity_cell (A:=XA) _ _ _ _ _ _) as [[u x] y].
  Qed.
  Lemma finalize_water_pace it (st : state R S) :
    finalize_water_iteration (A:=XA) PP it (pacing a 1 b st)
    = pacing a a b (finalize_water_iteration (A:=XA) P it st).
  Proof.
    unfold finalize_water_iteration. autorewrite with gp gs.
    rewrite <- update_velocity_field_pace, <- update_flow_field_pace. autorewrite with ps. reflexivity.
  Qed.

  Lemma water_iteration_pace it (st : state R S) :
    water_iteration (A:=XA) PP it (pacing a a b st)
    = rmp (pacing a a b) (water_iteration (A:=XA) P it st).
  Proof.
    unfold water_iteration. rewrite run_water_iteration_pace.
    destruct (run_water_iteration (A:=XA) P st) as [[[[ps [[qx qy] qw]] w] s] | e]; cbn [rbind rmp lpace qpace]; [| reflexivity].
    autorewrite with gp.
    match goal with |- rbind (compute_free_surface _ _ ?s1) _ = rmp _ (rbind (compute_free_surface _ _ ?s2) _) =>
      assert (E : s1 = pacing a 1 b s2); [| rewrite E; clear E; set (s3 := s2); clearbody s3] end.
    { autorewrite with ps.
      replace (scaled 1 (fun i j => qx (i * W + j)%Z)) with (fun i j => qx (i * W + j)%Z)
        by (apply functional_extensionality; intro i; apply functional_extensionality; intro j; unfold scaled; ring).
      replace (scaled 1 (fun i j => qy (i * W + j)%Z)) with (fun i j => qy (i * W + j)%Z)
        by (apply functional_extensionality; intro i; apply functional_extensionality; intro j; unfold scaled; ring).
      reflexivity. }
    rewrite compute_free_surface_pace.
    destruct (compute_free_surface (A:=XA) P ps s3) as [st1 | e]; cbn [rbind rmp]; [| reflexivity].
    now rewrite finalize_water_pace.
  Qed.
  Lemma water_iterations_pace n : forall it (st : state R S),
    water_iterations (A:=XA) PP n it (pacing a a b st)
    = rmp (pacing a a b) (water_iterations (A:=XA) P n it st).
  Proof.
    induction n as [| n IH]; intros it st; cbn [water_iterations]; [reflexivity |].
    rewrite water_iteration_pace.
    destruct (water_iteration (A:=XA) P it st) as [st1 | e]; cbn [rbind rmp]; [| reflexivity]. apply IH.
  Qed.
  Lemma route_water_pace (st : state R S) :
    route_water (A:=XA) PP (pacing a a b st) = rmp (pacing a a b) (route_water (A:=XA) P st).
  Proof. unfold route_water. autorewrite with gp. apply water_iterations_pace. Qed.
End Pace.
