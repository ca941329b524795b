(** The same delta on wider cells: one model (C86). *)
From Coq Require Import ZArith List Bool Reals Lra Lia FunctionalExtensionality.
From Flocq Require Import Core.
From Verif Require Import Base RLemmas Shared SharedSpec SharedProofs Params State Water Sed Iter VecLemmas
  WaterSpec WeightProofs WalkProofs RunProofs PaceSpec PaceProofs PaceSed PaceInit SedSpec FrameProofs WiderSpec.
Import ListNotations.
Local Open Scope R_scope.

(** [wider] as a function, with the sand fractions [f] and [l]. *)
Definition widen {S} (k : R) (f l : grid R) (st : state R S) : state R S :=
  mkState (s_eta st)
    (s_eta0 st)
    (s_stage st)
    (s_depth st)
    (s_qx st)
    (s_qy st)
    (s_qw st)
    (s_qxn st)
    (s_qyn st)
    (s_qwn st)
    (s_ux st)
    (s_uy st)
    (s_uw st)
    (s_qs st)
    (f)
    (l)
    (scaled (k * k) (s_Vp_dep_sand st))
    (scaled (k * k) (s_Vp_dep_mud st))
    (s_mod_water_weight st)
    (s_mod_sed_weight st)
    (s_mod_erosion st)
    (s_sfc_visit st)
    (s_sfc_sum st)
    (s_Hnew st)
    (s_cf st)
    (s_cell_type st)
    (s_H_SL st)
    (k * s_time st)
    (s_time_iter st)
    (later k (s_save_time_since_data st))
    (later k (s_save_time_since_checkpoint st))
    (s_save_iter st)
    (s_width st)
    (s_rng st).

Section Get.
  Context {S : Type} (k : R) (f l : grid R) (st : state R S).
  Lemma ws_eta : s_eta (widen k f l st) = s_eta st.
  Proof. reflexivity. Qed.
  Lemma ws_eta0 : s_eta0 (widen k f l st) = s_eta0 st.
  Proof. reflexivity. Qed.
  Lemma ws_stage : s_stage (widen k f l st) = s_stage st.
  Proof. reflexivity. Qed.
  Lemma ws_depth : s_depth (widen k f l st) = s_depth st.
  Proof. reflexivity. Qed.
  Lemma ws_qx : s_qx (widen k f l st) = s_qx st.
  Proof. reflexivity. Qed.
  Lemma ws_qy : s_qy (widen k f l st) = s_qy st.
  Proof. reflexivity. Qed.
  Lemma ws_qw : s_qw (widen k f l st) = s_qw st.
  Proof. reflexivity. Qed.
  Lemma ws_qxn : s_qxn (widen k f l st) = s_qxn st.
  Proof. reflexivity. Qed.
  Lemma ws_qyn : s_qyn (widen k f l st) = s_qyn st.
  Proof. reflexivity. Qed.
  Lemma ws_qwn : s_qwn (widen k f l st) = s_qwn st.
  Proof. reflexivity. Qed.
  Lemma ws_ux : s_ux (widen k f l st) = s_ux st.
  Proof. reflexivity. Qed.
  Lemma ws_uy : s_uy (widen k f l st) = s_uy st.
  Proof. reflexivity. Qed.
  Lemma ws_uw : s_uw (widen k f l st) = s_uw st.
  Proof. reflexivity. Qed.
  Lemma ws_qs : s_qs (widen k f l st) = s_qs st.
  Proof. reflexivity. Qed.
  Lemma ws_sand_frac : s_sand_frac (widen k f l st) = f.
  Proof. reflexivity. Qed.
  Lemma ws_active_layer : s_active_layer (widen k f l st) = l.
  Proof. reflexivity. Qed.
  Lemma ws_Vp_dep_sand : s_Vp_dep_sand (widen k f l st) = scaled (k * k) (s_Vp_dep_sand st).
  Proof. reflexivity. Qed.
  Lemma ws_Vp_dep_mud : s_Vp_dep_mud (widen k f l st) = scaled (k * k) (s_Vp_dep_mud st).
  Proof. reflexivity. Qed.
  Lemma ws_mod_water_weight : s_mod_water_weight (widen k f l st) = s_mod_water_weight st.
  Proof. reflexivity. Qed.
  Lemma ws_mod_sed_weight : s_mod_sed_weight (widen k f l st) = s_mod_sed_weight st.
  Proof. reflexivity. Qed.
  Lemma ws_mod_erosion : s_mod_erosion (widen k f l st) = s_mod_erosion st.
  Proof. reflexivity. Qed.
  Lemma ws_sfc_visit : s_sfc_visit (widen k f l st) = s_sfc_visit st.
  Proof. reflexivity. Qed.
  Lemma ws_sfc_sum : s_sfc_sum (widen k f l st) = s_sfc_sum st.
  Proof. reflexivity. Qed.
  Lemma ws_Hnew : s_Hnew (widen k f l st) = s_Hnew st.
  Proof. reflexivity. Qed.
  Lemma ws_cf : s_cf (widen k f l st) = s_cf st.
  Proof. reflexivity. Qed.
  Lemma ws_cell_type : s_cell_type (widen k f l st) = s_cell_type st.
  Proof. reflexivity. Qed.
  Lemma ws_H_SL : s_H_SL (widen k f l st) = s_H_SL st.
  Proof. reflexivity. Qed.
  Lemma ws_time : s_time (widen k f l st) = k * s_time st.
  Proof. reflexivity. Qed.
  Lemma ws_time_iter : s_time_iter (widen k f l st) = s_time_iter st.
  Proof. reflexivity. Qed.
  Lemma ws_save_time_since_data : s_save_time_since_data (widen k f l st) = later k (s_save_time_since_data st).
  Proof. reflexivity. Qed.
  Lemma ws_save_time_since_checkpoint : s_save_time_since_checkpoint (widen k f l st) = later k (s_save_time_since_checkpoint st).
  Proof. reflexivity. Qed.
  Lemma ws_save_iter : s_save_iter (widen k f l st) = s_save_iter st.
  Proof. reflexivity. Qed.
  Lemma ws_width : s_width (widen k f l st) = s_width st.
  Proof. reflexivity. Qed.
  Lemma ws_rng : s_rng (widen k f l st) = s_rng st.
  Proof. reflexivity. Qed.
  Lemma ww_eta x : widen k f l (set_eta x st) = set_eta x (widen k f l st).
  Proof. reflexivity. Qed.
  Lemma ww_eta0 x : widen k f l (set_eta0 x st) = set_eta0 x (widen k f l st).
  Proof. reflexivity. Qed.
  Lemma ww_stage x : widen k f l (set_stage x st) = set_stage x (widen k f l st).
  Proof. reflexivity. Qed.
  Lemma ww_depth x : widen k f l (set_depth x st) = set_depth x (widen k f l st).
  Proof. reflexivity. Qed.
  Lemma ww_qx x : widen k f l (set_qx x st) = set_qx x (widen k f l st).
  Proof. reflexivity. Qed.
  Lemma ww_qy x : widen k f l (set_qy x st) = set_qy x (widen k f l st).
  Proof. reflexivity. Qed.
  Lemma ww_qw x : widen k f l (set_qw x st) = set_qw x (widen k f l st).
  Proof. reflexivity. Qed.
  Lemma ww_qxn x : widen k f l (set_qxn x st) = set_qxn x (widen k f l st).
  Proof. reflexivity. Qed.
  Lemma ww_qyn x : widen k f l (set_qyn x st) = set_qyn x (widen k f l st).
  Proof. reflexivity. Qed.
  Lemma ww_qwn x : widen k f l (set_qwn x st) = set_qwn x (widen k f l st).
  Proof. reflexivity. Qed.
  Lemma ww_ux x : widen k f l (set_ux x st) = set_ux x (widen k f l st).
  Proof. reflexivity. Qed.
  Lemma ww_uy x : widen k f l (set_uy x st) = set_uy x (widen k f l st).
  Proof. reflexivity. Qed.
  Lemma ww_uw x : widen k f l (set_uw x st) = set_uw x (widen k f l st).
  Proof. reflexivity. Qed.
  Lemma ww_qs x : widen k f l (set_qs x st) = set_qs x (widen k f l st).
  Proof. reflexivity. Qed.
  Lemma ww_Vp_dep_sand x : widen k f l (set_Vp_dep_sand x st) = set_Vp_dep_sand (scaled (k * k) x) (widen k f l st).
  Proof. reflexivity. Qed.
  Lemma ww_Vp_dep_mud x : widen k f l (set_Vp_dep_mud x st) = set_Vp_dep_mud (scaled (k * k) x) (widen k f l st).
  Proof. reflexivity. Qed.
  Lemma ww_mod_water_weight x : widen k f l (set_mod_water_weight x st) = set_mod_water_weight x (widen k f l st).
  Proof. reflexivity. Qed.
  Lemma ww_mod_sed_weight x : widen k f l (set_mod_sed_weight x st) = set_mod_sed_weight x (widen k f l st).
  Proof. reflexivity. Qed.
  Lemma ww_mod_erosion x : widen k f l (set_mod_erosion x st) = set_mod_erosion x (widen k f l st).
  Proof. reflexivity. Qed.
  Lemma ww_sfc_visit x : widen k f l (set_sfc_visit x st) = set_sfc_visit x (widen k f l st).
  Proof. reflexivity. Qed.
  Lemma ww_sfc_sum x : widen k f l (set_sfc_sum x st) = set_sfc_sum x (widen k f l st).
  Proof. reflexivity. Qed.
  Lemma ww_Hnew x : widen k f l (set_Hnew x st) = set_Hnew x (widen k f l st).
  Proof. reflexivity. Qed.
  Lemma ww_cf x : widen k f l (set_cf x st) = set_cf x (widen k f l st).
  Proof. reflexivity. Qed.
  Lemma ww_cell_type x : widen k f l (set_cell_type x st) = set_cell_type x (widen k f l st).
  Proof. reflexivity. Qed.
  Lemma ww_H_SL x : widen k f l (set_H_SL x st) = set_H_SL x (widen k f l st).
  Proof. reflexivity. Qed.
  Lemma ww_time x : widen k f l (set_time x st) = set_time (k * x) (widen k f l st).
  Proof. reflexivity. Qed.
  Lemma ww_time_iter x : widen k f l (set_time_iter x st) = set_time_iter x (widen k f l st).
  Proof. reflexivity. Qed.
  Lemma ww_save_time_since_data x : widen k f l (set_save_time_since_data x st) = set_save_time_since_data (later k x) (widen k f l st).
  Proof. reflexivity. Qed.
  Lemma ww_save_time_since_checkpoint x : widen k f l (set_save_time_since_checkpoint x st) = set_save_time_since_checkpoint (later k x) (widen k f l st).
  Proof. reflexivity. Qed.
  Lemma ww_save_iter x : widen k f l (set_save_iter x st) = set_save_iter x (widen k f l st).
  Proof. reflexivity. Qed.
  Lemma ww_width x : widen k f l (set_width x st) = set_width x (widen k f l st).
  Proof. reflexivity. Qed.
  Lemma ww_rng x : widen k f l (set_rng x st) = set_rng x (widen k f l st).
  Proof. reflexivity. Qed.
End Get.
#[global] Hint Rewrite @ws_eta @ws_eta0 @ws_stage @ws_depth @ws_qx @ws_qy @ws_qw @ws_qxn @ws_qyn @ws_qwn @ws_ux @ws_uy @ws_uw @ws_qs @ws_sand_frac @ws_active_layer @ws_Vp_dep_sand @ws_Vp_dep_mud @ws_mod_water_weight @ws_mod_sed_weight @ws_mod_erosion @ws_sfc_visit @ws_sfc_sum @ws_Hnew @ws_cf @ws_cell_type @ws_H_SL @ws_time @ws_time_iter @ws_save_time_since_data @ws_save_time_since_checkpoint @ws_save_iter @ws_width @ws_rng : ws.
#[global] Hint Rewrite @ww_eta @ww_eta0 @ww_stage @ww_depth @ww_qx @ww_qy @ww_qw @ww_qxn @ww_qyn @ww_qwn @ww_ux @ww_uy @ww_uw @ww_qs @ww_Vp_dep_sand @ww_Vp_dep_mud @ww_mod_water_weight @ww_mod_sed_weight @ww_mod_erosion @ww_sfc_visit @ww_sfc_sum @ww_Hnew @ww_cf @ww_cell_type @ww_H_SL @ww_time @ww_time_iter @ww_save_time_since_data @ww_save_time_since_checkpoint @ww_save_iter @ww_width @ww_rng : ww.

Section GetP.
  Context (k : R) (P : params R).
  Lemma wp_L : p_L (wider_params k P) = p_L P.
  Proof. reflexivity. Qed.
  Lemma wp_W : p_W (wider_params k P) = p_W P.
  Proof. reflexivity. Qed.
  Lemma wp_CTR : p_CTR (wider_params k P) = p_CTR P.
  Proof. reflexivity. Qed.
  Lemma wp_L0 : p_L0 (wider_params k P) = p_L0 P.
  Proof. reflexivity. Qed.
  Lemma wp_N0 : p_N0 (wider_params k P) = p_N0 P.
  Proof. reflexivity. Qed.
  Lemma wp_inlet : p_inlet (wider_params k P) = p_inlet P.
  Proof. reflexivity. Qed.
  Lemma wp_dx : p_dx (wider_params k P) = k * p_dx P.
  Proof. reflexivity. Qed.
  Lemma wp_h0 : p_h0 (wider_params k P) = p_h0 P.
  Proof. reflexivity. Qed.
  Lemma wp_hb : p_hb (wider_params k P) = p_hb P.
  Proof. reflexivity. Qed.
  Lemma wp_u0 : p_u0 (wider_params k P) = p_u0 P.
  Proof. reflexivity. Qed.
  Lemma wp_S0 : p_S0 (wider_params k P) = p_S0 P / k.
  Proof. reflexivity. Qed.
  Lemma wp_u_max : p_u_max (wider_params k P) = p_u_max P.
  Proof. reflexivity. Qed.
  Lemma wp_C0 : p_C0 (wider_params k P) = p_C0 P.
  Proof. reflexivity. Qed.
  Lemma wp_dry_depth : p_dry_depth (wider_params k P) = p_dry_depth P.
  Proof. reflexivity. Qed.
  Lemma wp_gamma : p_gamma (wider_params k P) = p_gamma P.
  Proof. reflexivity. Qed.
  Lemma wp_V0 : p_V0 (wider_params k P) = k * k * p_V0 P.
  Proof. reflexivity. Qed.
  Lemma wp_Qw0 : p_Qw0 (wider_params k P) = k * p_Qw0 P.
  Proof. reflexivity. Qed.
  Lemma wp_qw0 : p_qw0 (wider_params k P) = p_qw0 P.
  Proof. reflexivity. Qed.
  Lemma wp_Qp_water : p_Qp_water (wider_params k P) = k * p_Qp_water P.
  Proof. reflexivity. Qed.
  Lemma wp_qs0 : p_qs0 (wider_params k P) = p_qs0 P.
  Proof. reflexivity. Qed.
  Lemma wp_dVs : p_dVs (wider_params k P) = k * k * p_dVs P.
  Proof. reflexivity. Qed.
  Lemma wp_Qs0 : p_Qs0 (wider_params k P) = k * p_Qs0 P.
  Proof. reflexivity. Qed.
  Lemma wp_Vp_sed : p_Vp_sed (wider_params k P) = k * k * p_Vp_sed P.
  Proof. reflexivity. Qed.
  Lemma wp_stepmax : p_stepmax (wider_params k P) = p_stepmax P.
  Proof. reflexivity. Qed.
  Lemma wp_dt : p_dt (wider_params k P) = k * p_dt P.
  Proof. reflexivity. Qed.
  Lemma wp_omega_flow_iter : p_omega_flow_iter (wider_params k P) = p_omega_flow_iter P.
  Proof. reflexivity. Qed.
  Lemma wp_N_crossdiff : p_N_crossdiff (wider_params k P) = p_N_crossdiff P.
  Proof. reflexivity. Qed.
  Lemma wp_lambda : p_lambda (wider_params k P) = p_lambda P.
  Proof. reflexivity. Qed.
  Lemma wp_diffusion_multiplier : p_diffusion_multiplier (wider_params k P) = p_diffusion_multiplier P.
  Proof. reflexivity. Qed.
  Lemma wp_theta_water : p_theta_water (wider_params k P) = p_theta_water P.
  Proof. reflexivity. Qed.
  Lemma wp_theta_sand : p_theta_sand (wider_params k P) = p_theta_sand P.
  Proof. reflexivity. Qed.
  Lemma wp_theta_mud : p_theta_mud (wider_params k P) = p_theta_mud P.
  Proof. reflexivity. Qed.
  Lemma wp_U_dep_mud : p_U_dep_mud (wider_params k P) = p_U_dep_mud P.
  Proof. reflexivity. Qed.
  Lemma wp_U_ero_sand : p_U_ero_sand (wider_params k P) = p_U_ero_sand P.
  Proof. reflexivity. Qed.
  Lemma wp_U_ero_mud : p_U_ero_mud (wider_params k P) = p_U_ero_mud P.
  Proof. reflexivity. Qed.
  Lemma wp_itermax : p_itermax (wider_params k P) = p_itermax P.
  Proof. reflexivity. Qed.
  Lemma wp_Np_water : p_Np_water (wider_params k P) = p_Np_water P.
  Proof. reflexivity. Qed.
  Lemma wp_Np_sed : p_Np_sed (wider_params k P) = p_Np_sed P.
  Proof. reflexivity. Qed.
  Lemma wp_f_bedload : p_f_bedload (wider_params k P) = p_f_bedload P.
  Proof. reflexivity. Qed.
  Lemma wp_f_bedload_router : p_f_bedload_router (wider_params k P) = p_f_bedload_router P.
  Proof. reflexivity. Qed.
  Lemma wp_beta : p_beta (wider_params k P) = p_beta P.
  Proof. reflexivity. Qed.
  Lemma wp_omega_sfc : p_omega_sfc (wider_params k P) = p_omega_sfc P.
  Proof. reflexivity. Qed.
  Lemma wp_omega_flow : p_omega_flow (wider_params k P) = p_omega_flow P.
  Proof. reflexivity. Qed.
  Lemma wp_Nsmooth : p_Nsmooth (wider_params k P) = p_Nsmooth P.
  Proof. reflexivity. Qed.
  Lemma wp_Csmooth : p_Csmooth (wider_params k P) = p_Csmooth P.
  Proof. reflexivity. Qed.
  Lemma wp_SLR : p_SLR (wider_params k P) = p_SLR P / k.
  Proof. reflexivity. Qed.
  Lemma wp_sand_frac_bc : p_sand_frac_bc (wider_params k P) = p_sand_frac_bc P.
  Proof. reflexivity. Qed.
  Lemma wp_active_layer_thickness : p_active_layer_thickness (wider_params k P) = p_active_layer_thickness P.
  Proof. reflexivity. Qed.
  Lemma wp_toggle_subsidence : p_toggle_subsidence (wider_params k P) = p_toggle_subsidence P.
  Proof. reflexivity. Qed.
  Lemma wp_start_subsidence : p_start_subsidence (wider_params k P) = k * p_start_subsidence P.
  Proof. reflexivity. Qed.
  Lemma wp_sigma : p_sigma (wider_params k P) = p_sigma P.
  Proof. reflexivity. Qed.
  Lemma wp_save_dt : p_save_dt (wider_params k P) = k * p_save_dt P.
  Proof. reflexivity. Qed.
  Lemma wp_checkpoint_dt : p_checkpoint_dt (wider_params k P) = k * p_checkpoint_dt P.
  Proof. reflexivity. Qed.
  Lemma wp_save_checkpoint : p_save_checkpoint (wider_params k P) = p_save_checkpoint P.
  Proof. reflexivity. Qed.
End GetP.
#[global] Hint Rewrite wp_L wp_W wp_CTR wp_L0 wp_N0 wp_inlet wp_dx wp_h0 wp_hb wp_u0 wp_S0 wp_u_max wp_C0 wp_dry_depth wp_gamma wp_V0 wp_Qw0 wp_qw0 wp_Qp_water wp_qs0 wp_dVs wp_Qs0 wp_Vp_sed wp_stepmax wp_dt wp_omega_flow_iter wp_N_crossdiff wp_lambda wp_diffusion_multiplier wp_theta_water wp_theta_sand wp_theta_mud wp_U_dep_mud wp_U_ero_sand wp_U_ero_mud wp_itermax wp_Np_water wp_Np_sed wp_f_bedload wp_f_bedload_router wp_beta wp_omega_sfc wp_omega_flow wp_Nsmooth wp_Csmooth wp_SLR wp_sand_frac_bc wp_active_layer_thickness wp_toggle_subsidence wp_start_subsidence wp_sigma wp_save_dt wp_checkpoint_dt wp_save_checkpoint : wp.


Lemma widen_wider {S} k f l (st : state R S) : wider k st (widen k f l st).
Proof. constructor; reflexivity. Qed.
Lemma wider_widen {S} k (st st' : state R S) : wider k st st' ->
  st' = widen k (s_sand_frac st') (s_active_layer st') st.
Proof.
  intros H. apply state_ext; try reflexivity.
  - exact (wi_eta _ _ _ H).
  - exact (wi_eta0 _ _ _ H).
  - exact (wi_stage _ _ _ H).
  - exact (wi_depth _ _ _ H).
  - exact (wi_qx _ _ _ H).
  - exact (wi_qy _ _ _ H).
  - exact (wi_qw _ _ _ H).
  - exact (wi_qxn _ _ _ H).
  - exact (wi_qyn _ _ _ H).
  - exact (wi_qwn _ _ _ H).
  - exact (wi_ux _ _ _ H).
  - exact (wi_uy _ _ _ H).
  - exact (wi_uw _ _ _ H).
  - exact (wi_qs _ _ _ H).
  - exact (wi_Vp_dep_sand _ _ _ H).
  - exact (wi_Vp_dep_mud _ _ _ H).
  - exact (wi_mod_water_weight _ _ _ H).
  - exact (wi_mod_sed_weight _ _ _ H).
  - exact (wi_mod_erosion _ _ _ H).
  - exact (wi_sfc_visit _ _ _ H).
  - exact (wi_sfc_sum _ _ _ H).
  - exact (wi_Hnew _ _ _ H).
  - exact (wi_cf _ _ _ H).
  - exact (wi_cell_type _ _ _ H).
  - exact (wi_H_SL _ _ _ H).
  - exact (wi_time _ _ _ H).
  - exact (wi_time_iter _ _ _ H).
  - exact (wi_save_time_since_data _ _ _ H).
  - exact (wi_save_time_since_checkpoint _ _ _ H).
  - exact (wi_save_iter _ _ _ H).
  - exact (wi_width _ _ _ H).
  - exact (wi_rng _ _ _ H).
Qed.

Lemma Rleb_scale c x y : 0 < c -> Rleb (c * x) (c * y) = Rleb x y.
Proof.
  intros Hc. destruct (Rleb_spec x y) as [K | K]; destruct (Rleb_spec (c * x) (c * y)) as [K' | K']; auto; exfalso.
  - apply K'. apply Rmult_le_compat_l; lra.
  - apply K. apply (Rmult_le_reg_l c); auto.
Qed.

Section Wider.
  Context {S : Type} {G : Rng R S} (k : R) (Hk : 0 < k) (P : params R).
  Local Notation L := (p_L P).
  Local Notation W := (p_W P).
  Local Notation PP := (wider_params k P).
  Lemma kk_pos : 0 < k * k.
  Proof. now apply Rmult_lt_0_compat. Qed.
  Local Hint Resolve kk_pos : core.

  (** ** Water *)
  Lemma half_flux_wider : half_flux (A:=XA) PP = half_flux (A:=XA) P.
  Proof.
    unfold half_flux. autorewrite with wp. ra.
    destruct (Req_dec (p_dx P) 0) as [-> | K]; [| field; lra].
    unfold Rdiv. rewrite Rmult_0_r, Rinv_0. ring.
  Qed.
  Lemma update_absQfield_wider ix ps : forall q,
    update_absQfield (A:=XA) PP q ix ps = update_absQfield (A:=XA) P q ix ps.
  Proof.
    induction ps as [| p ps IH]; intros q; cbn [update_absQfield]; [reflexivity |].
    destruct (get_steps (A:=XA) (dir p)) as [[[d i] j] s]. destruct s; [| apply IH].
    change (flat_ix PP (ix p)) with (flat_ix P (ix p)).
    destruct (flat_ix P (ix p)) as [m | e]; cbn [rbind]; [| reflexivity].
    rewrite half_flux_wider. apply IH.
  Qed.
  Lemma update_Q_wider q ix ps : update_Q (A:=XA) PP q ix ps = update_Q (A:=XA) P q ix ps.
  Proof.
    destruct q as [[x y] w]. unfold update_Q. rewrite update_absQfield_wider. reflexivity.
  Qed.
  Lemma check_from_wider stage H ps : forall o,
    check_loops_from (A:=XA) PP stage H o ps = check_loops_from (A:=XA) P stage H o ps.
  Proof.
    induction ps as [| p ps IH]; intros o; cbn [check_loops_from]; [reflexivity |].
    autorewrite with wp. destruct (_ && _).
    - apply rbind_ext; intros [px0 py0].
      change (relocate (A:=XA) PP o px0 py0) with (relocate (A:=XA) P o px0 py0). apply rbind_ext; intros [px py].
      apply rbind_ext; intros m. now rewrite IH.
    - now rewrite IH.
  Qed.
  Lemma check_for_loops_wider stage H step ps :
    check_for_loops (A:=XA) PP stage H step ps = check_for_loops (A:=XA) P stage H step ps.
  Proof. unfold check_for_loops. autorewrite with wp. now rewrite check_from_wider. Qed.
  Lemma choose_wider weights ps s :
    choose_next_directions (A:=XA) PP weights ps s = choose_next_directions (A:=XA) P weights ps s.
  Proof. reflexivity. Qed.
  Lemma size_wider w step : check_size_of_indices_matrix PP w step = check_size_of_indices_matrix P w step.
  Proof. reflexivity. Qed.
  Lemma new_inds_wider ps : calculate_new_inds PP ps = calculate_new_inds P ps.
  Proof. reflexivity. Qed.
  Lemma record_wider ct ps : mapM (record_step PP ct) ps = mapM (record_step P ct) ps.
  Proof. reflexivity. Qed.
  Lemma relocate_wider o x y : relocate (A:=XA) PP o x y = relocate (A:=XA) P o x y.
  Proof. reflexivity. Qed.
  Lemma flat_wider m : flat_ix PP m = flat_ix P m.
  Proof. reflexivity. Qed.
  Lemma weights_wider : get_water_weight_array (A:=XA) PP = get_water_weight_array (A:=XA) P.
  Proof. reflexivity. Qed.
  Lemma unravel_wider : mapM (unravel_in PP) = mapM (unravel_in P).
  Proof. reflexivity. Qed.
  Lemma cell_ix_wider x y : cell_ix PP x y = cell_ix P x y.
  Proof. reflexivity. Qed.
  Lemma water_step_wider weights stage H ct step st :
    water_step (A:=XA) PP weights stage H ct step st = water_step (A:=XA) P weights stage H ct step st.
  Proof.
    destruct st as [[[ps q] w] s]. unfold water_step.
    rewrite size_wider, choose_wider.
    destruct (choose_next_directions (A:=XA) P weights ps s) as [[ps1 s1] | e]; cbn [rbind]; [| reflexivity].
    rewrite new_inds_wider. rewrite update_Q_wider.
    destruct (update_Q (A:=XA) P q cur (calculate_new_inds P ps1)) as [q1 | e]; cbn [rbind]; [| reflexivity].
    rewrite update_Q_wider.
    destruct (update_Q (A:=XA) P q1 new (calculate_new_inds P ps1)) as [q2 | e]; cbn [rbind]; [| reflexivity].
    rewrite check_for_loops_wider.
    destruct (check_for_loops (A:=XA) P stage H step (calculate_new_inds P ps1)) as [ps2 | e]; cbn [rbind]; [| reflexivity].
    rewrite record_wider.
    destruct (mapM (record_step P ct) ps2) as [pbs | e]; cbn [rbind]; [| reflexivity].
    destruct (_ <? _)%Z; [| reflexivity]. now rewrite update_Q_wider.
  Qed.
  Lemma water_loop_wider weights stage H ct fuel : forall step st,
    water_loop (A:=XA) PP weights stage H ct fuel step st = water_loop (A:=XA) P weights stage H ct fuel step st.
  Proof.
    induction fuel as [| fuel IH]; intros step st; cbn [water_loop]; [reflexivity |].
    destruct (any_active _); [| reflexivity].
    rewrite water_step_wider.
    destruct (water_step (A:=XA) P weights stage H ct (step + 1) st) as [st' | e]; cbn [rbind]; [| reflexivity].
    apply IH.
  Qed.
  Lemma run_water_iteration_wider f l (st : state R S) :
    run_water_iteration (A:=XA) PP (widen k f l st) = run_water_iteration (A:=XA) P st.
  Proof.
    unfold run_water_iteration. rewrite half_flux_wider. autorewrite with wp ws.
    rewrite weights_wider.
    destruct (get_start_indices _ _ _ _) as [[starts s] | e]; cbn [rbind]; [| reflexivity].
    destruct (_ <=? _)%Z; [reflexivity |].
    destruct (get_water_weight_array (A:=XA) P _ _ _ _ _ _) as [ww | e]; cbn [rbind]; [| reflexivity].
    now rewrite water_loop_wider.
  Qed.
  Lemma walk_back_wider u0 h0 uw ux uy depth rest : forall inoc dH ip jp H v t,
    walk_back (A:=XA) u0 h0 (p_S0 P / k) (k * p_dx P) uw ux uy depth inoc dH ip jp rest H v t
    = walk_back (A:=XA) u0 h0 (p_S0 P) (p_dx P) uw ux uy depth inoc dH ip jp rest H v t.
  Proof.
    induction rest as [| [i j] rest IH]; intros; cbn [walk_back]; [reflexivity |]. rewrite IH.
    assert (E2 : fdiv (Arith:=XA) (fmul (Arith:=XA) (p_S0 P / k) (fadd (Arith:=XA) (fmul (Arith:=XA) (fmul (Arith:=XA) (ux i j) (fz (Arith:=XA) (ip - i))) (k * p_dx P))
                                     (fmul (Arith:=XA) (fmul (Arith:=XA) (uy i j) (fz (Arith:=XA) (jp - j))) (k * p_dx P))))
                      (uw i j)
      = fdiv (Arith:=XA) (fmul (Arith:=XA) (p_S0 P) (fadd (Arith:=XA) (fmul (Arith:=XA) (fmul (Arith:=XA) (ux i j) (fz (Arith:=XA) (ip - i))) (p_dx P))
                                     (fmul (Arith:=XA) (fmul (Arith:=XA) (uy i j) (fz (Arith:=XA) (jp - j))) (p_dx P))))
                      (uw i j)).
    { ra. unfold Rdiv. f_equal. field. lra. }
    rewrite E2. reflexivity.
  Qed.
  Lemma accumulate_one_wider f l (st : state R S) p vt :
    accumulate_one (A:=XA) PP (widen k f l st) p vt = accumulate_one (A:=XA) P st p vt.
  Proof.
    unfold accumulate_one. rewrite unravel_wider. autorewrite with wp ws.
    destruct (mapM (unravel_in P) _) as [xys | e]; cbn [rbind]; [| reflexivity].
    destruct xys as [| [x y] rest]; [reflexivity |]. now rewrite walk_back_wider.
  Qed.
  Lemma accumulate_wider f l (st : state R S) ps : forall vt,
    accumulate_free_surface_walks (A:=XA) PP (widen k f l st) ps vt
    = accumulate_free_surface_walks (A:=XA) P st ps vt.
  Proof.
    induction ps as [| p ps IH]; intros vt; cbn [accumulate_free_surface_walks]; [reflexivity |].
    rewrite accumulate_one_wider. apply rbind_ext. intros [v t]. apply IH.
  Qed.
  Lemma flooding_wider d e g : flooding_correction (A:=XA) PP d e g = flooding_correction (A:=XA) P d e g.
  Proof. reflexivity. Qed.
  Lemma compute_free_surface_wider f l ps (st : state R S) :
    compute_free_surface (A:=XA) PP ps (widen k f l st)
    = rmp (widen k f l) (compute_free_surface (A:=XA) P ps st).
  Proof.
    unfold compute_free_surface. rewrite accumulate_wider.
    destruct (accumulate_free_surface_walks (A:=XA) P st ps _) as [[v t] | e]; cbn [rbind rmp]; [| reflexivity].
    f_equal.
  Qed.
  Lemma flow_wider f l it (st : state R S) :
    update_flow_field (A:=XA) PP it (widen k f l st) = widen k f l (update_flow_field (A:=XA) P it st).
  Proof. reflexivity. Qed.
  Lemma velocity_wider f l (st : state R S) :
    update_velocity_field (A:=XA) PP (widen k f l st) = widen k f l (update_velocity_field (A:=XA) P st).
  Proof. reflexivity. Qed.
  Lemma finalize_water_wider f l it (st : state R S) :
    finalize_water_iteration (A:=XA) PP it (widen k f l st)
    = widen k f l (finalize_water_iteration (A:=XA) P it st).
  Proof.
    unfold finalize_water_iteration. rewrite <- velocity_wider, <- flow_wider. reflexivity.
  Qed.
  Lemma water_iteration_wider f l it (st : state R S) :
    water_iteration (A:=XA) PP it (widen k f l st)
    = rmp (widen k f l) (water_iteration (A:=XA) P it st).
  Proof.
    unfold water_iteration. rewrite run_water_iteration_wider.
    destruct (run_water_iteration (A:=XA) P st) as [[[[ps [[qx qy] qw]] w] s] | e]; cbn [rbind rmp]; [| reflexivity].
    autorewrite with wp.
    match goal with |- rbind (compute_free_surface _ _ ?s1) _ = rmp _ (rbind (compute_free_surface _ _ ?s2) _) =>
      assert (E : s1 = widen k f l s2) by reflexivity; rewrite E; clear E; set (s3 := s2); clearbody s3 end.
    rewrite compute_free_surface_wider.
    destruct (compute_free_surface (A:=XA) P ps s3) as [st1 | e]; cbn [rbind rmp]; [| reflexivity].
    now rewrite finalize_water_wider.
  Qed.
  Lemma water_iterations_wider f l n : forall it (st : state R S),
    water_iterations (A:=XA) PP n it (widen k f l st)
    = rmp (widen k f l) (water_iterations (A:=XA) P n it st).
  Proof.
    induction n as [| n IH]; intros it st; cbn [water_iterations]; [reflexivity |].
    rewrite water_iteration_wider.
    destruct (water_iteration (A:=XA) P it st) as [st1 | e]; cbn [rbind rmp]; [| reflexivity]. apply IH.
  Qed.

  (** ** Sediment: volumes are [k * k] times as large *)
  Definition wbed (x : bed R) : bed R :=
    mkBed (b_eta x) (b_depth x) (b_pad_depth x) (b_uw x) (b_ux x) (b_uy x)
      (b_qs x) (scaled (k * k) (b_sand x)) (scaled (k * k) (b_mud x)).
  Lemma choose_location_wider g f l (st : state R S) x px py s :
    choose_next_location (A:=XA) PP g (widen k f l st) (wbed x) px py s = choose_next_location (A:=XA) P g st x px py s.
  Proof. reflexivity. Qed.
  Lemma Vp_ero_wider V U Ue beta m :
    compute_Vp_ero (A:=XA) (k * k * V) U Ue beta m = k * k * compute_Vp_ero (A:=XA) V U Ue beta m.
  Proof. unfold compute_Vp_ero. ra. unfold Rdiv. ring. Qed.
  Lemma npmin_wider x y : npmin (A:=XA) (k * k * x) (k * k * y) = k * k * npmin (A:=XA) x y.
  Proof. now apply npmin_scale. Qed.
  Lemma limit_wider V stage eta ero :
    limit_Vp_change (A:=XA) (k * k * V) stage eta (k * p_dx P) ero
    = k * k * limit_Vp_change (A:=XA) V stage eta (p_dx P) ero.
  Proof.
    unfold limit_Vp_change.
    assert (E : forall z, fmul (Arith:=XA) z (fmul (Arith:=XA) (k * p_dx P) (k * p_dx P))
                = k * k * fmul (Arith:=XA) z (fmul (Arith:=XA) (p_dx P) (p_dx P))) by (intros z; ra; ring).
    rewrite !E, !npmin_wider. destruct (fltb _ _); [| reflexivity]. destruct ero; [reflexivity |]. ra. ring.
  Qed.
  Lemma neg_wider x : fmul (Arith:=XA) (k * k * x) (fz (Arith:=XA) (-1)) = k * k * fmul (Arith:=XA) x (fz (Arith:=XA) (-1)).
  Proof. ra. ring. Qed.
  Lemma sand_change_wider f l (st : state R S) x V i j :
    sand_change (A:=XA) PP (widen k f l st) (wbed x) (k * k * V) i j = k * k * sand_change (A:=XA) P st x V i j.
  Proof.
    unfold sand_change. cbn [wbed b_uw b_qs b_eta]. autorewrite with wp ws.
    rewrite Vp_ero_wider, !limit_wider, neg_wider.
    destruct (fltb _ _); [reflexivity |]. destruct (_ && _); [reflexivity |]. ra. ring.
  Qed.
  Lemma mud_dep_wider V U :
    fdiv (Arith:=XA) (fmul (Arith:=XA) (fmul (Arith:=XA) (p_lambda P) (k * k * V))
        (fsub (Arith:=XA) (fpow (Arith:=XA) (p_U_dep_mud P) (p_beta P)) U)) (fpow (Arith:=XA) (p_U_dep_mud P) (p_beta P))
    = k * k * fdiv (Arith:=XA) (fmul (Arith:=XA) (fmul (Arith:=XA) (p_lambda P) V)
        (fsub (Arith:=XA) (fpow (Arith:=XA) (p_U_dep_mud P) (p_beta P)) U)) (fpow (Arith:=XA) (p_U_dep_mud P) (p_beta P)).
  Proof. ra. unfold Rdiv. ring. Qed.
  Lemma mud_change_wider f l (st : state R S) x V i j :
    mud_change (A:=XA) PP (widen k f l st) (wbed x) (k * k * V) i j = k * k * mud_change (A:=XA) P st x V i j.
  Proof.
    unfold mud_change. cbn [wbed b_uw b_qs b_eta]. autorewrite with wp ws.
    rewrite Vp_ero_wider, mud_dep_wider, !limit_wider, neg_wider.
    destruct (fltb _ _); [reflexivity |]. destruct (fltb _ _); [reflexivity |]. ra. ring.
  Qed.
  Lemma dx2_wider : feqb (Arith:=XA) (fmul (Arith:=XA) (k * p_dx P) (k * p_dx P)) (fz (Arith:=XA) 0)
    = feqb (Arith:=XA) (fmul (Arith:=XA) (p_dx P) (p_dx P)) (fz (Arith:=XA) 0).
  Proof.
    ra. replace (k * p_dx P * (k * p_dx P)) with (k * k * (p_dx P * p_dx P)) by ring.
    apply Reqb_scale. pose proof kk_pos. lra.
  Qed.
  Lemma zero_divisor_wider g f l (st : state R S) x i j :
    zero_divisor (A:=XA) PP g (widen k f l st) (wbed x) i j = zero_divisor (A:=XA) P g st x i j.
  Proof.
    unfold zero_divisor. cbv zeta. autorewrite with wp. rewrite dx2_wider. reflexivity.
  Qed.
  Lemma div2_wider V : fdiv (Arith:=XA) (k * k * V) (fmul (Arith:=XA) (k * p_dx P) (k * p_dx P))
    = fdiv (Arith:=XA) V (fmul (Arith:=XA) (p_dx P) (p_dx P)).
  Proof.
    ra. replace (k * p_dx P * (k * p_dx P)) with (k * k * (p_dx P * p_dx P)) by ring.
    pose proof kk_pos. set (q := p_dx P * p_dx P). clearbody q.
    unfold Rdiv. rewrite Rinv_mult. transitivity (V * / q * (k * k * / (k * k))); [ring |].
    rewrite Rinv_r by lra. ring.
  Qed.
  Lemma update_fields_wider f l (st : state R S) x V px py i j :
    update_fields (A:=XA) PP (widen k f l st) (wbed x) (k * k * V) px py i j
    = wbed (update_fields (A:=XA) P st x V px py i j).
  Proof.
    unfold update_fields. cbv zeta. autorewrite with wp ws. rewrite div2_wider. reflexivity.
  Qed.
  Lemma dep_wider V (g : grid R) i j :
    (if fltb (Arith:=XA) (fz (Arith:=XA) 0) (k * k * V)
     then gset (scaled (k * k) g) i j (fadd (Arith:=XA) (scaled (k * k) g i j) (k * k * V)) else scaled (k * k) g)
    = scaled (k * k) (if fltb (Arith:=XA) (fz (Arith:=XA) 0) V then gset g i j (fadd (Arith:=XA) (g i j) V) else g).
  Proof.
    change (fltb (Arith:=XA)) with Rltb. change (fz (Arith:=XA) 0) with 0. rewrite Rltb_scale0 by auto.
    destruct (Rltb 0 V); [| reflexivity]. rewrite <- gset_scaled. f_equal. ra. unfold scaled. ring.
  Qed.
  Lemma sub_wider V d : fsub (Arith:=XA) (k * k * V) (k * k * d) = k * k * fsub (Arith:=XA) V d.
  Proof. ra. ring. Qed.
  Lemma deposit_wider g f l (st : state R S) x V px py i j :
    deposit_or_erode (A:=XA) PP g (widen k f l st) (wbed x) (k * k * V) px py i j
    = let (x', V') := deposit_or_erode (A:=XA) P g st x V px py i j in (wbed x', k * k * V').
  Proof.
    unfold deposit_or_erode. cbv zeta. destruct g.
    - rewrite sand_change_wider, sub_wider. f_equal. rewrite <- update_fields_wider with (f:=f) (l:=l). f_equal.
      cbn [wbed b_eta b_depth b_pad_depth b_uw b_ux b_uy b_qs b_sand b_mud]. now rewrite dep_wider.
    - rewrite mud_change_wider, sub_wider. f_equal. rewrite <- update_fields_wider with (f:=f) (l:=l). f_equal.
      cbn [wbed b_eta b_depth b_pad_depth b_uw b_ux b_uy b_qs b_sand b_mud]. now rewrite dep_wider.
  Qed.
  Lemma flux_part_wider V : flux_part (A:=XA) PP (k * k * V) = flux_part (A:=XA) P V.
  Proof.
    unfold flux_part. autorewrite with wp. ra. unfold Rdiv. rewrite !Rinv_mult.
    transitivity (V * / 2 * / p_dt P * / p_dx P * (k * / k) * (k * / k)); [ring |]. rewrite Rinv_r by lra. ring.
  Qed.
  Lemma partition_wider x V i0 j0 i j d :
    partition_sediment (A:=XA) PP (wbed x) (k * k * V) i0 j0 i j d = wbed (partition_sediment (A:=XA) P x V i0 j0 i j d).
  Proof.
    unfold partition_sediment. cbv zeta. rewrite flux_part_wider. destruct (fltb (Arith:=XA) _ d); reflexivity.
  Qed.
  Lemma sed_step_wider g f l (st : state R S) x V px py s :
    sed_step (A:=XA) PP g (widen k f l st) (wbed x) (k * k * V) px py s
    = rmp (fun r => let '(px, py, x, V, s) := r in (px, py, wbed x, k * k * V, s)) (sed_step (A:=XA) P g st x V px py s).
  Proof.
    unfold sed_step. rewrite choose_location_wider.
    destruct (choose_next_location (A:=XA) P g st x px py s) as [[d0 s1] | e]; cbn [rbind rmp]; [| reflexivity].
    destruct (get_steps (A:=XA) d0) as [[[d is] js] t].
    rewrite !cell_ix_wider.
    destruct (cell_ix P px py) as [[i0 j0] | e]; cbn [rbind rmp]; [| reflexivity].
    destruct (cell_ix P (px + js) (py + is)) as [[i j] | e]; cbn [rbind rmp]; [| reflexivity].
    set (y := match g with Sand => partition_sediment (A:=XA) P x V i0 j0 i j d | Mud => x end).
    replace (match g with Sand => partition_sediment (A:=XA) PP (wbed x) (k * k * V) i0 j0 i j d | Mud => wbed x end)
      with (wbed y) by (unfold y; destruct g; [symmetry; apply partition_wider | reflexivity]).
    rewrite zero_divisor_wider. destruct (zero_divisor (A:=XA) P g st y i j); [reflexivity |].
    rewrite deposit_wider.
    destruct (deposit_or_erode (A:=XA) P g st y V (px + js) (py + is) i j) as [y' V']. reflexivity.
  Qed.
  Lemma route_one_wider g f l (st : state R S) fuel : forall x V px py s,
    route_one_parcel (A:=XA) PP g (widen k f l st) fuel (wbed x) (k * k * V) px py s
    = rmp (fun r => let '(x, V, s) := r in (wbed x, k * k * V, s)) (route_one_parcel (A:=XA) P g st fuel x V px py s).
  Proof.
    induction fuel as [| fuel IH]; intros; cbn [route_one_parcel]; [reflexivity |].
    rewrite sed_step_wider.
    destruct (sed_step (A:=XA) P g st x V px py s) as [[[[[px' py'] x'] V'] s'] | e]; cbn [rbind rmp]; [| reflexivity].
    rewrite cell_ix_wider.
    destruct (cell_ix P px' py') as [[i j] | e]; cbn [rbind rmp]; [| reflexivity].
    rewrite ws_cell_type. destruct (_ || _); [reflexivity |]. apply IH.
  Qed.
  Lemma no_flux_scale_wider g : no_flux_scale (A:=XA) PP g = no_flux_scale (A:=XA) P g.
  Proof.
    unfold no_flux_scale. destruct g; [| reflexivity]. autorewrite with wp. ra. rewrite !Reqb_scale by lra. reflexivity.
  Qed.
  Lemma route_parcels_wider g f l (st : state R S) starts : forall x s,
    route_parcels (A:=XA) PP g (widen k f l st) starts (wbed x) s
    = rmp (fun r => let '(x, V, s) := r in (wbed x, map (fun v => k * k * v) V, s)) (route_parcels (A:=XA) P g st starts x s).
  Proof.
    induction starts as [| py starts IH]; intros; cbn [route_parcels]; [reflexivity |].
    rewrite cell_ix_wider.
    destruct (cell_ix P 0 py) as [[i j] | e]; cbn [rbind rmp]; [| reflexivity].
    rewrite no_flux_scale_wider. destruct (no_flux_scale (A:=XA) P g); [reflexivity |]. autorewrite with wp.
    rewrite flux_part_wider.
    set (y := match g with Sand => set_qs_bed x (add_at (A:=XA) (b_qs x) i j (flux_part (A:=XA) P (p_Vp_sed P))) | Mud => x end).
    replace (match g with Sand => set_qs_bed (wbed x) (add_at (A:=XA) (b_qs (wbed x)) i j (flux_part (A:=XA) P (p_Vp_sed P))) | Mud => wbed x end)
      with (wbed y) by (unfold y; destruct g; reflexivity).
    rewrite route_one_wider.
    destruct (route_one_parcel (A:=XA) P g st _ y (p_Vp_sed P) 0 py s) as [[[x1 V1] s1] | e]; cbn [rbind rmp]; [| reflexivity].
    rewrite IH.
    destruct (route_parcels (A:=XA) P g st starts x1 s1) as [[[x2 V2] s2] | e]; cbn [rbind rmp]; reflexivity.
  Qed.
  Lemma bed_of_wider f l (st : state R S) : bed_of (A:=XA) PP (widen k f l st) = wbed (bed_of (A:=XA) P st).
  Proof. reflexivity. Qed.
  Lemma put_bed_wider f l x (st : state R S) : put_bed PP (wbed x) (widen k f l st) = widen k f l (put_bed P x st).
  Proof.
    unfold put_bed. rewrite !gmemo_id. autorewrite with ww. cbn [wbed b_eta b_depth b_uw b_ux b_uy b_qs b_sand b_mud].
    reflexivity.
  Qed.
  Lemma route_all_wider g f l (st : state R S) :
    route_all_parcels (A:=XA) PP g (widen k f l st) = rmp (widen k f l) (route_all_parcels (A:=XA) P g st).
  Proof.
    unfold route_all_parcels, route_all_parcels_res. autorewrite with wp ws.
    change (num_starts (A:=XA) PP g) with (num_starts (A:=XA) P g).
    destruct (get_start_indices _ _ _ _) as [[starts s] | e]; cbn [rbind rmp]; [| reflexivity].
    rewrite bed_of_wider, route_parcels_wider.
    destruct (route_parcels (A:=XA) P g st starts _ s) as [[[x V] s1] | e]; cbn [rbind rmp]; [| reflexivity].
    now rewrite put_bed_wider, ww_rng.
  Qed.
  Lemma diffuse_once_wider f l (st : state R S) : diffuse_once (A:=XA) PP (widen k f l st) = widen k f l (diffuse_once (A:=XA) P st).
  Proof. reflexivity. Qed.
  Lemma diffuse_passes_wider f l n : forall (st : state R S),
    diffuse_passes (A:=XA) PP n (widen k f l st) = widen k f l (diffuse_passes (A:=XA) P n st).
  Proof. induction n as [| n IH]; intros st; cbn [diffuse_passes]; [reflexivity |]. now rewrite diffuse_once_wider, IH. Qed.
  Lemma init_sediment_wider f l (st : state R S) :
    init_sediment_iteration (A:=XA) (widen k f l st) = widen k f l (init_sediment_iteration (A:=XA) st).
  Proof. unfold init_sediment_iteration. autorewrite with ww. ra. now rewrite scaled_0. Qed.
  Lemma route_sediment_wider f l (st : state R S) :
    route_sediment (A:=XA) PP (widen k f l st) = rmp (widen k f l) (route_sediment (A:=XA) P st).
  Proof.
    unfold route_sediment. rewrite init_sediment_wider, route_all_wider.
    destruct (route_all_parcels (A:=XA) P Sand _) as [st1 | e]; cbn [rbind rmp]; [| reflexivity].
    unfold topo_diffusion. rewrite wp_N_crossdiff. now rewrite diffuse_passes_wider, route_all_wider.
  Qed.

  (** ** Updates *)
  Lemma solve_wider f l (st : state R S) :
    solve_water_and_sediment_timestep (A:=XA) PP (widen k f l st)
    = rmp (widen k f l) (solve_water_and_sediment_timestep (A:=XA) P st).
  Proof.
    unfold solve_water_and_sediment_timestep. rewrite ws_eta, <- ww_eta0. unfold route_water. rewrite wp_itermax, water_iterations_wider.
    destruct (water_iterations (A:=XA) P _ _ _) as [st1 | e]; cbn [rbind rmp]; [| reflexivity].
    apply route_sediment_wider.
  Qed.
  Lemma subsidence_wider f l (st : state R S) : apply_subsidence (A:=XA) PP (widen k f l st) = widen k f l (apply_subsidence (A:=XA) P st).
  Proof.
    unfold apply_subsidence. autorewrite with wp ws. change (fleb (Arith:=XA)) with Rleb. rewrite Rleb_scale by assumption.
    destruct (_ && _); [now autorewrite with ww | reflexivity].
  Qed.
  Lemma levels_wider f l (st : state R S) : finalize_levels (A:=XA) PP (widen k f l st) = widen k f l (finalize_levels (A:=XA) P st).
  Proof. reflexivity. Qed.
  (** What the sand fractions become. *)
  Definition new_f (st : state R S) := s_sand_frac (compute_sand_frac (A:=XA) PP st).
  Definition new_l (st : state R S) := s_active_layer (compute_sand_frac (A:=XA) PP st).
  Lemma sand_frac_wider f l (st : state R S) :
    compute_sand_frac (A:=XA) PP (widen k f l st)
    = widen k (new_f (widen k f l st)) (new_l (widen k f l st)) (compute_sand_frac (A:=XA) P st).
  Proof. unfold compute_sand_frac at 1. reflexivity. Qed.
  Lemma finalize_wider f l (st : state R S) : exists f' l',
    finalize_timestep (A:=XA) PP (widen k f l st) = widen k f' l' (finalize_timestep (A:=XA) P st).
  Proof.
    unfold finalize_timestep. cbv zeta. rewrite levels_wider, sand_frac_wider.
    set (f' := new_f _). set (l' := new_l _). exists f', l'. clearbody f' l'. autorewrite with wp ws ww.
    f_equal. ra. f_equal. field. lra.
  Qed.
  Lemma ext_add_wider e d : ext_add (A:=XA) (later k e) (k * d) = later k (ext_add (A:=XA) e d).
  Proof. destruct e; cbn [ext_add later]; [reflexivity |]. f_equal. ra. ring. Qed.
  Lemma ext_geb_wider e d : ext_geb (A:=XA) (later k e) (k * d) = ext_geb (A:=XA) e d.
  Proof. destruct e; cbn [ext_geb later]; [reflexivity |]. ra. now apply Rleb_scale. Qed.
  Lemma advance_wider f l (st : state R S) : advance_clock (A:=XA) PP (widen k f l st) = widen k f l (advance_clock (A:=XA) P st).
  Proof.
    unfold advance_clock. autorewrite with wp ws ww. rewrite !ext_add_wider. f_equal. ra. ring.
  Qed.
  Lemma output_data_wider f l (st : state R S) :
    fst (output_data (A:=XA) PP (widen k f l st)) = widen k f l (fst (output_data (A:=XA) P st))
    /\ Forall2 (wider_output k) (snd (output_data (A:=XA) P st)) (snd (output_data (A:=XA) PP (widen k f l st))).
  Proof.
    unfold output_data. autorewrite with wp ws. rewrite ext_geb_wider.
    destruct (ext_geb (A:=XA) _ _); cbn [fst snd]; [| split; [reflexivity | constructor]]. split.
    - autorewrite with ww. cbn [later]. f_equal. f_equal. ra. ring.
    - constructor; [| constructor]. cbn [wider_output]. repeat split. 
  Qed.
  Lemma output_checkpoint_wider f l (st : state R S) :
    fst (output_checkpoint (A:=XA) PP (widen k f l st)) = widen k f l (fst (output_checkpoint (A:=XA) P st))
    /\ Forall2 (wider_output k) (snd (output_checkpoint (A:=XA) P st)) (snd (output_checkpoint (A:=XA) PP (widen k f l st))).
  Proof.
    unfold output_checkpoint. autorewrite with wp ws. rewrite ext_geb_wider.
    destruct (_ && _); cbn [fst snd]; [| split; [reflexivity | constructor]]. split.
    - autorewrite with ww. cbn [later]. f_equal. f_equal. ra. ring.
    - constructor; [| constructor]. cbn [wider_output]. repeat split. 
  Qed.
  Lemma write_output_wider f l (st : state R S) :
    fst (write_output (A:=XA) PP (widen k f l st)) = widen k f l (fst (write_output (A:=XA) P st))
    /\ Forall2 (wider_output k) (snd (write_output (A:=XA) P st)) (snd (write_output (A:=XA) PP (widen k f l st))).
  Proof.
    unfold write_output. destruct (output_data_wider f l st) as [E1 H1].
    destruct (output_data (A:=XA) P st) as [st1 o1]. destruct (output_data (A:=XA) PP _) as [st1' o1']. cbn [fst snd] in E1, H1. subst st1'.
    destruct (output_checkpoint_wider f l st1) as [E2 H2].
    destruct (output_checkpoint (A:=XA) P st1) as [st2 o2]. destruct (output_checkpoint (A:=XA) PP _) as [st2' o2']. cbn [fst snd] in E2, H2 |- *.
    split; [assumption |]. now apply Forall2_app.
  Qed.
  Lemma update_wider (st st' : state R S) : wider k st st' ->
    wider_result k (update (A:=XA) P st) (update (A:=XA) PP st').
  Proof.
    intros H. rewrite (wider_widen _ _ _ H). set (f := s_sand_frac st'). set (l := s_active_layer st'). clearbody f l. clear st' H.
    unfold update. rewrite solve_wider.
    destruct (solve_water_and_sediment_timestep (A:=XA) P st) as [st1 | e]; cbn [rbind rmp wider_result]; [| reflexivity].
    rewrite subsidence_wider. destruct (finalize_wider f l (apply_subsidence (A:=XA) P st1)) as (f' & l' & E). rewrite E. clear E.
    rewrite advance_wider. destruct (write_output_wider f' l' (advance_clock (A:=XA) P (finalize_timestep (A:=XA) P (apply_subsidence (A:=XA) P st1)))) as [E1 E2].
    destruct (write_output (A:=XA) P _) as [a o]. destruct (write_output (A:=XA) PP _) as [a' o']. cbn [fst snd] in E1, E2. subst a'.
    split; [apply widen_wider | assumption].
  Qed.
  Lemma updates_wider n : forall st st' : state R S, wider k st st' ->
    wider_result k (updates (A:=XA) P n st) (updates (A:=XA) PP n st').
  Proof.
    induction n as [| n IH]; intros st st' H; cbn [updates]; [split; [assumption | constructor] |].
    pose proof (update_wider st st' H) as H1.
    destruct (update (A:=XA) P st) as [[st1 o1] | e]; destruct (update (A:=XA) PP st') as [[st1' o1'] | e']; cbn [wider_result] in H1; try contradiction; cbn [rbind]; [| assumption].
    destruct H1 as [H1 F1]. pose proof (IH st1 st1' H1) as H2.
    destruct (updates (A:=XA) P n st1) as [[st2 o2] | e]; destruct (updates (A:=XA) PP n st1') as [[st2' o2'] | e']; cbn [wider_result] in H2; try contradiction; cbn [rbind]; [| assumption].
    destruct H2 as [H2 F2]. split; [assumption | now apply Forall2_app].
  Qed.
End Wider.

Section SandFraction.
  Context {S : Type} {G : Rng R S} (k : R) (Hk : 0 < k) (P : params R).
  Local Notation PP := (wider_params k P).
  Definition few (V : grid R) : Prop := forall i j, 1 / 1000000 < V i j <-> 1 / 1000000 < k * k * V i j.
  Lemma mixture_wider s m : fdiv (Arith:=XA) (k * k * s) (fadd (Arith:=XA) (k * k * m) (k * k * s)) = fdiv (Arith:=XA) s (fadd (Arith:=XA) m s).
  Proof.
    pose proof (kk_pos k Hk). ra. replace (k * k * m + k * k * s) with (k * k * (m + s)) by ring.
    unfold Rdiv. rewrite Rinv_mult. transitivity (s * / (m + s) * (k * k * / (k * k))); [ring |]. rewrite Rinv_r by lra. ring.
  Qed.
  Lemma aggrading_wider s m : (1 / 1000000 < m <-> 1 / 1000000 < k * k * m) ->
    fltb (Arith:=XA) (fz (Arith:=XA) 0) (k * k * s) || fltb (Arith:=XA) (flit (A:=XA) 1 1000000) (k * k * m)
    = fltb (Arith:=XA) (fz (Arith:=XA) 0) s || fltb (Arith:=XA) (flit (A:=XA) 1 1000000) m.
  Proof.
    intros H. pose proof (kk_pos k Hk). ra. rewrite Rltb_scale0 by assumption. f_equal. change (flit (A:=XA) 1 1000000) with (1 / 1000000).
    destruct (Rltb_spec (1 / 1000000) m) as [K | K]; destruct (Rltb_spec (1 / 1000000) (k * k * m)) as [K' | K']; try reflexivity; exfalso; tauto.
  Qed.
  Lemma sand_frac_same (st : state R S) : few (s_Vp_dep_mud st) ->
    compute_sand_frac (A:=XA) PP (widen k (s_sand_frac st) (s_active_layer st) st)
    = widen k (s_sand_frac (compute_sand_frac (A:=XA) P st)) (s_active_layer (compute_sand_frac (A:=XA) P st)) (compute_sand_frac (A:=XA) P st).
  Proof.
    intros H. unfold compute_sand_frac. rewrite !gmemo_id.
    rewrite ws_eta, ws_eta0, ws_Vp_dep_sand, ws_Vp_dep_mud, ws_sand_frac, ws_active_layer.
    rewrite wp_L, wp_W, wp_active_layer_thickness, wp_sand_frac_bc. unfold scaled.
    match goal with |- set_sand_frac ?x (set_active_layer ?y _) = _ => set (f1 := x); set (l1 := y) end.
    match goal with |- _ = widen k (s_sand_frac (set_sand_frac ?x (set_active_layer ?y _))) _ _ => assert (E1 : f1 = x); [| assert (E2 : l1 = y)] end.
    - unfold f1. apply functional_extensionality; intro i. apply functional_extensionality; intro j.
      rewrite aggrading_wider by apply H. now rewrite mixture_wider.
    - unfold l1. apply functional_extensionality; intro i. apply functional_extensionality; intro j.
      rewrite aggrading_wider by apply H. now rewrite mixture_wider.
    - rewrite <- E1, <- E2. clearbody f1 l1. reflexivity.
  Qed.
  Lemma finalize_same (st : state R S) : few (s_Vp_dep_mud st) ->
    finalize_timestep (A:=XA) PP (widen k (s_sand_frac st) (s_active_layer st) st)
    = widen k (s_sand_frac (finalize_timestep (A:=XA) P st)) (s_active_layer (finalize_timestep (A:=XA) P st)) (finalize_timestep (A:=XA) P st).
  Proof.
    intros H. unfold finalize_timestep. cbv zeta. rewrite levels_wider.
    set (z := finalize_levels (A:=XA) P st).
    assert (Ef : s_sand_frac st = s_sand_frac z) by reflexivity. assert (El : s_active_layer st = s_active_layer z) by reflexivity.
    assert (Em : few (s_Vp_dep_mud z)) by exact H. rewrite Ef, El. clearbody z. clear Ef El H. rewrite sand_frac_same by assumption.
    set (y := compute_sand_frac (A:=XA) P z). clearbody y.
    rewrite ww_H_SL, ws_H_SL, wp_SLR, wp_dt.
    replace (fmul (Arith:=XA) (p_SLR P / k) (k * p_dt P)) with (fmul (Arith:=XA) (p_SLR P) (p_dt P)) by (ra; field; lra).
    reflexivity.
  Qed.
  Lemma write_fields (Q : params R) (st : state R S) : s_sand_frac (fst (write_output (A:=XA) Q st)) = s_sand_frac st
    /\ s_active_layer (fst (write_output (A:=XA) Q st)) = s_active_layer st /\ s_Vp_dep_mud (fst (write_output (A:=XA) Q st)) = s_Vp_dep_mud st.
  Proof.
    unfold write_output, output_data, output_checkpoint. destruct (ext_geb _ _); destruct (_ && _); repeat split.
  Qed.
  Lemma advance_fields (st : state R S) : s_sand_frac (advance_clock (A:=XA) P st) = s_sand_frac st
    /\ s_active_layer (advance_clock (A:=XA) P st) = s_active_layer st.
  Proof. split; reflexivity. Qed.
  Lemma solve_keeps_sand (st z : state R S) : solve_water_and_sediment_timestep (A:=XA) P st = Ok z ->
    s_sand_frac z = s_sand_frac st /\ s_active_layer z = s_active_layer st.
  Proof.
    unfold solve_water_and_sediment_timestep. destruct (route_water (A:=XA) P _) as [y | e] eqn:E; cbn [rbind]; [| discriminate].
    intros E2. apply route_water_frame in E. apply route_sediment_frame in E2. unfold water_frame in E. unfold sed_frame in E2.
    decompose [and] E. decompose [and] E2. clear E E2. split; etransitivity; eassumption.
  Qed.
  Lemma subsidence_sand (st : state R S) : s_sand_frac (apply_subsidence (A:=XA) P st) = s_sand_frac st
    /\ s_active_layer (apply_subsidence (A:=XA) P st) = s_active_layer st.
  Proof. unfold apply_subsidence. destruct (_ && _); split; reflexivity. Qed.
  Lemma finalize_mud (st : state R S) :
    s_Vp_dep_mud (advance_clock (A:=XA) P (finalize_timestep (A:=XA) P st)) = s_Vp_dep_mud st.
  Proof. reflexivity. Qed.
  (** The end of an update. *)
  Definition ending (Q : params R) (st : state R S) := finalize_timestep (A:=XA) Q (apply_subsidence (A:=XA) Q st).
  Lemma update_ending Q (st : state R S) : update (A:=XA) Q st
    = rbind (solve_water_and_sediment_timestep (A:=XA) Q st) (fun z => Ok (write_output (A:=XA) Q (advance_clock (A:=XA) Q (ending Q z)))).
  Proof. unfold update, ending. reflexivity. Qed.
  Lemma ending_same (z : state R S) f l : few (s_Vp_dep_mud (advance_clock (A:=XA) P (ending P z))) ->
    f = s_sand_frac z -> l = s_active_layer z ->
    advance_clock (A:=XA) PP (ending PP (widen k f l z))
    = widen k (s_sand_frac (ending P z)) (s_active_layer (ending P z)) (advance_clock (A:=XA) P (ending P z)).
  Proof.
    unfold ending. intros Hm -> ->. rewrite finalize_mud in Hm. rewrite subsidence_wider by assumption.
    rewrite <- (proj1 (subsidence_sand z)), <- (proj2 (subsidence_sand z)).
    generalize dependent (apply_subsidence (A:=XA) P z). intros y Hm. rewrite finalize_same by assumption.
    now rewrite advance_wider.
  Qed.
  Lemma sand_fraction_wider (st st' st1 st1' : state R S) o o' : wider k st st' ->
    s_sand_frac st' = s_sand_frac st -> s_active_layer st' = s_active_layer st ->
    update (A:=XA) P st = Ok (st1, o) -> update (A:=XA) PP st' = Ok (st1', o') ->
    few (s_Vp_dep_mud st1) -> s_sand_frac st1' = s_sand_frac st1 /\ s_active_layer st1' = s_active_layer st1.
  Proof.
    intros H Hf Hl E E' HV. rewrite (wider_widen _ _ _ H), Hf, Hl in E'. clear st' H Hf Hl.
    rewrite update_ending in E, E'. rewrite solve_wider in E' by assumption.
    pose proof (solve_keeps_sand st) as KS.
    destruct (solve_water_and_sediment_timestep (A:=XA) P st) as [z | e]; cbn [rbind rmp] in E, E'; [| discriminate].
    destruct (KS z eq_refl) as [Kf Kl]. clear KS.
    pose proof (ending_same z (s_sand_frac st) (s_active_layer st)) as KE.
    pose proof (advance_fields (ending P z)) as KA.
    set (x := advance_clock (A:=XA) P (ending P z)) in *. set (x' := advance_clock (A:=XA) PP _) in *.
    set (f1 := s_sand_frac (ending P z)) in *. set (l1 := s_active_layer (ending P z)) in *.
    clearbody x x' f1 l1.
    pose proof (write_fields P x) as (W1 & W2 & W3). pose proof (write_fields PP x') as (V1 & V2 & _).
    apply (f_equal (fun r => match r with Ok p => fst p | Err _ => x end)) in E.
    apply (f_equal (fun r => match r with Ok p => fst p | Err _ => x' end)) in E'. cbv beta iota in E, E'. cbn [fst] in E, E'.
    rewrite E in W1, W2, W3. rewrite E' in V1, V2. rewrite W3 in HV.
    specialize (KE HV (eq_sym Kf) (eq_sym Kl)). rewrite V1, V2, W1, W2, KE, ws_sand_frac, ws_active_layer.
    destruct KA as [-> ->]. split; reflexivity.
  Qed.
End SandFraction.
