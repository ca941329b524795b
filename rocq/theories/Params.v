(** Constants of a model instance: user inputs and the values derived from
    them in init_tools.py create_other_variables (277-332) and
    create_boundary_conditions (392-463).  [Init.v] computes this record. *)
From Coq Require Import ZArith List.
From Verif Require Import Base.

Record params (F : Type) : Type := mkParams {
  p_L : Z;          (** rows — init_tools.py:306 *)
  p_W : Z;          (** columns — init_tools.py:307 *)
  p_CTR : Z;        (** centre column — init_tools.py:310-312 *)
  p_L0 : Z;         (** inlet length in cells — init_tools.py:418 *)
  p_N0 : Z;         (** inlet width in cells — init_tools.py:419 *)
  p_inlet : list Z; (** inlet columns — init_tools.py:574 *)
  p_dx : F;         (** cell size — model.py:339 *)
  p_h0 : F;         (** inlet depth — model.py:455 *)
  p_hb : F;         (** basin depth — init_tools.py:483 *)
  p_u0 : F;         (** inlet velocity — model.py u0 *)
  p_S0 : F;         (** slope — model.py S0 *)
  p_u_max : F;      (** velocity cap — init_tools.py:421 *)
  p_C0 : F;         (** concentration — init_tools.py:422 *)
  p_dry_depth : F;  (** init_tools.py:425 *)
  p_gamma : F;      (** init_tools.py:427-429 *)
  p_V0 : F;         (** init_tools.py:432 *)
  p_Qw0 : F;        (** init_tools.py:433 *)
  p_qw0 : F;        (** init_tools.py:436 *)
  p_Qp_water : F;   (** init_tools.py:437 *)
  p_qs0 : F;        (** init_tools.py:438 *)
  p_dVs : F;        (** init_tools.py:439 *)
  p_Qs0 : F;        (** init_tools.py:440 *)
  p_Vp_sed : F;     (** init_tools.py:441 *)
  p_stepmax : Z;    (** init_tools.py:444-447 *)
  p_dt : F;         (** init_tools.py:452 *)
  p_omega_flow_iter : F; (** init_tools.py:454 *)
  p_N_crossdiff : Z;     (** init_tools.py:457 *)
  p_lambda : F;          (** init_tools.py:459 *)
  p_diffusion_multiplier : F; (** init_tools.py:461-463 *)
  p_theta_water : F;     (** model.py theta_water *)
  p_theta_sand : F;      (** init_tools.py:299 *)
  p_theta_mud : F;       (** init_tools.py:300 *)
  p_U_dep_mud : F;       (** init_tools.py:302 *)
  p_U_ero_sand : F;      (** init_tools.py:303 *)
  p_U_ero_mud : F;       (** init_tools.py:304 *)
  p_itermax : Z;         (** model.py:387 *)
  p_Np_water : Z;        (** model.py:404 *)
  p_Np_sed : Z;          (** model.py:532 *)
  p_f_bedload : F;       (** model.py:550 *)
  p_f_bedload_router : F; (** the SandRouter's copy — init_tools.py:620, sed_tools.py:611 *)
  p_beta : F;            (** model.py beta *)
  p_omega_sfc : F;       (** model.py omega_sfc *)
  p_omega_flow : F;      (** model.py omega_flow *)
  p_Nsmooth : Z;         (** model.py Nsmooth *)
  p_Csmooth : F;         (** model.py:606 *)
  p_SLR : F;             (** model.py SLR *)
  p_sand_frac_bc : F;    (** model.py:1524 *)
  p_active_layer_thickness : F; (** model.py:572 *)
  p_toggle_subsidence : bool;   (** model.py toggle_subsidence *)
  p_start_subsidence : F;       (** model.py start_subsidence *)
  p_sigma : grid F;      (** subsidence per step — init_tools.py:779 *)
  p_save_dt : F;         (** model.py:1026 *)
  p_checkpoint_dt : F;   (** model.py:1037 *)
  p_save_checkpoint : bool (** model.py save_checkpoint *)
}.

Arguments p_L {F}.
Arguments p_W {F}.
Arguments p_CTR {F}.
Arguments p_L0 {F}.
Arguments p_N0 {F}.
Arguments p_inlet {F}.
Arguments p_dx {F}.
Arguments p_h0 {F}.
Arguments p_hb {F}.
Arguments p_u0 {F}.
Arguments p_S0 {F}.
Arguments p_u_max {F}.
Arguments p_C0 {F}.
Arguments p_dry_depth {F}.
Arguments p_gamma {F}.
Arguments p_V0 {F}.
Arguments p_Qw0 {F}.
Arguments p_qw0 {F}.
Arguments p_Qp_water {F}.
Arguments p_qs0 {F}.
Arguments p_dVs {F}.
Arguments p_Qs0 {F}.
Arguments p_Vp_sed {F}.
Arguments p_stepmax {F}.
Arguments p_dt {F}.
Arguments p_omega_flow_iter {F}.
Arguments p_N_crossdiff {F}.
Arguments p_lambda {F}.
Arguments p_diffusion_multiplier {F}.
Arguments p_theta_water {F}.
Arguments p_theta_sand {F}.
Arguments p_theta_mud {F}.
Arguments p_U_dep_mud {F}.
Arguments p_U_ero_sand {F}.
Arguments p_U_ero_mud {F}.
Arguments p_itermax {F}.
Arguments p_Np_water {F}.
Arguments p_Np_sed {F}.
Arguments p_f_bedload {F}.
Arguments p_f_bedload_router {F}.
Arguments p_beta {F}.
Arguments p_omega_sfc {F}.
Arguments p_omega_flow {F}.
Arguments p_Nsmooth {F}.
Arguments p_Csmooth {F}.
Arguments p_SLR {F}.
Arguments p_sand_frac_bc {F}.
Arguments p_active_layer_thickness {F}.
Arguments p_toggle_subsidence {F}.
Arguments p_start_subsidence {F}.
Arguments p_sigma {F}.
Arguments p_save_dt {F}.
Arguments p_checkpoint_dt {F}.
Arguments p_save_checkpoint {F}.
Arguments mkParams {F}.

(** Assignment to one attribute; mechanical. *)
Section Setters.
  Context {F : Type}.
  Definition setp_L (x : Z) (P : params F) : params F :=
    mkParams x (p_W P) (p_CTR P) (p_L0 P) (p_N0 P) (p_inlet P) (p_dx P) (p_h0 P) (p_hb P) (p_u0 P)
      (p_S0 P) (p_u_max P) (p_C0 P) (p_dry_depth P) (p_gamma P) (p_V0 P) (p_Qw0 P) (p_qw0 P)
      (p_Qp_water P) (p_qs0 P) (p_dVs P) (p_Qs0 P) (p_Vp_sed P) (p_stepmax P) (p_dt P)
      (p_omega_flow_iter P) (p_N_crossdiff P) (p_lambda P) (p_diffusion_multiplier P)
      (p_theta_water P) (p_theta_sand P) (p_theta_mud P) (p_U_dep_mud P) (p_U_ero_sand P)
      (p_U_ero_mud P) (p_itermax P) (p_Np_water P) (p_Np_sed P) (p_f_bedload P)
      (p_f_bedload_router P) (p_beta P) (p_omega_sfc P) (p_omega_flow P) (p_Nsmooth P) (p_Csmooth P)
      (p_SLR P) (p_sand_frac_bc P) (p_active_layer_thickness P) (p_toggle_subsidence P)
      (p_start_subsidence P) (p_sigma P) (p_save_dt P) (p_checkpoint_dt P) (p_save_checkpoint P).
  Definition setp_W (x : Z) (P : params F) : params F :=
    mkParams (p_L P) x (p_CTR P) (p_L0 P) (p_N0 P) (p_inlet P) (p_dx P) (p_h0 P) (p_hb P) (p_u0 P)
      (p_S0 P) (p_u_max P) (p_C0 P) (p_dry_depth P) (p_gamma P) (p_V0 P) (p_Qw0 P) (p_qw0 P)
      (p_Qp_water P) (p_qs0 P) (p_dVs P) (p_Qs0 P) (p_Vp_sed P) (p_stepmax P) (p_dt P)
      (p_omega_flow_iter P) (p_N_crossdiff P) (p_lambda P) (p_diffusion_multiplier P)
      (p_theta_water P) (p_theta_sand P) (p_theta_mud P) (p_U_dep_mud P) (p_U_ero_sand P)
      (p_U_ero_mud P) (p_itermax P) (p_Np_water P) (p_Np_sed P) (p_f_bedload P)
      (p_f_bedload_router P) (p_beta P) (p_omega_sfc P) (p_omega_flow P) (p_Nsmooth P) (p_Csmooth P)
      (p_SLR P) (p_sand_frac_bc P) (p_active_layer_thickness P) (p_toggle_subsidence P)
      (p_start_subsidence P) (p_sigma P) (p_save_dt P) (p_checkpoint_dt P) (p_save_checkpoint P).
  Definition setp_CTR (x : Z) (P : params F) : params F :=
    mkParams (p_L P) (p_W P) x (p_L0 P) (p_N0 P) (p_inlet P) (p_dx P) (p_h0 P) (p_hb P) (p_u0 P)
      (p_S0 P) (p_u_max P) (p_C0 P) (p_dry_depth P) (p_gamma P) (p_V0 P) (p_Qw0 P) (p_qw0 P)
      (p_Qp_water P) (p_qs0 P) (p_dVs P) (p_Qs0 P) (p_Vp_sed P) (p_stepmax P) (p_dt P)
      (p_omega_flow_iter P) (p_N_crossdiff P) (p_lambda P) (p_diffusion_multiplier P)
      (p_theta_water P) (p_theta_sand P) (p_theta_mud P) (p_U_dep_mud P) (p_U_ero_sand P)
      (p_U_ero_mud P) (p_itermax P) (p_Np_water P) (p_Np_sed P) (p_f_bedload P)
      (p_f_bedload_router P) (p_beta P) (p_omega_sfc P) (p_omega_flow P) (p_Nsmooth P) (p_Csmooth P)
      (p_SLR P) (p_sand_frac_bc P) (p_active_layer_thickness P) (p_toggle_subsidence P)
      (p_start_subsidence P) (p_sigma P) (p_save_dt P) (p_checkpoint_dt P) (p_save_checkpoint P).
  Definition setp_L0 (x : Z) (P : params F) : params F :=
    mkParams (p_L P) (p_W P) (p_CTR P) x (p_N0 P) (p_inlet P) (p_dx P) (p_h0 P) (p_hb P) (p_u0 P)
      (p_S0 P) (p_u_max P) (p_C0 P) (p_dry_depth P) (p_gamma P) (p_V0 P) (p_Qw0 P) (p_qw0 P)
      (p_Qp_water P) (p_qs0 P) (p_dVs P) (p_Qs0 P) (p_Vp_sed P) (p_stepmax P) (p_dt P)
      (p_omega_flow_iter P) (p_N_crossdiff P) (p_lambda P) (p_diffusion_multiplier P)
      (p_theta_water P) (p_theta_sand P) (p_theta_mud P) (p_U_dep_mud P) (p_U_ero_sand P)
      (p_U_ero_mud P) (p_itermax P) (p_Np_water P) (p_Np_sed P) (p_f_bedload P)
      (p_f_bedload_router P) (p_beta P) (p_omega_sfc P) (p_omega_flow P) (p_Nsmooth P) (p_Csmooth P)
      (p_SLR P) (p_sand_frac_bc P) (p_active_layer_thickness P) (p_toggle_subsidence P)
      (p_start_subsidence P) (p_sigma P) (p_save_dt P) (p_checkpoint_dt P) (p_save_checkpoint P).
  Definition setp_N0 (x : Z) (P : params F) : params F :=
    mkParams (p_L P) (p_W P) (p_CTR P) (p_L0 P) x (p_inlet P) (p_dx P) (p_h0 P) (p_hb P) (p_u0 P)
      (p_S0 P) (p_u_max P) (p_C0 P) (p_dry_depth P) (p_gamma P) (p_V0 P) (p_Qw0 P) (p_qw0 P)
      (p_Qp_water P) (p_qs0 P) (p_dVs P) (p_Qs0 P) (p_Vp_sed P) (p_stepmax P) (p_dt P)
      (p_omega_flow_iter P) (p_N_crossdiff P) (p_lambda P) (p_diffusion_multiplier P)
      (p_theta_water P) (p_theta_sand P) (p_theta_mud P) (p_U_dep_mud P) (p_U_ero_sand P)
      (p_U_ero_mud P) (p_itermax P) (p_Np_water P) (p_Np_sed P) (p_f_bedload P)
      (p_f_bedload_router P) (p_beta P) (p_omega_sfc P) (p_omega_flow P) (p_Nsmooth P) (p_Csmooth P)
      (p_SLR P) (p_sand_frac_bc P) (p_active_layer_thickness P) (p_toggle_subsidence P)
      (p_start_subsidence P) (p_sigma P) (p_save_dt P) (p_checkpoint_dt P) (p_save_checkpoint P).
  Definition setp_inlet (x : list Z) (P : params F) : params F :=
    mkParams (p_L P) (p_W P) (p_CTR P) (p_L0 P) (p_N0 P) x (p_dx P) (p_h0 P) (p_hb P) (p_u0 P)
      (p_S0 P) (p_u_max P) (p_C0 P) (p_dry_depth P) (p_gamma P) (p_V0 P) (p_Qw0 P) (p_qw0 P)
      (p_Qp_water P) (p_qs0 P) (p_dVs P) (p_Qs0 P) (p_Vp_sed P) (p_stepmax P) (p_dt P)
      (p_omega_flow_iter P) (p_N_crossdiff P) (p_lambda P) (p_diffusion_multiplier P)
      (p_theta_water P) (p_theta_sand P) (p_theta_mud P) (p_U_dep_mud P) (p_U_ero_sand P)
      (p_U_ero_mud P) (p_itermax P) (p_Np_water P) (p_Np_sed P) (p_f_bedload P)
      (p_f_bedload_router P) (p_beta P) (p_omega_sfc P) (p_omega_flow P) (p_Nsmooth P) (p_Csmooth P)
      (p_SLR P) (p_sand_frac_bc P) (p_active_layer_thickness P) (p_toggle_subsidence P)
      (p_start_subsidence P) (p_sigma P) (p_save_dt P) (p_checkpoint_dt P) (p_save_checkpoint P).
  Definition setp_dx (x : F) (P : params F) : params F :=
    mkParams (p_L P) (p_W P) (p_CTR P) (p_L0 P) (p_N0 P) (p_inlet P) x (p_h0 P) (p_hb P) (p_u0 P)
      (p_S0 P) (p_u_max P) (p_C0 P) (p_dry_depth P) (p_gamma P) (p_V0 P) (p_Qw0 P) (p_qw0 P)
      (p_Qp_water P) (p_qs0 P) (p_dVs P) (p_Qs0 P) (p_Vp_sed P) (p_stepmax P) (p_dt P)
      (p_omega_flow_iter P) (p_N_crossdiff P) (p_lambda P) (p_diffusion_multiplier P)
      (p_theta_water P) (p_theta_sand P) (p_theta_mud P) (p_U_dep_mud P) (p_U_ero_sand P)
      (p_U_ero_mud P) (p_itermax P) (p_Np_water P) (p_Np_sed P) (p_f_bedload P)
      (p_f_bedload_router P) (p_beta P) (p_omega_sfc P) (p_omega_flow P) (p_Nsmooth P) (p_Csmooth P)
      (p_SLR P) (p_sand_frac_bc P) (p_active_layer_thickness P) (p_toggle_subsidence P)
      (p_start_subsidence P) (p_sigma P) (p_save_dt P) (p_checkpoint_dt P) (p_save_checkpoint P).
  Definition setp_h0 (x : F) (P : params F) : params F :=
    mkParams (p_L P) (p_W P) (p_CTR P) (p_L0 P) (p_N0 P) (p_inlet P) (p_dx P) x (p_hb P) (p_u0 P)
      (p_S0 P) (p_u_max P) (p_C0 P) (p_dry_depth P) (p_gamma P) (p_V0 P) (p_Qw0 P) (p_qw0 P)
      (p_Qp_water P) (p_qs0 P) (p_dVs P) (p_Qs0 P) (p_Vp_sed P) (p_stepmax P) (p_dt P)
      (p_omega_flow_iter P) (p_N_crossdiff P) (p_lambda P) (p_diffusion_multiplier P)
      (p_theta_water P) (p_theta_sand P) (p_theta_mud P) (p_U_dep_mud P) (p_U_ero_sand P)
      (p_U_ero_mud P) (p_itermax P) (p_Np_water P) (p_Np_sed P) (p_f_bedload P)
      (p_f_bedload_router P) (p_beta P) (p_omega_sfc P) (p_omega_flow P) (p_Nsmooth P) (p_Csmooth P)
      (p_SLR P) (p_sand_frac_bc P) (p_active_layer_thickness P) (p_toggle_subsidence P)
      (p_start_subsidence P) (p_sigma P) (p_save_dt P) (p_checkpoint_dt P) (p_save_checkpoint P).
  Definition setp_hb (x : F) (P : params F) : params F :=
    mkParams (p_L P) (p_W P) (p_CTR P) (p_L0 P) (p_N0 P) (p_inlet P) (p_dx P) (p_h0 P) x (p_u0 P)
      (p_S0 P) (p_u_max P) (p_C0 P) (p_dry_depth P) (p_gamma P) (p_V0 P) (p_Qw0 P) (p_qw0 P)
      (p_Qp_water P) (p_qs0 P) (p_dVs P) (p_Qs0 P) (p_Vp_sed P) (p_stepmax P) (p_dt P)
      (p_omega_flow_iter P) (p_N_crossdiff P) (p_lambda P) (p_diffusion_multiplier P)
      (p_theta_water P) (p_theta_sand P) (p_theta_mud P) (p_U_dep_mud P) (p_U_ero_sand P)
      (p_U_ero_mud P) (p_itermax P) (p_Np_water P) (p_Np_sed P) (p_f_bedload P)
      (p_f_bedload_router P) (p_beta P) (p_omega_sfc P) (p_omega_flow P) (p_Nsmooth P) (p_Csmooth P)
      (p_SLR P) (p_sand_frac_bc P) (p_active_layer_thickness P) (p_toggle_subsidence P)
      (p_start_subsidence P) (p_sigma P) (p_save_dt P) (p_checkpoint_dt P) (p_save_checkpoint P).
  Definition setp_u0 (x : F) (P : params F) : params F :=
    mkParams (p_L P) (p_W P) (p_CTR P) (p_L0 P) (p_N0 P) (p_inlet P) (p_dx P) (p_h0 P) (p_hb P) x
      (p_S0 P) (p_u_max P) (p_C0 P) (p_dry_depth P) (p_gamma P) (p_V0 P) (p_Qw0 P) (p_qw0 P)
      (p_Qp_water P) (p_qs0 P) (p_dVs P) (p_Qs0 P) (p_Vp_sed P) (p_stepmax P) (p_dt P)
      (p_omega_flow_iter P) (p_N_crossdiff P) (p_lambda P) (p_diffusion_multiplier P)
      (p_theta_water P) (p_theta_sand P) (p_theta_mud P) (p_U_dep_mud P) (p_U_ero_sand P)
      (p_U_ero_mud P) (p_itermax P) (p_Np_water P) (p_Np_sed P) (p_f_bedload P)
      (p_f_bedload_router P) (p_beta P) (p_omega_sfc P) (p_omega_flow P) (p_Nsmooth P) (p_Csmooth P)
      (p_SLR P) (p_sand_frac_bc P) (p_active_layer_thickness P) (p_toggle_subsidence P)
      (p_start_subsidence P) (p_sigma P) (p_save_dt P) (p_checkpoint_dt P) (p_save_checkpoint P).
  Definition setp_S0 (x : F) (P : params F) : params F :=
    mkParams (p_L P) (p_W P) (p_CTR P) (p_L0 P) (p_N0 P) (p_inlet P) (p_dx P) (p_h0 P) (p_hb P)
      (p_u0 P) x (p_u_max P) (p_C0 P) (p_dry_depth P) (p_gamma P) (p_V0 P) (p_Qw0 P) (p_qw0 P)
      (p_Qp_water P) (p_qs0 P) (p_dVs P) (p_Qs0 P) (p_Vp_sed P) (p_stepmax P) (p_dt P)
      (p_omega_flow_iter P) (p_N_crossdiff P) (p_lambda P) (p_diffusion_multiplier P)
      (p_theta_water P) (p_theta_sand P) (p_theta_mud P) (p_U_dep_mud P) (p_U_ero_sand P)
      (p_U_ero_mud P) (p_itermax P) (p_Np_water P) (p_Np_sed P) (p_f_bedload P)
      (p_f_bedload_router P) (p_beta P) (p_omega_sfc P) (p_omega_flow P) (p_Nsmooth P) (p_Csmooth P)
      (p_SLR P) (p_sand_frac_bc P) (p_active_layer_thickness P) (p_toggle_subsidence P)
      (p_start_subsidence P) (p_sigma P) (p_save_dt P) (p_checkpoint_dt P) (p_save_checkpoint P).
  Definition setp_u_max (x : F) (P : params F) : params F :=
    mkParams (p_L P) (p_W P) (p_CTR P) (p_L0 P) (p_N0 P) (p_inlet P) (p_dx P) (p_h0 P) (p_hb P)
      (p_u0 P) (p_S0 P) x (p_C0 P) (p_dry_depth P) (p_gamma P) (p_V0 P) (p_Qw0 P) (p_qw0 P)
      (p_Qp_water P) (p_qs0 P) (p_dVs P) (p_Qs0 P) (p_Vp_sed P) (p_stepmax P) (p_dt P)
      (p_omega_flow_iter P) (p_N_crossdiff P) (p_lambda P) (p_diffusion_multiplier P)
      (p_theta_water P) (p_theta_sand P) (p_theta_mud P) (p_U_dep_mud P) (p_U_ero_sand P)
      (p_U_ero_mud P) (p_itermax P) (p_Np_water P) (p_Np_sed P) (p_f_bedload P)
      (p_f_bedload_router P) (p_beta P) (p_omega_sfc P) (p_omega_flow P) (p_Nsmooth P) (p_Csmooth P)
      (p_SLR P) (p_sand_frac_bc P) (p_active_layer_thickness P) (p_toggle_subsidence P)
      (p_start_subsidence P) (p_sigma P) (p_save_dt P) (p_checkpoint_dt P) (p_save_checkpoint P).
  Definition setp_C0 (x : F) (P : params F) : params F :=
    mkParams (p_L P) (p_W P) (p_CTR P) (p_L0 P) (p_N0 P) (p_inlet P) (p_dx P) (p_h0 P) (p_hb P)
      (p_u0 P) (p_S0 P) (p_u_max P) x (p_dry_depth P) (p_gamma P) (p_V0 P) (p_Qw0 P) (p_qw0 P)
      (p_Qp_water P) (p_qs0 P) (p_dVs P) (p_Qs0 P) (p_Vp_sed P) (p_stepmax P) (p_dt P)
      (p_omega_flow_iter P) (p_N_crossdiff P) (p_lambda P) (p_diffusion_multiplier P)
      (p_theta_water P) (p_theta_sand P) (p_theta_mud P) (p_U_dep_mud P) (p_U_ero_sand P)
      (p_U_ero_mud P) (p_itermax P) (p_Np_water P) (p_Np_sed P) (p_f_bedload P)
      (p_f_bedload_router P) (p_beta P) (p_omega_sfc P) (p_omega_flow P) (p_Nsmooth P) (p_Csmooth P)
      (p_SLR P) (p_sand_frac_bc P) (p_active_layer_thickness P) (p_toggle_subsidence P)
      (p_start_subsidence P) (p_sigma P) (p_save_dt P) (p_checkpoint_dt P) (p_save_checkpoint P).
  Definition setp_dry_depth (x : F) (P : params F) : params F :=
    mkParams (p_L P) (p_W P) (p_CTR P) (p_L0 P) (p_N0 P) (p_inlet P) (p_dx P) (p_h0 P) (p_hb P)
      (p_u0 P) (p_S0 P) (p_u_max P) (p_C0 P) x (p_gamma P) (p_V0 P) (p_Qw0 P) (p_qw0 P)
      (p_Qp_water P) (p_qs0 P) (p_dVs P) (p_Qs0 P) (p_Vp_sed P) (p_stepmax P) (p_dt P)
      (p_omega_flow_iter P) (p_N_crossdiff P) (p_lambda P) (p_diffusion_multiplier P)
      (p_theta_water P) (p_theta_sand P) (p_theta_mud P) (p_U_dep_mud P) (p_U_ero_sand P)
      (p_U_ero_mud P) (p_itermax P) (p_Np_water P) (p_Np_sed P) (p_f_bedload P)
      (p_f_bedload_router P) (p_beta P) (p_omega_sfc P) (p_omega_flow P) (p_Nsmooth P) (p_Csmooth P)
      (p_SLR P) (p_sand_frac_bc P) (p_active_layer_thickness P) (p_toggle_subsidence P)
      (p_start_subsidence P) (p_sigma P) (p_save_dt P) (p_checkpoint_dt P) (p_save_checkpoint P).
  Definition setp_gamma (x : F) (P : params F) : params F :=
    mkParams (p_L P) (p_W P) (p_CTR P) (p_L0 P) (p_N0 P) (p_inlet P) (p_dx P) (p_h0 P) (p_hb P)
      (p_u0 P) (p_S0 P) (p_u_max P) (p_C0 P) (p_dry_depth P) x (p_V0 P) (p_Qw0 P) (p_qw0 P)
      (p_Qp_water P) (p_qs0 P) (p_dVs P) (p_Qs0 P) (p_Vp_sed P) (p_stepmax P) (p_dt P)
      (p_omega_flow_iter P) (p_N_crossdiff P) (p_lambda P) (p_diffusion_multiplier P)
      (p_theta_water P) (p_theta_sand P) (p_theta_mud P) (p_U_dep_mud P) (p_U_ero_sand P)
      (p_U_ero_mud P) (p_itermax P) (p_Np_water P) (p_Np_sed P) (p_f_bedload P)
      (p_f_bedload_router P) (p_beta P) (p_omega_sfc P) (p_omega_flow P) (p_Nsmooth P) (p_Csmooth P)
      (p_SLR P) (p_sand_frac_bc P) (p_active_layer_thickness P) (p_toggle_subsidence P)
      (p_start_subsidence P) (p_sigma P) (p_save_dt P) (p_checkpoint_dt P) (p_save_checkpoint P).
  Definition setp_V0 (x : F) (P : params F) : params F :=
    mkParams (p_L P) (p_W P) (p_CTR P) (p_L0 P) (p_N0 P) (p_inlet P) (p_dx P) (p_h0 P) (p_hb P)
      (p_u0 P) (p_S0 P) (p_u_max P) (p_C0 P) (p_dry_depth P) (p_gamma P) x (p_Qw0 P) (p_qw0 P)
      (p_Qp_water P) (p_qs0 P) (p_dVs P) (p_Qs0 P) (p_Vp_sed P) (p_stepmax P) (p_dt P)
      (p_omega_flow_iter P) (p_N_crossdiff P) (p_lambda P) (p_diffusion_multiplier P)
      (p_theta_water P) (p_theta_sand P) (p_theta_mud P) (p_U_dep_mud P) (p_U_ero_sand P)
      (p_U_ero_mud P) (p_itermax P) (p_Np_water P) (p_Np_sed P) (p_f_bedload P)
      (p_f_bedload_router P) (p_beta P) (p_omega_sfc P) (p_omega_flow P) (p_Nsmooth P) (p_Csmooth P)
      (p_SLR P) (p_sand_frac_bc P) (p_active_layer_thickness P) (p_toggle_subsidence P)
      (p_start_subsidence P) (p_sigma P) (p_save_dt P) (p_checkpoint_dt P) (p_save_checkpoint P).
  Definition setp_Qw0 (x : F) (P : params F) : params F :=
    mkParams (p_L P) (p_W P) (p_CTR P) (p_L0 P) (p_N0 P) (p_inlet P) (p_dx P) (p_h0 P) (p_hb P)
      (p_u0 P) (p_S0 P) (p_u_max P) (p_C0 P) (p_dry_depth P) (p_gamma P) (p_V0 P) x (p_qw0 P)
      (p_Qp_water P) (p_qs0 P) (p_dVs P) (p_Qs0 P) (p_Vp_sed P) (p_stepmax P) (p_dt P)
      (p_omega_flow_iter P) (p_N_crossdiff P) (p_lambda P) (p_diffusion_multiplier P)
      (p_theta_water P) (p_theta_sand P) (p_theta_mud P) (p_U_dep_mud P) (p_U_ero_sand P)
      (p_U_ero_mud P) (p_itermax P) (p_Np_water P) (p_Np_sed P) (p_f_bedload P)
      (p_f_bedload_router P) (p_beta P) (p_omega_sfc P) (p_omega_flow P) (p_Nsmooth P) (p_Csmooth P)
      (p_SLR P) (p_sand_frac_bc P) (p_active_layer_thickness P) (p_toggle_subsidence P)
      (p_start_subsidence P) (p_sigma P) (p_save_dt P) (p_checkpoint_dt P) (p_save_checkpoint P).
  Definition setp_qw0 (x : F) (P : params F) : params F :=
    mkParams (p_L P) (p_W P) (p_CTR P) (p_L0 P) (p_N0 P) (p_inlet P) (p_dx P) (p_h0 P) (p_hb P)
      (p_u0 P) (p_S0 P) (p_u_max P) (p_C0 P) (p_dry_depth P) (p_gamma P) (p_V0 P) (p_Qw0 P) x
      (p_Qp_water P) (p_qs0 P) (p_dVs P) (p_Qs0 P) (p_Vp_sed P) (p_stepmax P) (p_dt P)
      (p_omega_flow_iter P) (p_N_crossdiff P) (p_lambda P) (p_diffusion_multiplier P)
      (p_theta_water P) (p_theta_sand P) (p_theta_mud P) (p_U_dep_mud P) (p_U_ero_sand P)
      (p_U_ero_mud P) (p_itermax P) (p_Np_water P) (p_Np_sed P) (p_f_bedload P)
      (p_f_bedload_router P) (p_beta P) (p_omega_sfc P) (p_omega_flow P) (p_Nsmooth P) (p_Csmooth P)
      (p_SLR P) (p_sand_frac_bc P) (p_active_layer_thickness P) (p_toggle_subsidence P)
      (p_start_subsidence P) (p_sigma P) (p_save_dt P) (p_checkpoint_dt P) (p_save_checkpoint P).
  Definition setp_Qp_water (x : F) (P : params F) : params F :=
    mkParams (p_L P) (p_W P) (p_CTR P) (p_L0 P) (p_N0 P) (p_inlet P) (p_dx P) (p_h0 P) (p_hb P)
      (p_u0 P) (p_S0 P) (p_u_max P) (p_C0 P) (p_dry_depth P) (p_gamma P) (p_V0 P) (p_Qw0 P)
      (p_qw0 P) x (p_qs0 P) (p_dVs P) (p_Qs0 P) (p_Vp_sed P) (p_stepmax P) (p_dt P)
      (p_omega_flow_iter P) (p_N_crossdiff P) (p_lambda P) (p_diffusion_multiplier P)
      (p_theta_water P) (p_theta_sand P) (p_theta_mud P) (p_U_dep_mud P) (p_U_ero_sand P)
      (p_U_ero_mud P) (p_itermax P) (p_Np_water P) (p_Np_sed P) (p_f_bedload P)
      (p_f_bedload_router P) (p_beta P) (p_omega_sfc P) (p_omega_flow P) (p_Nsmooth P) (p_Csmooth P)
      (p_SLR P) (p_sand_frac_bc P) (p_active_layer_thickness P) (p_toggle_subsidence P)
      (p_start_subsidence P) (p_sigma P) (p_save_dt P) (p_checkpoint_dt P) (p_save_checkpoint P).
  Definition setp_qs0 (x : F) (P : params F) : params F :=
    mkParams (p_L P) (p_W P) (p_CTR P) (p_L0 P) (p_N0 P) (p_inlet P) (p_dx P) (p_h0 P) (p_hb P)
      (p_u0 P) (p_S0 P) (p_u_max P) (p_C0 P) (p_dry_depth P) (p_gamma P) (p_V0 P) (p_Qw0 P)
      (p_qw0 P) (p_Qp_water P) x (p_dVs P) (p_Qs0 P) (p_Vp_sed P) (p_stepmax P) (p_dt P)
      (p_omega_flow_iter P) (p_N_crossdiff P) (p_lambda P) (p_diffusion_multiplier P)
      (p_theta_water P) (p_theta_sand P) (p_theta_mud P) (p_U_dep_mud P) (p_U_ero_sand P)
      (p_U_ero_mud P) (p_itermax P) (p_Np_water P) (p_Np_sed P) (p_f_bedload P)
      (p_f_bedload_router P) (p_beta P) (p_omega_sfc P) (p_omega_flow P) (p_Nsmooth P) (p_Csmooth P)
      (p_SLR P) (p_sand_frac_bc P) (p_active_layer_thickness P) (p_toggle_subsidence P)
      (p_start_subsidence P) (p_sigma P) (p_save_dt P) (p_checkpoint_dt P) (p_save_checkpoint P).
  Definition setp_dVs (x : F) (P : params F) : params F :=
    mkParams (p_L P) (p_W P) (p_CTR P) (p_L0 P) (p_N0 P) (p_inlet P) (p_dx P) (p_h0 P) (p_hb P)
      (p_u0 P) (p_S0 P) (p_u_max P) (p_C0 P) (p_dry_depth P) (p_gamma P) (p_V0 P) (p_Qw0 P)
      (p_qw0 P) (p_Qp_water P) (p_qs0 P) x (p_Qs0 P) (p_Vp_sed P) (p_stepmax P) (p_dt P)
      (p_omega_flow_iter P) (p_N_crossdiff P) (p_lambda P) (p_diffusion_multiplier P)
      (p_theta_water P) (p_theta_sand P) (p_theta_mud P) (p_U_dep_mud P) (p_U_ero_sand P)
      (p_U_ero_mud P) (p_itermax P) (p_Np_water P) (p_Np_sed P) (p_f_bedload P)
      (p_f_bedload_router P) (p_beta P) (p_omega_sfc P) (p_omega_flow P) (p_Nsmooth P) (p_Csmooth P)
      (p_SLR P) (p_sand_frac_bc P) (p_active_layer_thickness P) (p_toggle_subsidence P)
      (p_start_subsidence P) (p_sigma P) (p_save_dt P) (p_checkpoint_dt P) (p_save_checkpoint P).
  Definition setp_Qs0 (x : F) (P : params F) : params F :=
    mkParams (p_L P) (p_W P) (p_CTR P) (p_L0 P) (p_N0 P) (p_inlet P) (p_dx P) (p_h0 P) (p_hb P)
      (p_u0 P) (p_S0 P) (p_u_max P) (p_C0 P) (p_dry_depth P) (p_gamma P) (p_V0 P) (p_Qw0 P)
      (p_qw0 P) (p_Qp_water P) (p_qs0 P) (p_dVs P) x (p_Vp_sed P) (p_stepmax P) (p_dt P)
      (p_omega_flow_iter P) (p_N_crossdiff P) (p_lambda P) (p_diffusion_multiplier P)
      (p_theta_water P) (p_theta_sand P) (p_theta_mud P) (p_U_dep_mud P) (p_U_ero_sand P)
      (p_U_ero_mud P) (p_itermax P) (p_Np_water P) (p_Np_sed P) (p_f_bedload P)
      (p_f_bedload_router P) (p_beta P) (p_omega_sfc P) (p_omega_flow P) (p_Nsmooth P) (p_Csmooth P)
      (p_SLR P) (p_sand_frac_bc P) (p_active_layer_thickness P) (p_toggle_subsidence P)
      (p_start_subsidence P) (p_sigma P) (p_save_dt P) (p_checkpoint_dt P) (p_save_checkpoint P).
  Definition setp_Vp_sed (x : F) (P : params F) : params F :=
    mkParams (p_L P) (p_W P) (p_CTR P) (p_L0 P) (p_N0 P) (p_inlet P) (p_dx P) (p_h0 P) (p_hb P)
      (p_u0 P) (p_S0 P) (p_u_max P) (p_C0 P) (p_dry_depth P) (p_gamma P) (p_V0 P) (p_Qw0 P)
      (p_qw0 P) (p_Qp_water P) (p_qs0 P) (p_dVs P) (p_Qs0 P) x (p_stepmax P) (p_dt P)
      (p_omega_flow_iter P) (p_N_crossdiff P) (p_lambda P) (p_diffusion_multiplier P)
      (p_theta_water P) (p_theta_sand P) (p_theta_mud P) (p_U_dep_mud P) (p_U_ero_sand P)
      (p_U_ero_mud P) (p_itermax P) (p_Np_water P) (p_Np_sed P) (p_f_bedload P)
      (p_f_bedload_router P) (p_beta P) (p_omega_sfc P) (p_omega_flow P) (p_Nsmooth P) (p_Csmooth P)
      (p_SLR P) (p_sand_frac_bc P) (p_active_layer_thickness P) (p_toggle_subsidence P)
      (p_start_subsidence P) (p_sigma P) (p_save_dt P) (p_checkpoint_dt P) (p_save_checkpoint P).
  Definition setp_stepmax (x : Z) (P : params F) : params F :=
    mkParams (p_L P) (p_W P) (p_CTR P) (p_L0 P) (p_N0 P) (p_inlet P) (p_dx P) (p_h0 P) (p_hb P)
      (p_u0 P) (p_S0 P) (p_u_max P) (p_C0 P) (p_dry_depth P) (p_gamma P) (p_V0 P) (p_Qw0 P)
      (p_qw0 P) (p_Qp_water P) (p_qs0 P) (p_dVs P) (p_Qs0 P) (p_Vp_sed P) x (p_dt P)
      (p_omega_flow_iter P) (p_N_crossdiff P) (p_lambda P) (p_diffusion_multiplier P)
      (p_theta_water P) (p_theta_sand P) (p_theta_mud P) (p_U_dep_mud P) (p_U_ero_sand P)
      (p_U_ero_mud P) (p_itermax P) (p_Np_water P) (p_Np_sed P) (p_f_bedload P)
      (p_f_bedload_router P) (p_beta P) (p_omega_sfc P) (p_omega_flow P) (p_Nsmooth P) (p_Csmooth P)
      (p_SLR P) (p_sand_frac_bc P) (p_active_layer_thickness P) (p_toggle_subsidence P)
      (p_start_subsidence P) (p_sigma P) (p_save_dt P) (p_checkpoint_dt P) (p_save_checkpoint P).
  Definition setp_dt (x : F) (P : params F) : params F :=
    mkParams (p_L P) (p_W P) (p_CTR P) (p_L0 P) (p_N0 P) (p_inlet P) (p_dx P) (p_h0 P) (p_hb P)
      (p_u0 P) (p_S0 P) (p_u_max P) (p_C0 P) (p_dry_depth P) (p_gamma P) (p_V0 P) (p_Qw0 P)
      (p_qw0 P) (p_Qp_water P) (p_qs0 P) (p_dVs P) (p_Qs0 P) (p_Vp_sed P) (p_stepmax P) x
      (p_omega_flow_iter P) (p_N_crossdiff P) (p_lambda P) (p_diffusion_multiplier P)
      (p_theta_water P) (p_theta_sand P) (p_theta_mud P) (p_U_dep_mud P) (p_U_ero_sand P)
      (p_U_ero_mud P) (p_itermax P) (p_Np_water P) (p_Np_sed P) (p_f_bedload P)
      (p_f_bedload_router P) (p_beta P) (p_omega_sfc P) (p_omega_flow P) (p_Nsmooth P) (p_Csmooth P)
      (p_SLR P) (p_sand_frac_bc P) (p_active_layer_thickness P) (p_toggle_subsidence P)
      (p_start_subsidence P) (p_sigma P) (p_save_dt P) (p_checkpoint_dt P) (p_save_checkpoint P).
  Definition setp_omega_flow_iter (x : F) (P : params F) : params F :=
    mkParams (p_L P) (p_W P) (p_CTR P) (p_L0 P) (p_N0 P) (p_inlet P) (p_dx P) (p_h0 P) (p_hb P)
      (p_u0 P) (p_S0 P) (p_u_max P) (p_C0 P) (p_dry_depth P) (p_gamma P) (p_V0 P) (p_Qw0 P)
      (p_qw0 P) (p_Qp_water P) (p_qs0 P) (p_dVs P) (p_Qs0 P) (p_Vp_sed P) (p_stepmax P) (p_dt P) x
      (p_N_crossdiff P) (p_lambda P) (p_diffusion_multiplier P) (p_theta_water P) (p_theta_sand P)
      (p_theta_mud P) (p_U_dep_mud P) (p_U_ero_sand P) (p_U_ero_mud P) (p_itermax P) (p_Np_water P)
      (p_Np_sed P) (p_f_bedload P) (p_f_bedload_router P) (p_beta P) (p_omega_sfc P)
      (p_omega_flow P) (p_Nsmooth P) (p_Csmooth P) (p_SLR P) (p_sand_frac_bc P)
      (p_active_layer_thickness P) (p_toggle_subsidence P) (p_start_subsidence P) (p_sigma P)
      (p_save_dt P) (p_checkpoint_dt P) (p_save_checkpoint P).
  Definition setp_N_crossdiff (x : Z) (P : params F) : params F :=
    mkParams (p_L P) (p_W P) (p_CTR P) (p_L0 P) (p_N0 P) (p_inlet P) (p_dx P) (p_h0 P) (p_hb P)
      (p_u0 P) (p_S0 P) (p_u_max P) (p_C0 P) (p_dry_depth P) (p_gamma P) (p_V0 P) (p_Qw0 P)
      (p_qw0 P) (p_Qp_water P) (p_qs0 P) (p_dVs P) (p_Qs0 P) (p_Vp_sed P) (p_stepmax P) (p_dt P)
      (p_omega_flow_iter P) x (p_lambda P) (p_diffusion_multiplier P) (p_theta_water P)
      (p_theta_sand P) (p_theta_mud P) (p_U_dep_mud P) (p_U_ero_sand P) (p_U_ero_mud P)
      (p_itermax P) (p_Np_water P) (p_Np_sed P) (p_f_bedload P) (p_f_bedload_router P) (p_beta P)
      (p_omega_sfc P) (p_omega_flow P) (p_Nsmooth P) (p_Csmooth P) (p_SLR P) (p_sand_frac_bc P)
      (p_active_layer_thickness P) (p_toggle_subsidence P) (p_start_subsidence P) (p_sigma P)
      (p_save_dt P) (p_checkpoint_dt P) (p_save_checkpoint P).
  Definition setp_lambda (x : F) (P : params F) : params F :=
    mkParams (p_L P) (p_W P) (p_CTR P) (p_L0 P) (p_N0 P) (p_inlet P) (p_dx P) (p_h0 P) (p_hb P)
      (p_u0 P) (p_S0 P) (p_u_max P) (p_C0 P) (p_dry_depth P) (p_gamma P) (p_V0 P) (p_Qw0 P)
      (p_qw0 P) (p_Qp_water P) (p_qs0 P) (p_dVs P) (p_Qs0 P) (p_Vp_sed P) (p_stepmax P) (p_dt P)
      (p_omega_flow_iter P) (p_N_crossdiff P) x (p_diffusion_multiplier P) (p_theta_water P)
      (p_theta_sand P) (p_theta_mud P) (p_U_dep_mud P) (p_U_ero_sand P) (p_U_ero_mud P)
      (p_itermax P) (p_Np_water P) (p_Np_sed P) (p_f_bedload P) (p_f_bedload_router P) (p_beta P)
      (p_omega_sfc P) (p_omega_flow P) (p_Nsmooth P) (p_Csmooth P) (p_SLR P) (p_sand_frac_bc P)
      (p_active_layer_thickness P) (p_toggle_subsidence P) (p_start_subsidence P) (p_sigma P)
      (p_save_dt P) (p_checkpoint_dt P) (p_save_checkpoint P).
  Definition setp_diffusion_multiplier (x : F) (P : params F) : params F :=
    mkParams (p_L P) (p_W P) (p_CTR P) (p_L0 P) (p_N0 P) (p_inlet P) (p_dx P) (p_h0 P) (p_hb P)
      (p_u0 P) (p_S0 P) (p_u_max P) (p_C0 P) (p_dry_depth P) (p_gamma P) (p_V0 P) (p_Qw0 P)
      (p_qw0 P) (p_Qp_water P) (p_qs0 P) (p_dVs P) (p_Qs0 P) (p_Vp_sed P) (p_stepmax P) (p_dt P)
      (p_omega_flow_iter P) (p_N_crossdiff P) (p_lambda P) x (p_theta_water P) (p_theta_sand P)
      (p_theta_mud P) (p_U_dep_mud P) (p_U_ero_sand P) (p_U_ero_mud P) (p_itermax P) (p_Np_water P)
      (p_Np_sed P) (p_f_bedload P) (p_f_bedload_router P) (p_beta P) (p_omega_sfc P)
      (p_omega_flow P) (p_Nsmooth P) (p_Csmooth P) (p_SLR P) (p_sand_frac_bc P)
      (p_active_layer_thickness P) (p_toggle_subsidence P) (p_start_subsidence P) (p_sigma P)
      (p_save_dt P) (p_checkpoint_dt P) (p_save_checkpoint P).
  Definition setp_theta_water (x : F) (P : params F) : params F :=
    mkParams (p_L P) (p_W P) (p_CTR P) (p_L0 P) (p_N0 P) (p_inlet P) (p_dx P) (p_h0 P) (p_hb P)
      (p_u0 P) (p_S0 P) (p_u_max P) (p_C0 P) (p_dry_depth P) (p_gamma P) (p_V0 P) (p_Qw0 P)
      (p_qw0 P) (p_Qp_water P) (p_qs0 P) (p_dVs P) (p_Qs0 P) (p_Vp_sed P) (p_stepmax P) (p_dt P)
      (p_omega_flow_iter P) (p_N_crossdiff P) (p_lambda P) (p_diffusion_multiplier P) x
      (p_theta_sand P) (p_theta_mud P) (p_U_dep_mud P) (p_U_ero_sand P) (p_U_ero_mud P)
      (p_itermax P) (p_Np_water P) (p_Np_sed P) (p_f_bedload P) (p_f_bedload_router P) (p_beta P)
      (p_omega_sfc P) (p_omega_flow P) (p_Nsmooth P) (p_Csmooth P) (p_SLR P) (p_sand_frac_bc P)
      (p_active_layer_thickness P) (p_toggle_subsidence P) (p_start_subsidence P) (p_sigma P)
      (p_save_dt P) (p_checkpoint_dt P) (p_save_checkpoint P).
  Definition setp_theta_sand (x : F) (P : params F) : params F :=
    mkParams (p_L P) (p_W P) (p_CTR P) (p_L0 P) (p_N0 P) (p_inlet P) (p_dx P) (p_h0 P) (p_hb P)
      (p_u0 P) (p_S0 P) (p_u_max P) (p_C0 P) (p_dry_depth P) (p_gamma P) (p_V0 P) (p_Qw0 P)
      (p_qw0 P) (p_Qp_water P) (p_qs0 P) (p_dVs P) (p_Qs0 P) (p_Vp_sed P) (p_stepmax P) (p_dt P)
      (p_omega_flow_iter P) (p_N_crossdiff P) (p_lambda P) (p_diffusion_multiplier P)
      (p_theta_water P) x (p_theta_mud P) (p_U_dep_mud P) (p_U_ero_sand P) (p_U_ero_mud P)
      (p_itermax P) (p_Np_water P) (p_Np_sed P) (p_f_bedload P) (p_f_bedload_router P) (p_beta P)
      (p_omega_sfc P) (p_omega_flow P) (p_Nsmooth P) (p_Csmooth P) (p_SLR P) (p_sand_frac_bc P)
      (p_active_layer_thickness P) (p_toggle_subsidence P) (p_start_subsidence P) (p_sigma P)
      (p_save_dt P) (p_checkpoint_dt P) (p_save_checkpoint P).
  Definition setp_theta_mud (x : F) (P : params F) : params F :=
    mkParams (p_L P) (p_W P) (p_CTR P) (p_L0 P) (p_N0 P) (p_inlet P) (p_dx P) (p_h0 P) (p_hb P)
      (p_u0 P) (p_S0 P) (p_u_max P) (p_C0 P) (p_dry_depth P) (p_gamma P) (p_V0 P) (p_Qw0 P)
      (p_qw0 P) (p_Qp_water P) (p_qs0 P) (p_dVs P) (p_Qs0 P) (p_Vp_sed P) (p_stepmax P) (p_dt P)
      (p_omega_flow_iter P) (p_N_crossdiff P) (p_lambda P) (p_diffusion_multiplier P)
      (p_theta_water P) (p_theta_sand P) x (p_U_dep_mud P) (p_U_ero_sand P) (p_U_ero_mud P)
      (p_itermax P) (p_Np_water P) (p_Np_sed P) (p_f_bedload P) (p_f_bedload_router P) (p_beta P)
      (p_omega_sfc P) (p_omega_flow P) (p_Nsmooth P) (p_Csmooth P) (p_SLR P) (p_sand_frac_bc P)
      (p_active_layer_thickness P) (p_toggle_subsidence P) (p_start_subsidence P) (p_sigma P)
      (p_save_dt P) (p_checkpoint_dt P) (p_save_checkpoint P).
  Definition setp_U_dep_mud (x : F) (P : params F) : params F :=
    mkParams (p_L P) (p_W P) (p_CTR P) (p_L0 P) (p_N0 P) (p_inlet P) (p_dx P) (p_h0 P) (p_hb P)
      (p_u0 P) (p_S0 P) (p_u_max P) (p_C0 P) (p_dry_depth P) (p_gamma P) (p_V0 P) (p_Qw0 P)
      (p_qw0 P) (p_Qp_water P) (p_qs0 P) (p_dVs P) (p_Qs0 P) (p_Vp_sed P) (p_stepmax P) (p_dt P)
      (p_omega_flow_iter P) (p_N_crossdiff P) (p_lambda P) (p_diffusion_multiplier P)
      (p_theta_water P) (p_theta_sand P) (p_theta_mud P) x (p_U_ero_sand P) (p_U_ero_mud P)
      (p_itermax P) (p_Np_water P) (p_Np_sed P) (p_f_bedload P) (p_f_bedload_router P) (p_beta P)
      (p_omega_sfc P) (p_omega_flow P) (p_Nsmooth P) (p_Csmooth P) (p_SLR P) (p_sand_frac_bc P)
      (p_active_layer_thickness P) (p_toggle_subsidence P) (p_start_subsidence P) (p_sigma P)
      (p_save_dt P) (p_checkpoint_dt P) (p_save_checkpoint P).
  Definition setp_U_ero_sand (x : F) (P : params F) : params F :=
    mkParams (p_L P) (p_W P) (p_CTR P) (p_L0 P) (p_N0 P) (p_inlet P) (p_dx P) (p_h0 P) (p_hb P)
      (p_u0 P) (p_S0 P) (p_u_max P) (p_C0 P) (p_dry_depth P) (p_gamma P) (p_V0 P) (p_Qw0 P)
      (p_qw0 P) (p_Qp_water P) (p_qs0 P) (p_dVs P) (p_Qs0 P) (p_Vp_sed P) (p_stepmax P) (p_dt P)
      (p_omega_flow_iter P) (p_N_crossdiff P) (p_lambda P) (p_diffusion_multiplier P)
      (p_theta_water P) (p_theta_sand P) (p_theta_mud P) (p_U_dep_mud P) x (p_U_ero_mud P)
      (p_itermax P) (p_Np_water P) (p_Np_sed P) (p_f_bedload P) (p_f_bedload_router P) (p_beta P)
      (p_omega_sfc P) (p_omega_flow P) (p_Nsmooth P) (p_Csmooth P) (p_SLR P) (p_sand_frac_bc P)
      (p_active_layer_thickness P) (p_toggle_subsidence P) (p_start_subsidence P) (p_sigma P)
      (p_save_dt P) (p_checkpoint_dt P) (p_save_checkpoint P).
  Definition setp_U_ero_mud (x : F) (P : params F) : params F :=
    mkParams (p_L P) (p_W P) (p_CTR P) (p_L0 P) (p_N0 P) (p_inlet P) (p_dx P) (p_h0 P) (p_hb P)
      (p_u0 P) (p_S0 P) (p_u_max P) (p_C0 P) (p_dry_depth P) (p_gamma P) (p_V0 P) (p_Qw0 P)
      (p_qw0 P) (p_Qp_water P) (p_qs0 P) (p_dVs P) (p_Qs0 P) (p_Vp_sed P) (p_stepmax P) (p_dt P)
      (p_omega_flow_iter P) (p_N_crossdiff P) (p_lambda P) (p_diffusion_multiplier P)
      (p_theta_water P) (p_theta_sand P) (p_theta_mud P) (p_U_dep_mud P) (p_U_ero_sand P) x
      (p_itermax P) (p_Np_water P) (p_Np_sed P) (p_f_bedload P) (p_f_bedload_router P) (p_beta P)
      (p_omega_sfc P) (p_omega_flow P) (p_Nsmooth P) (p_Csmooth P) (p_SLR P) (p_sand_frac_bc P)
      (p_active_layer_thickness P) (p_toggle_subsidence P) (p_start_subsidence P) (p_sigma P)
      (p_save_dt P) (p_checkpoint_dt P) (p_save_checkpoint P).
  Definition setp_itermax (x : Z) (P : params F) : params F :=
    mkParams (p_L P) (p_W P) (p_CTR P) (p_L0 P) (p_N0 P) (p_inlet P) (p_dx P) (p_h0 P) (p_hb P)
      (p_u0 P) (p_S0 P) (p_u_max P) (p_C0 P) (p_dry_depth P) (p_gamma P) (p_V0 P) (p_Qw0 P)
      (p_qw0 P) (p_Qp_water P) (p_qs0 P) (p_dVs P) (p_Qs0 P) (p_Vp_sed P) (p_stepmax P) (p_dt P)
      (p_omega_flow_iter P) (p_N_crossdiff P) (p_lambda P) (p_diffusion_multiplier P)
      (p_theta_water P) (p_theta_sand P) (p_theta_mud P) (p_U_dep_mud P) (p_U_ero_sand P)
      (p_U_ero_mud P) x (p_Np_water P) (p_Np_sed P) (p_f_bedload P) (p_f_bedload_router P)
      (p_beta P) (p_omega_sfc P) (p_omega_flow P) (p_Nsmooth P) (p_Csmooth P) (p_SLR P)
      (p_sand_frac_bc P) (p_active_layer_thickness P) (p_toggle_subsidence P) (p_start_subsidence P)
      (p_sigma P) (p_save_dt P) (p_checkpoint_dt P) (p_save_checkpoint P).
  Definition setp_Np_water (x : Z) (P : params F) : params F :=
    mkParams (p_L P) (p_W P) (p_CTR P) (p_L0 P) (p_N0 P) (p_inlet P) (p_dx P) (p_h0 P) (p_hb P)
      (p_u0 P) (p_S0 P) (p_u_max P) (p_C0 P) (p_dry_depth P) (p_gamma P) (p_V0 P) (p_Qw0 P)
      (p_qw0 P) (p_Qp_water P) (p_qs0 P) (p_dVs P) (p_Qs0 P) (p_Vp_sed P) (p_stepmax P) (p_dt P)
      (p_omega_flow_iter P) (p_N_crossdiff P) (p_lambda P) (p_diffusion_multiplier P)
      (p_theta_water P) (p_theta_sand P) (p_theta_mud P) (p_U_dep_mud P) (p_U_ero_sand P)
      (p_U_ero_mud P) (p_itermax P) x (p_Np_sed P) (p_f_bedload P) (p_f_bedload_router P) (p_beta P)
      (p_omega_sfc P) (p_omega_flow P) (p_Nsmooth P) (p_Csmooth P) (p_SLR P) (p_sand_frac_bc P)
      (p_active_layer_thickness P) (p_toggle_subsidence P) (p_start_subsidence P) (p_sigma P)
      (p_save_dt P) (p_checkpoint_dt P) (p_save_checkpoint P).
  Definition setp_Np_sed (x : Z) (P : params F) : params F :=
    mkParams (p_L P) (p_W P) (p_CTR P) (p_L0 P) (p_N0 P) (p_inlet P) (p_dx P) (p_h0 P) (p_hb P)
      (p_u0 P) (p_S0 P) (p_u_max P) (p_C0 P) (p_dry_depth P) (p_gamma P) (p_V0 P) (p_Qw0 P)
      (p_qw0 P) (p_Qp_water P) (p_qs0 P) (p_dVs P) (p_Qs0 P) (p_Vp_sed P) (p_stepmax P) (p_dt P)
      (p_omega_flow_iter P) (p_N_crossdiff P) (p_lambda P) (p_diffusion_multiplier P)
      (p_theta_water P) (p_theta_sand P) (p_theta_mud P) (p_U_dep_mud P) (p_U_ero_sand P)
      (p_U_ero_mud P) (p_itermax P) (p_Np_water P) x (p_f_bedload P) (p_f_bedload_router P)
      (p_beta P) (p_omega_sfc P) (p_omega_flow P) (p_Nsmooth P) (p_Csmooth P) (p_SLR P)
      (p_sand_frac_bc P) (p_active_layer_thickness P) (p_toggle_subsidence P) (p_start_subsidence P)
      (p_sigma P) (p_save_dt P) (p_checkpoint_dt P) (p_save_checkpoint P).
  Definition setp_f_bedload (x : F) (P : params F) : params F :=
    mkParams (p_L P) (p_W P) (p_CTR P) (p_L0 P) (p_N0 P) (p_inlet P) (p_dx P) (p_h0 P) (p_hb P)
      (p_u0 P) (p_S0 P) (p_u_max P) (p_C0 P) (p_dry_depth P) (p_gamma P) (p_V0 P) (p_Qw0 P)
      (p_qw0 P) (p_Qp_water P) (p_qs0 P) (p_dVs P) (p_Qs0 P) (p_Vp_sed P) (p_stepmax P) (p_dt P)
      (p_omega_flow_iter P) (p_N_crossdiff P) (p_lambda P) (p_diffusion_multiplier P)
      (p_theta_water P) (p_theta_sand P) (p_theta_mud P) (p_U_dep_mud P) (p_U_ero_sand P)
      (p_U_ero_mud P) (p_itermax P) (p_Np_water P) (p_Np_sed P) x (p_f_bedload_router P) (p_beta P)
      (p_omega_sfc P) (p_omega_flow P) (p_Nsmooth P) (p_Csmooth P) (p_SLR P) (p_sand_frac_bc P)
      (p_active_layer_thickness P) (p_toggle_subsidence P) (p_start_subsidence P) (p_sigma P)
      (p_save_dt P) (p_checkpoint_dt P) (p_save_checkpoint P).
  Definition setp_f_bedload_router (x : F) (P : params F) : params F :=
    mkParams (p_L P) (p_W P) (p_CTR P) (p_L0 P) (p_N0 P) (p_inlet P) (p_dx P) (p_h0 P) (p_hb P)
      (p_u0 P) (p_S0 P) (p_u_max P) (p_C0 P) (p_dry_depth P) (p_gamma P) (p_V0 P) (p_Qw0 P)
      (p_qw0 P) (p_Qp_water P) (p_qs0 P) (p_dVs P) (p_Qs0 P) (p_Vp_sed P) (p_stepmax P) (p_dt P)
      (p_omega_flow_iter P) (p_N_crossdiff P) (p_lambda P) (p_diffusion_multiplier P)
      (p_theta_water P) (p_theta_sand P) (p_theta_mud P) (p_U_dep_mud P) (p_U_ero_sand P)
      (p_U_ero_mud P) (p_itermax P) (p_Np_water P) (p_Np_sed P) (p_f_bedload P) x (p_beta P)
      (p_omega_sfc P) (p_omega_flow P) (p_Nsmooth P) (p_Csmooth P) (p_SLR P) (p_sand_frac_bc P)
      (p_active_layer_thickness P) (p_toggle_subsidence P) (p_start_subsidence P) (p_sigma P)
      (p_save_dt P) (p_checkpoint_dt P) (p_save_checkpoint P).
  Definition setp_beta (x : F) (P : params F) : params F :=
    mkParams (p_L P) (p_W P) (p_CTR P) (p_L0 P) (p_N0 P) (p_inlet P) (p_dx P) (p_h0 P) (p_hb P)
      (p_u0 P) (p_S0 P) (p_u_max P) (p_C0 P) (p_dry_depth P) (p_gamma P) (p_V0 P) (p_Qw0 P)
      (p_qw0 P) (p_Qp_water P) (p_qs0 P) (p_dVs P) (p_Qs0 P) (p_Vp_sed P) (p_stepmax P) (p_dt P)
      (p_omega_flow_iter P) (p_N_crossdiff P) (p_lambda P) (p_diffusion_multiplier P)
      (p_theta_water P) (p_theta_sand P) (p_theta_mud P) (p_U_dep_mud P) (p_U_ero_sand P)
      (p_U_ero_mud P) (p_itermax P) (p_Np_water P) (p_Np_sed P) (p_f_bedload P)
      (p_f_bedload_router P) x (p_omega_sfc P) (p_omega_flow P) (p_Nsmooth P) (p_Csmooth P)
      (p_SLR P) (p_sand_frac_bc P) (p_active_layer_thickness P) (p_toggle_subsidence P)
      (p_start_subsidence P) (p_sigma P) (p_save_dt P) (p_checkpoint_dt P) (p_save_checkpoint P).
  Definition setp_omega_sfc (x : F) (P : params F) : params F :=
    mkParams (p_L P) (p_W P) (p_CTR P) (p_L0 P) (p_N0 P) (p_inlet P) (p_dx P) (p_h0 P) (p_hb P)
      (p_u0 P) (p_S0 P) (p_u_max P) (p_C0 P) (p_dry_depth P) (p_gamma P) (p_V0 P) (p_Qw0 P)
      (p_qw0 P) (p_Qp_water P) (p_qs0 P) (p_dVs P) (p_Qs0 P) (p_Vp_sed P) (p_stepmax P) (p_dt P)
      (p_omega_flow_iter P) (p_N_crossdiff P) (p_lambda P) (p_diffusion_multiplier P)
      (p_theta_water P) (p_theta_sand P) (p_theta_mud P) (p_U_dep_mud P) (p_U_ero_sand P)
      (p_U_ero_mud P) (p_itermax P) (p_Np_water P) (p_Np_sed P) (p_f_bedload P)
      (p_f_bedload_router P) (p_beta P) x (p_omega_flow P) (p_Nsmooth P) (p_Csmooth P) (p_SLR P)
      (p_sand_frac_bc P) (p_active_layer_thickness P) (p_toggle_subsidence P) (p_start_subsidence P)
      (p_sigma P) (p_save_dt P) (p_checkpoint_dt P) (p_save_checkpoint P).
  Definition setp_omega_flow (x : F) (P : params F) : params F :=
    mkParams (p_L P) (p_W P) (p_CTR P) (p_L0 P) (p_N0 P) (p_inlet P) (p_dx P) (p_h0 P) (p_hb P)
      (p_u0 P) (p_S0 P) (p_u_max P) (p_C0 P) (p_dry_depth P) (p_gamma P) (p_V0 P) (p_Qw0 P)
      (p_qw0 P) (p_Qp_water P) (p_qs0 P) (p_dVs P) (p_Qs0 P) (p_Vp_sed P) (p_stepmax P) (p_dt P)
      (p_omega_flow_iter P) (p_N_crossdiff P) (p_lambda P) (p_diffusion_multiplier P)
      (p_theta_water P) (p_theta_sand P) (p_theta_mud P) (p_U_dep_mud P) (p_U_ero_sand P)
      (p_U_ero_mud P) (p_itermax P) (p_Np_water P) (p_Np_sed P) (p_f_bedload P)
      (p_f_bedload_router P) (p_beta P) (p_omega_sfc P) x (p_Nsmooth P) (p_Csmooth P) (p_SLR P)
      (p_sand_frac_bc P) (p_active_layer_thickness P) (p_toggle_subsidence P) (p_start_subsidence P)
      (p_sigma P) (p_save_dt P) (p_checkpoint_dt P) (p_save_checkpoint P).
  Definition setp_Nsmooth (x : Z) (P : params F) : params F :=
    mkParams (p_L P) (p_W P) (p_CTR P) (p_L0 P) (p_N0 P) (p_inlet P) (p_dx P) (p_h0 P) (p_hb P)
      (p_u0 P) (p_S0 P) (p_u_max P) (p_C0 P) (p_dry_depth P) (p_gamma P) (p_V0 P) (p_Qw0 P)
      (p_qw0 P) (p_Qp_water P) (p_qs0 P) (p_dVs P) (p_Qs0 P) (p_Vp_sed P) (p_stepmax P) (p_dt P)
      (p_omega_flow_iter P) (p_N_crossdiff P) (p_lambda P) (p_diffusion_multiplier P)
      (p_theta_water P) (p_theta_sand P) (p_theta_mud P) (p_U_dep_mud P) (p_U_ero_sand P)
      (p_U_ero_mud P) (p_itermax P) (p_Np_water P) (p_Np_sed P) (p_f_bedload P)
      (p_f_bedload_router P) (p_beta P) (p_omega_sfc P) (p_omega_flow P) x (p_Csmooth P) (p_SLR P)
      (p_sand_frac_bc P) (p_active_layer_thickness P) (p_toggle_subsidence P) (p_start_subsidence P)
      (p_sigma P) (p_save_dt P) (p_checkpoint_dt P) (p_save_checkpoint P).
  Definition setp_Csmooth (x : F) (P : params F) : params F :=
    mkParams (p_L P) (p_W P) (p_CTR P) (p_L0 P) (p_N0 P) (p_inlet P) (p_dx P) (p_h0 P) (p_hb P)
      (p_u0 P) (p_S0 P) (p_u_max P) (p_C0 P) (p_dry_depth P) (p_gamma P) (p_V0 P) (p_Qw0 P)
      (p_qw0 P) (p_Qp_water P) (p_qs0 P) (p_dVs P) (p_Qs0 P) (p_Vp_sed P) (p_stepmax P) (p_dt P)
      (p_omega_flow_iter P) (p_N_crossdiff P) (p_lambda P) (p_diffusion_multiplier P)
      (p_theta_water P) (p_theta_sand P) (p_theta_mud P) (p_U_dep_mud P) (p_U_ero_sand P)
      (p_U_ero_mud P) (p_itermax P) (p_Np_water P) (p_Np_sed P) (p_f_bedload P)
      (p_f_bedload_router P) (p_beta P) (p_omega_sfc P) (p_omega_flow P) (p_Nsmooth P) x (p_SLR P)
      (p_sand_frac_bc P) (p_active_layer_thickness P) (p_toggle_subsidence P) (p_start_subsidence P)
      (p_sigma P) (p_save_dt P) (p_checkpoint_dt P) (p_save_checkpoint P).
  Definition setp_SLR (x : F) (P : params F) : params F :=
    mkParams (p_L P) (p_W P) (p_CTR P) (p_L0 P) (p_N0 P) (p_inlet P) (p_dx P) (p_h0 P) (p_hb P)
      (p_u0 P) (p_S0 P) (p_u_max P) (p_C0 P) (p_dry_depth P) (p_gamma P) (p_V0 P) (p_Qw0 P)
      (p_qw0 P) (p_Qp_water P) (p_qs0 P) (p_dVs P) (p_Qs0 P) (p_Vp_sed P) (p_stepmax P) (p_dt P)
      (p_omega_flow_iter P) (p_N_crossdiff P) (p_lambda P) (p_diffusion_multiplier P)
      (p_theta_water P) (p_theta_sand P) (p_theta_mud P) (p_U_dep_mud P) (p_U_ero_sand P)
      (p_U_ero_mud P) (p_itermax P) (p_Np_water P) (p_Np_sed P) (p_f_bedload P)
      (p_f_bedload_router P) (p_beta P) (p_omega_sfc P) (p_omega_flow P) (p_Nsmooth P) (p_Csmooth P)
      x (p_sand_frac_bc P) (p_active_layer_thickness P) (p_toggle_subsidence P)
      (p_start_subsidence P) (p_sigma P) (p_save_dt P) (p_checkpoint_dt P) (p_save_checkpoint P).
  Definition setp_sand_frac_bc (x : F) (P : params F) : params F :=
    mkParams (p_L P) (p_W P) (p_CTR P) (p_L0 P) (p_N0 P) (p_inlet P) (p_dx P) (p_h0 P) (p_hb P)
      (p_u0 P) (p_S0 P) (p_u_max P) (p_C0 P) (p_dry_depth P) (p_gamma P) (p_V0 P) (p_Qw0 P)
      (p_qw0 P) (p_Qp_water P) (p_qs0 P) (p_dVs P) (p_Qs0 P) (p_Vp_sed P) (p_stepmax P) (p_dt P)
      (p_omega_flow_iter P) (p_N_crossdiff P) (p_lambda P) (p_diffusion_multiplier P)
      (p_theta_water P) (p_theta_sand P) (p_theta_mud P) (p_U_dep_mud P) (p_U_ero_sand P)
      (p_U_ero_mud P) (p_itermax P) (p_Np_water P) (p_Np_sed P) (p_f_bedload P)
      (p_f_bedload_router P) (p_beta P) (p_omega_sfc P) (p_omega_flow P) (p_Nsmooth P) (p_Csmooth P)
      (p_SLR P) x (p_active_layer_thickness P) (p_toggle_subsidence P) (p_start_subsidence P)
      (p_sigma P) (p_save_dt P) (p_checkpoint_dt P) (p_save_checkpoint P).
  Definition setp_active_layer_thickness (x : F) (P : params F) : params F :=
    mkParams (p_L P) (p_W P) (p_CTR P) (p_L0 P) (p_N0 P) (p_inlet P) (p_dx P) (p_h0 P) (p_hb P)
      (p_u0 P) (p_S0 P) (p_u_max P) (p_C0 P) (p_dry_depth P) (p_gamma P) (p_V0 P) (p_Qw0 P)
      (p_qw0 P) (p_Qp_water P) (p_qs0 P) (p_dVs P) (p_Qs0 P) (p_Vp_sed P) (p_stepmax P) (p_dt P)
      (p_omega_flow_iter P) (p_N_crossdiff P) (p_lambda P) (p_diffusion_multiplier P)
      (p_theta_water P) (p_theta_sand P) (p_theta_mud P) (p_U_dep_mud P) (p_U_ero_sand P)
      (p_U_ero_mud P) (p_itermax P) (p_Np_water P) (p_Np_sed P) (p_f_bedload P)
      (p_f_bedload_router P) (p_beta P) (p_omega_sfc P) (p_omega_flow P) (p_Nsmooth P) (p_Csmooth P)
      (p_SLR P) (p_sand_frac_bc P) x (p_toggle_subsidence P) (p_start_subsidence P) (p_sigma P)
      (p_save_dt P) (p_checkpoint_dt P) (p_save_checkpoint P).
  Definition setp_toggle_subsidence (x : bool) (P : params F) : params F :=
    mkParams (p_L P) (p_W P) (p_CTR P) (p_L0 P) (p_N0 P) (p_inlet P) (p_dx P) (p_h0 P) (p_hb P)
      (p_u0 P) (p_S0 P) (p_u_max P) (p_C0 P) (p_dry_depth P) (p_gamma P) (p_V0 P) (p_Qw0 P)
      (p_qw0 P) (p_Qp_water P) (p_qs0 P) (p_dVs P) (p_Qs0 P) (p_Vp_sed P) (p_stepmax P) (p_dt P)
      (p_omega_flow_iter P) (p_N_crossdiff P) (p_lambda P) (p_diffusion_multiplier P)
      (p_theta_water P) (p_theta_sand P) (p_theta_mud P) (p_U_dep_mud P) (p_U_ero_sand P)
      (p_U_ero_mud P) (p_itermax P) (p_Np_water P) (p_Np_sed P) (p_f_bedload P)
      (p_f_bedload_router P) (p_beta P) (p_omega_sfc P) (p_omega_flow P) (p_Nsmooth P) (p_Csmooth P)
      (p_SLR P) (p_sand_frac_bc P) (p_active_layer_thickness P) x (p_start_subsidence P) (p_sigma P)
      (p_save_dt P) (p_checkpoint_dt P) (p_save_checkpoint P).
  Definition setp_start_subsidence (x : F) (P : params F) : params F :=
    mkParams (p_L P) (p_W P) (p_CTR P) (p_L0 P) (p_N0 P) (p_inlet P) (p_dx P) (p_h0 P) (p_hb P)
      (p_u0 P) (p_S0 P) (p_u_max P) (p_C0 P) (p_dry_depth P) (p_gamma P) (p_V0 P) (p_Qw0 P)
      (p_qw0 P) (p_Qp_water P) (p_qs0 P) (p_dVs P) (p_Qs0 P) (p_Vp_sed P) (p_stepmax P) (p_dt P)
      (p_omega_flow_iter P) (p_N_crossdiff P) (p_lambda P) (p_diffusion_multiplier P)
      (p_theta_water P) (p_theta_sand P) (p_theta_mud P) (p_U_dep_mud P) (p_U_ero_sand P)
      (p_U_ero_mud P) (p_itermax P) (p_Np_water P) (p_Np_sed P) (p_f_bedload P)
      (p_f_bedload_router P) (p_beta P) (p_omega_sfc P) (p_omega_flow P) (p_Nsmooth P) (p_Csmooth P)
      (p_SLR P) (p_sand_frac_bc P) (p_active_layer_thickness P) (p_toggle_subsidence P) x
      (p_sigma P) (p_save_dt P) (p_checkpoint_dt P) (p_save_checkpoint P).
  Definition setp_sigma (x : grid F) (P : params F) : params F :=
    mkParams (p_L P) (p_W P) (p_CTR P) (p_L0 P) (p_N0 P) (p_inlet P) (p_dx P) (p_h0 P) (p_hb P)
      (p_u0 P) (p_S0 P) (p_u_max P) (p_C0 P) (p_dry_depth P) (p_gamma P) (p_V0 P) (p_Qw0 P)
      (p_qw0 P) (p_Qp_water P) (p_qs0 P) (p_dVs P) (p_Qs0 P) (p_Vp_sed P) (p_stepmax P) (p_dt P)
      (p_omega_flow_iter P) (p_N_crossdiff P) (p_lambda P) (p_diffusion_multiplier P)
      (p_theta_water P) (p_theta_sand P) (p_theta_mud P) (p_U_dep_mud P) (p_U_ero_sand P)
      (p_U_ero_mud P) (p_itermax P) (p_Np_water P) (p_Np_sed P) (p_f_bedload P)
      (p_f_bedload_router P) (p_beta P) (p_omega_sfc P) (p_omega_flow P) (p_Nsmooth P) (p_Csmooth P)
      (p_SLR P) (p_sand_frac_bc P) (p_active_layer_thickness P) (p_toggle_subsidence P)
      (p_start_subsidence P) x (p_save_dt P) (p_checkpoint_dt P) (p_save_checkpoint P).
  Definition setp_save_dt (x : F) (P : params F) : params F :=
    mkParams (p_L P) (p_W P) (p_CTR P) (p_L0 P) (p_N0 P) (p_inlet P) (p_dx P) (p_h0 P) (p_hb P)
      (p_u0 P) (p_S0 P) (p_u_max P) (p_C0 P) (p_dry_depth P) (p_gamma P) (p_V0 P) (p_Qw0 P)
      (p_qw0 P) (p_Qp_water P) (p_qs0 P) (p_dVs P) (p_Qs0 P) (p_Vp_sed P) (p_stepmax P) (p_dt P)
      (p_omega_flow_iter P) (p_N_crossdiff P) (p_lambda P) (p_diffusion_multiplier P)
      (p_theta_water P) (p_theta_sand P) (p_theta_mud P) (p_U_dep_mud P) (p_U_ero_sand P)
      (p_U_ero_mud P) (p_itermax P) (p_Np_water P) (p_Np_sed P) (p_f_bedload P)
      (p_f_bedload_router P) (p_beta P) (p_omega_sfc P) (p_omega_flow P) (p_Nsmooth P) (p_Csmooth P)
      (p_SLR P) (p_sand_frac_bc P) (p_active_layer_thickness P) (p_toggle_subsidence P)
      (p_start_subsidence P) (p_sigma P) x (p_checkpoint_dt P) (p_save_checkpoint P).
  Definition setp_checkpoint_dt (x : F) (P : params F) : params F :=
    mkParams (p_L P) (p_W P) (p_CTR P) (p_L0 P) (p_N0 P) (p_inlet P) (p_dx P) (p_h0 P) (p_hb P)
      (p_u0 P) (p_S0 P) (p_u_max P) (p_C0 P) (p_dry_depth P) (p_gamma P) (p_V0 P) (p_Qw0 P)
      (p_qw0 P) (p_Qp_water P) (p_qs0 P) (p_dVs P) (p_Qs0 P) (p_Vp_sed P) (p_stepmax P) (p_dt P)
      (p_omega_flow_iter P) (p_N_crossdiff P) (p_lambda P) (p_diffusion_multiplier P)
      (p_theta_water P) (p_theta_sand P) (p_theta_mud P) (p_U_dep_mud P) (p_U_ero_sand P)
      (p_U_ero_mud P) (p_itermax P) (p_Np_water P) (p_Np_sed P) (p_f_bedload P)
      (p_f_bedload_router P) (p_beta P) (p_omega_sfc P) (p_omega_flow P) (p_Nsmooth P) (p_Csmooth P)
      (p_SLR P) (p_sand_frac_bc P) (p_active_layer_thickness P) (p_toggle_subsidence P)
      (p_start_subsidence P) (p_sigma P) (p_save_dt P) x (p_save_checkpoint P).
  Definition setp_save_checkpoint (x : bool) (P : params F) : params F :=
    mkParams (p_L P) (p_W P) (p_CTR P) (p_L0 P) (p_N0 P) (p_inlet P) (p_dx P) (p_h0 P) (p_hb P)
      (p_u0 P) (p_S0 P) (p_u_max P) (p_C0 P) (p_dry_depth P) (p_gamma P) (p_V0 P) (p_Qw0 P)
      (p_qw0 P) (p_Qp_water P) (p_qs0 P) (p_dVs P) (p_Qs0 P) (p_Vp_sed P) (p_stepmax P) (p_dt P)
      (p_omega_flow_iter P) (p_N_crossdiff P) (p_lambda P) (p_diffusion_multiplier P)
      (p_theta_water P) (p_theta_sand P) (p_theta_mud P) (p_U_dep_mud P) (p_U_ero_sand P)
      (p_U_ero_mud P) (p_itermax P) (p_Np_water P) (p_Np_sed P) (p_f_bedload P)
      (p_f_bedload_router P) (p_beta P) (p_omega_sfc P) (p_omega_flow P) (p_Nsmooth P) (p_Csmooth P)
      (p_SLR P) (p_sand_frac_bc P) (p_active_layer_thickness P) (p_toggle_subsidence P)
      (p_start_subsidence P) (p_sigma P) (p_save_dt P) (p_checkpoint_dt P) x.
End Setters.
