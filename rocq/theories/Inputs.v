(** The configuration of a model: the numeric parameters of
    /repo/pyDeltaRCM/default.yml with the current values of the attributes of
    the same name.  Output switches and file names are in [Switches.v] and
    [Files.v].  The comments give the setter in model.py. *)
From Coq Require Import ZArith.
From Verif Require Import Base.

Record inputs (F : Type) : Type := mkInputs {
  i_Length : F (** model.py:305 *);
  i_Width : F (** model.py:322 *);
  i_dx : F (** model.py:339 *);
  i_L0_meters : F (** model.py:359 *);
  i_S0 : F (** model.py:375 *);
  i_itermax : Z (** model.py:387 *);
  i_Np_water : Z (** model.py:404 *);
  i_u0 : F (** model.py:423 *);
  i_N0_meters : F (** model.py:436 *);
  i_h0 : F (** model.py:455 *);
  i_hb : option F (** model.py:471 *);
  i_H_SL : F (** model.py:482 *);
  i_SLR : F (** model.py:500 *);
  i_Np_sed : Z (** model.py:532 *);
  i_f_bedload : F (** model.py:550 *);
  i_active_layer_thickness : option F (** model.py:572 *);
  i_C0_percent : F (** model.py:593 *);
  i_Csmooth : F (** model.py:606 *);
  i_toggle_subsidence : bool (** model.py:623 *);
  i_subsidence_rate : F (** model.py:634 *);
  i_start_subsidence : F (** model.py:645 *);
  i_save_dt : F (** model.py:1025 *);
  i_checkpoint_dt : option F (** model.py:1036 *);
  i_save_checkpoint : bool (** model.py:1049 *);
  i_omega_sfc : F (** model.py:1084 *);
  i_omega_flow : F (** model.py:1095 *);
  i_Nsmooth : Z (** model.py:1106 *);
  i_theta_water : F (** model.py:1127 *);
  i_coeff_theta_sand : F (** model.py:1145 *);
  i_coeff_theta_mud : F (** model.py:1163 *);
  i_beta : F (** model.py:1177 *);
  i_sed_lag : F (** model.py:1192 *);
  i_coeff_U_dep_mud : F (** model.py:1207 *);
  i_coeff_U_ero_mud : F (** model.py:1222 *);
  i_coeff_U_ero_sand : F (** model.py:1237 *);
  i_alpha : F (** model.py:1251 *);
  i_stepmax : option F (** model.py:1280 *);
  i_sand_frac_bc : F (** model.py:1524 *);
  i_seed : option Z (** model.py:290 *)
}.
Arguments i_Length {F}.
Arguments i_Width {F}.
Arguments i_dx {F}.
Arguments i_L0_meters {F}.
Arguments i_S0 {F}.
Arguments i_itermax {F}.
Arguments i_Np_water {F}.
Arguments i_u0 {F}.
Arguments i_N0_meters {F}.
Arguments i_h0 {F}.
Arguments i_hb {F}.
Arguments i_H_SL {F}.
Arguments i_SLR {F}.
Arguments i_Np_sed {F}.
Arguments i_f_bedload {F}.
Arguments i_active_layer_thickness {F}.
Arguments i_C0_percent {F}.
Arguments i_Csmooth {F}.
Arguments i_toggle_subsidence {F}.
Arguments i_subsidence_rate {F}.
Arguments i_start_subsidence {F}.
Arguments i_save_dt {F}.
Arguments i_checkpoint_dt {F}.
Arguments i_save_checkpoint {F}.
Arguments i_omega_sfc {F}.
Arguments i_omega_flow {F}.
Arguments i_Nsmooth {F}.
Arguments i_theta_water {F}.
Arguments i_coeff_theta_sand {F}.
Arguments i_coeff_theta_mud {F}.
Arguments i_beta {F}.
Arguments i_sed_lag {F}.
Arguments i_coeff_U_dep_mud {F}.
Arguments i_coeff_U_ero_mud {F}.
Arguments i_coeff_U_ero_sand {F}.
Arguments i_alpha {F}.
Arguments i_stepmax {F}.
Arguments i_sand_frac_bc {F}.
Arguments i_seed {F}.
Arguments mkInputs {F}.

(** Assignment to one attribute; mechanical. *)
Section Setters.
  Context {F : Type}.
  Definition seti_Length (x : F) (I : inputs F) : inputs F :=
    mkInputs x (i_Width I) (i_dx I) (i_L0_meters I) (i_S0 I) (i_itermax I) (i_Np_water I) (i_u0
      I) (i_N0_meters I) (i_h0 I) (i_hb I) (i_H_SL I) (i_SLR I) (i_Np_sed I) (i_f_bedload I)
      (i_active_layer_thickness I) (i_C0_percent I) (i_Csmooth I) (i_toggle_subsidence I)
      (i_subsidence_rate I) (i_start_subsidence I) (i_save_dt I) (i_checkpoint_dt I)
      (i_save_checkpoint I) (i_omega_sfc I) (i_omega_flow I) (i_Nsmooth I) (i_theta_water I)
      (i_coeff_theta_sand I) (i_coeff_theta_mud I) (i_beta I) (i_sed_lag I) (i_coeff_U_dep_mud
      I) (i_coeff_U_ero_mud I) (i_coeff_U_ero_sand I) (i_alpha I) (i_stepmax I) (i_sand_frac_bc
      I) (i_seed I).
  Definition seti_Width (x : F) (I : inputs F) : inputs F :=
    mkInputs (i_Length I) x (i_dx I) (i_L0_meters I) (i_S0 I) (i_itermax I) (i_Np_water I) (i_u0
      I) (i_N0_meters I) (i_h0 I) (i_hb I) (i_H_SL I) (i_SLR I) (i_Np_sed I) (i_f_bedload I)
      (i_active_layer_thickness I) (i_C0_percent I) (i_Csmooth I) (i_toggle_subsidence I)
      (i_subsidence_rate I) (i_start_subsidence I) (i_save_dt I) (i_checkpoint_dt I)
      (i_save_checkpoint I) (i_omega_sfc I) (i_omega_flow I) (i_Nsmooth I) (i_theta_water I)
      (i_coeff_theta_sand I) (i_coeff_theta_mud I) (i_beta I) (i_sed_lag I) (i_coeff_U_dep_mud
      I) (i_coeff_U_ero_mud I) (i_coeff_U_ero_sand I) (i_alpha I) (i_stepmax I) (i_sand_frac_bc
      I) (i_seed I).
  Definition seti_dx (x : F) (I : inputs F) : inputs F :=
    mkInputs (i_Length I) (i_Width I) x (i_L0_meters I) (i_S0 I) (i_itermax I) (i_Np_water I)
      (i_u0 I) (i_N0_meters I) (i_h0 I) (i_hb I) (i_H_SL I) (i_SLR I) (i_Np_sed I) (i_f_bedload
      I) (i_active_layer_thickness I) (i_C0_percent I) (i_Csmooth I) (i_toggle_subsidence I)
      (i_subsidence_rate I) (i_start_subsidence I) (i_save_dt I) (i_checkpoint_dt I)
      (i_save_checkpoint I) (i_omega_sfc I) (i_omega_flow I) (i_Nsmooth I) (i_theta_water I)
      (i_coeff_theta_sand I) (i_coeff_theta_mud I) (i_beta I) (i_sed_lag I) (i_coeff_U_dep_mud
      I) (i_coeff_U_ero_mud I) (i_coeff_U_ero_sand I) (i_alpha I) (i_stepmax I) (i_sand_frac_bc
      I) (i_seed I).
  Definition seti_L0_meters (x : F) (I : inputs F) : inputs F :=
    mkInputs (i_Length I) (i_Width I) (i_dx I) x (i_S0 I) (i_itermax I) (i_Np_water I) (i_u0 I)
      (i_N0_meters I) (i_h0 I) (i_hb I) (i_H_SL I) (i_SLR I) (i_Np_sed I) (i_f_bedload I)
      (i_active_layer_thickness I) (i_C0_percent I) (i_Csmooth I) (i_toggle_subsidence I)
      (i_subsidence_rate I) (i_start_subsidence I) (i_save_dt I) (i_checkpoint_dt I)
      (i_save_checkpoint I) (i_omega_sfc I) (i_omega_flow I) (i_Nsmooth I) (i_theta_water I)
      (i_coeff_theta_sand I) (i_coeff_theta_mud I) (i_beta I) (i_sed_lag I) (i_coeff_U_dep_mud
      I) (i_coeff_U_ero_mud I) (i_coeff_U_ero_sand I) (i_alpha I) (i_stepmax I) (i_sand_frac_bc
      I) (i_seed I).
  Definition seti_S0 (x : F) (I : inputs F) : inputs F :=
    mkInputs (i_Length I) (i_Width I) (i_dx I) (i_L0_meters I) x (i_itermax I) (i_Np_water I)
      (i_u0 I) (i_N0_meters I) (i_h0 I) (i_hb I) (i_H_SL I) (i_SLR I) (i_Np_sed I) (i_f_bedload
      I) (i_active_layer_thickness I) (i_C0_percent I) (i_Csmooth I) (i_toggle_subsidence I)
      (i_subsidence_rate I) (i_start_subsidence I) (i_save_dt I) (i_checkpoint_dt I)
      (i_save_checkpoint I) (i_omega_sfc I) (i_omega_flow I) (i_Nsmooth I) (i_theta_water I)
      (i_coeff_theta_sand I) (i_coeff_theta_mud I) (i_beta I) (i_sed_lag I) (i_coeff_U_dep_mud
      I) (i_coeff_U_ero_mud I) (i_coeff_U_ero_sand I) (i_alpha I) (i_stepmax I) (i_sand_frac_bc
      I) (i_seed I).
  Definition seti_itermax (x : Z) (I : inputs F) : inputs F :=
    mkInputs (i_Length I) (i_Width I) (i_dx I) (i_L0_meters I) (i_S0 I) x (i_Np_water I) (i_u0
      I) (i_N0_meters I) (i_h0 I) (i_hb I) (i_H_SL I) (i_SLR I) (i_Np_sed I) (i_f_bedload I)
      (i_active_layer_thickness I) (i_C0_percent I) (i_Csmooth I) (i_toggle_subsidence I)
      (i_subsidence_rate I) (i_start_subsidence I) (i_save_dt I) (i_checkpoint_dt I)
      (i_save_checkpoint I) (i_omega_sfc I) (i_omega_flow I) (i_Nsmooth I) (i_theta_water I)
      (i_coeff_theta_sand I) (i_coeff_theta_mud I) (i_beta I) (i_sed_lag I) (i_coeff_U_dep_mud
      I) (i_coeff_U_ero_mud I) (i_coeff_U_ero_sand I) (i_alpha I) (i_stepmax I) (i_sand_frac_bc
      I) (i_seed I).
  Definition seti_Np_water (x : Z) (I : inputs F) : inputs F :=
    mkInputs (i_Length I) (i_Width I) (i_dx I) (i_L0_meters I) (i_S0 I) (i_itermax I) x (i_u0 I)
      (i_N0_meters I) (i_h0 I) (i_hb I) (i_H_SL I) (i_SLR I) (i_Np_sed I) (i_f_bedload I)
      (i_active_layer_thickness I) (i_C0_percent I) (i_Csmooth I) (i_toggle_subsidence I)
      (i_subsidence_rate I) (i_start_subsidence I) (i_save_dt I) (i_checkpoint_dt I)
      (i_save_checkpoint I) (i_omega_sfc I) (i_omega_flow I) (i_Nsmooth I) (i_theta_water I)
      (i_coeff_theta_sand I) (i_coeff_theta_mud I) (i_beta I) (i_sed_lag I) (i_coeff_U_dep_mud
      I) (i_coeff_U_ero_mud I) (i_coeff_U_ero_sand I) (i_alpha I) (i_stepmax I) (i_sand_frac_bc
      I) (i_seed I).
  Definition seti_u0 (x : F) (I : inputs F) : inputs F :=
    mkInputs (i_Length I) (i_Width I) (i_dx I) (i_L0_meters I) (i_S0 I) (i_itermax I)
      (i_Np_water I) x (i_N0_meters I) (i_h0 I) (i_hb I) (i_H_SL I) (i_SLR I) (i_Np_sed I)
      (i_f_bedload I) (i_active_layer_thickness I) (i_C0_percent I) (i_Csmooth I)
      (i_toggle_subsidence I) (i_subsidence_rate I) (i_start_subsidence I) (i_save_dt I)
      (i_checkpoint_dt I) (i_save_checkpoint I) (i_omega_sfc I) (i_omega_flow I) (i_Nsmooth I)
      (i_theta_water I) (i_coeff_theta_sand I) (i_coeff_theta_mud I) (i_beta I) (i_sed_lag I)
      (i_coeff_U_dep_mud I) (i_coeff_U_ero_mud I) (i_coeff_U_ero_sand I) (i_alpha I) (i_stepmax
      I) (i_sand_frac_bc I) (i_seed I).
  Definition seti_N0_meters (x : F) (I : inputs F) : inputs F :=
    mkInputs (i_Length I) (i_Width I) (i_dx I) (i_L0_meters I) (i_S0 I) (i_itermax I)
      (i_Np_water I) (i_u0 I) x (i_h0 I) (i_hb I) (i_H_SL I) (i_SLR I) (i_Np_sed I) (i_f_bedload
      I) (i_active_layer_thickness I) (i_C0_percent I) (i_Csmooth I) (i_toggle_subsidence I)
      (i_subsidence_rate I) (i_start_subsidence I) (i_save_dt I) (i_checkpoint_dt I)
      (i_save_checkpoint I) (i_omega_sfc I) (i_omega_flow I) (i_Nsmooth I) (i_theta_water I)
      (i_coeff_theta_sand I) (i_coeff_theta_mud I) (i_beta I) (i_sed_lag I) (i_coeff_U_dep_mud
      I) (i_coeff_U_ero_mud I) (i_coeff_U_ero_sand I) (i_alpha I) (i_stepmax I) (i_sand_frac_bc
      I) (i_seed I).
  Definition seti_h0 (x : F) (I : inputs F) : inputs F :=
    mkInputs (i_Length I) (i_Width I) (i_dx I) (i_L0_meters I) (i_S0 I) (i_itermax I)
      (i_Np_water I) (i_u0 I) (i_N0_meters I) x (i_hb I) (i_H_SL I) (i_SLR I) (i_Np_sed I)
      (i_f_bedload I) (i_active_layer_thickness I) (i_C0_percent I) (i_Csmooth I)
      (i_toggle_subsidence I) (i_subsidence_rate I) (i_start_subsidence I) (i_save_dt I)
      (i_checkpoint_dt I) (i_save_checkpoint I) (i_omega_sfc I) (i_omega_flow I) (i_Nsmooth I)
      (i_theta_water I) (i_coeff_theta_sand I) (i_coeff_theta_mud I) (i_beta I) (i_sed_lag I)
      (i_coeff_U_dep_mud I) (i_coeff_U_ero_mud I) (i_coeff_U_ero_sand I) (i_alpha I) (i_stepmax
      I) (i_sand_frac_bc I) (i_seed I).
  Definition seti_hb (x : option F) (I : inputs F) : inputs F :=
    mkInputs (i_Length I) (i_Width I) (i_dx I) (i_L0_meters I) (i_S0 I) (i_itermax I)
      (i_Np_water I) (i_u0 I) (i_N0_meters I) (i_h0 I) x (i_H_SL I) (i_SLR I) (i_Np_sed I)
      (i_f_bedload I) (i_active_layer_thickness I) (i_C0_percent I) (i_Csmooth I)
      (i_toggle_subsidence I) (i_subsidence_rate I) (i_start_subsidence I) (i_save_dt I)
      (i_checkpoint_dt I) (i_save_checkpoint I) (i_omega_sfc I) (i_omega_flow I) (i_Nsmooth I)
      (i_theta_water I) (i_coeff_theta_sand I) (i_coeff_theta_mud I) (i_beta I) (i_sed_lag I)
      (i_coeff_U_dep_mud I) (i_coeff_U_ero_mud I) (i_coeff_U_ero_sand I) (i_alpha I) (i_stepmax
      I) (i_sand_frac_bc I) (i_seed I).
  Definition seti_H_SL (x : F) (I : inputs F) : inputs F :=
    mkInputs (i_Length I) (i_Width I) (i_dx I) (i_L0_meters I) (i_S0 I) (i_itermax I)
      (i_Np_water I) (i_u0 I) (i_N0_meters I) (i_h0 I) (i_hb I) x (i_SLR I) (i_Np_sed I)
      (i_f_bedload I) (i_active_layer_thickness I) (i_C0_percent I) (i_Csmooth I)
      (i_toggle_subsidence I) (i_subsidence_rate I) (i_start_subsidence I) (i_save_dt I)
      (i_checkpoint_dt I) (i_save_checkpoint I) (i_omega_sfc I) (i_omega_flow I) (i_Nsmooth I)
      (i_theta_water I) (i_coeff_theta_sand I) (i_coeff_theta_mud I) (i_beta I) (i_sed_lag I)
      (i_coeff_U_dep_mud I) (i_coeff_U_ero_mud I) (i_coeff_U_ero_sand I) (i_alpha I) (i_stepmax
      I) (i_sand_frac_bc I) (i_seed I).
  Definition seti_SLR (x : F) (I : inputs F) : inputs F :=
    mkInputs (i_Length I) (i_Width I) (i_dx I) (i_L0_meters I) (i_S0 I) (i_itermax I)
      (i_Np_water I) (i_u0 I) (i_N0_meters I) (i_h0 I) (i_hb I) (i_H_SL I) x (i_Np_sed I)
      (i_f_bedload I) (i_active_layer_thickness I) (i_C0_percent I) (i_Csmooth I)
      (i_toggle_subsidence I) (i_subsidence_rate I) (i_start_subsidence I) (i_save_dt I)
      (i_checkpoint_dt I) (i_save_checkpoint I) (i_omega_sfc I) (i_omega_flow I) (i_Nsmooth I)
      (i_theta_water I) (i_coeff_theta_sand I) (i_coeff_theta_mud I) (i_beta I) (i_sed_lag I)
      (i_coeff_U_dep_mud I) (i_coeff_U_ero_mud I) (i_coeff_U_ero_sand I) (i_alpha I) (i_stepmax
      I) (i_sand_frac_bc I) (i_seed I).
  Definition seti_Np_sed (x : Z) (I : inputs F) : inputs F :=
    mkInputs (i_Length I) (i_Width I) (i_dx I) (i_L0_meters I) (i_S0 I) (i_itermax I)
      (i_Np_water I) (i_u0 I) (i_N0_meters I) (i_h0 I) (i_hb I) (i_H_SL I) (i_SLR I) x
      (i_f_bedload I) (i_active_layer_thickness I) (i_C0_percent I) (i_Csmooth I)
      (i_toggle_subsidence I) (i_subsidence_rate I) (i_start_subsidence I) (i_save_dt I)
      (i_checkpoint_dt I) (i_save_checkpoint I) (i_omega_sfc I) (i_omega_flow I) (i_Nsmooth I)
      (i_theta_water I) (i_coeff_theta_sand I) (i_coeff_theta_mud I) (i_beta I) (i_sed_lag I)
      (i_coeff_U_dep_mud I) (i_coeff_U_ero_mud I) (i_coeff_U_ero_sand I) (i_alpha I) (i_stepmax
      I) (i_sand_frac_bc I) (i_seed I).
  Definition seti_f_bedload (x : F) (I : inputs F) : inputs F :=
    mkInputs (i_Length I) (i_Width I) (i_dx I) (i_L0_meters I) (i_S0 I) (i_itermax I)
      (i_Np_water I) (i_u0 I) (i_N0_meters I) (i_h0 I) (i_hb I) (i_H_SL I) (i_SLR I) (i_Np_sed
      I) x (i_active_layer_thickness I) (i_C0_percent I) (i_Csmooth I) (i_toggle_subsidence I)
      (i_subsidence_rate I) (i_start_subsidence I) (i_save_dt I) (i_checkpoint_dt I)
      (i_save_checkpoint I) (i_omega_sfc I) (i_omega_flow I) (i_Nsmooth I) (i_theta_water I)
      (i_coeff_theta_sand I) (i_coeff_theta_mud I) (i_beta I) (i_sed_lag I) (i_coeff_U_dep_mud
      I) (i_coeff_U_ero_mud I) (i_coeff_U_ero_sand I) (i_alpha I) (i_stepmax I) (i_sand_frac_bc
      I) (i_seed I).
  Definition seti_active_layer_thickness (x : option F) (I : inputs F) : inputs F :=
    mkInputs (i_Length I) (i_Width I) (i_dx I) (i_L0_meters I) (i_S0 I) (i_itermax I)
      (i_Np_water I) (i_u0 I) (i_N0_meters I) (i_h0 I) (i_hb I) (i_H_SL I) (i_SLR I) (i_Np_sed
      I) (i_f_bedload I) x (i_C0_percent I) (i_Csmooth I) (i_toggle_subsidence I)
      (i_subsidence_rate I) (i_start_subsidence I) (i_save_dt I) (i_checkpoint_dt I)
      (i_save_checkpoint I) (i_omega_sfc I) (i_omega_flow I) (i_Nsmooth I) (i_theta_water I)
      (i_coeff_theta_sand I) (i_coeff_theta_mud I) (i_beta I) (i_sed_lag I) (i_coeff_U_dep_mud
      I) (i_coeff_U_ero_mud I) (i_coeff_U_ero_sand I) (i_alpha I) (i_stepmax I) (i_sand_frac_bc
      I) (i_seed I).
  Definition seti_C0_percent (x : F) (I : inputs F) : inputs F :=
    mkInputs (i_Length I) (i_Width I) (i_dx I) (i_L0_meters I) (i_S0 I) (i_itermax I)
      (i_Np_water I) (i_u0 I) (i_N0_meters I) (i_h0 I) (i_hb I) (i_H_SL I) (i_SLR I) (i_Np_sed
      I) (i_f_bedload I) (i_active_layer_thickness I) x (i_Csmooth I) (i_toggle_subsidence I)
      (i_subsidence_rate I) (i_start_subsidence I) (i_save_dt I) (i_checkpoint_dt I)
      (i_save_checkpoint I) (i_omega_sfc I) (i_omega_flow I) (i_Nsmooth I) (i_theta_water I)
      (i_coeff_theta_sand I) (i_coeff_theta_mud I) (i_beta I) (i_sed_lag I) (i_coeff_U_dep_mud
      I) (i_coeff_U_ero_mud I) (i_coeff_U_ero_sand I) (i_alpha I) (i_stepmax I) (i_sand_frac_bc
      I) (i_seed I).
  Definition seti_Csmooth (x : F) (I : inputs F) : inputs F :=
    mkInputs (i_Length I) (i_Width I) (i_dx I) (i_L0_meters I) (i_S0 I) (i_itermax I)
      (i_Np_water I) (i_u0 I) (i_N0_meters I) (i_h0 I) (i_hb I) (i_H_SL I) (i_SLR I) (i_Np_sed
      I) (i_f_bedload I) (i_active_layer_thickness I) (i_C0_percent I) x (i_toggle_subsidence I)
      (i_subsidence_rate I) (i_start_subsidence I) (i_save_dt I) (i_checkpoint_dt I)
      (i_save_checkpoint I) (i_omega_sfc I) (i_omega_flow I) (i_Nsmooth I) (i_theta_water I)
      (i_coeff_theta_sand I) (i_coeff_theta_mud I) (i_beta I) (i_sed_lag I) (i_coeff_U_dep_mud
      I) (i_coeff_U_ero_mud I) (i_coeff_U_ero_sand I) (i_alpha I) (i_stepmax I) (i_sand_frac_bc
      I) (i_seed I).
  Definition seti_toggle_subsidence (x : bool) (I : inputs F) : inputs F :=
    mkInputs (i_Length I) (i_Width I) (i_dx I) (i_L0_meters I) (i_S0 I) (i_itermax I)
      (i_Np_water I) (i_u0 I) (i_N0_meters I) (i_h0 I) (i_hb I) (i_H_SL I) (i_SLR I) (i_Np_sed
      I) (i_f_bedload I) (i_active_layer_thickness I) (i_C0_percent I) (i_Csmooth I) x
      (i_subsidence_rate I) (i_start_subsidence I) (i_save_dt I) (i_checkpoint_dt I)
      (i_save_checkpoint I) (i_omega_sfc I) (i_omega_flow I) (i_Nsmooth I) (i_theta_water I)
      (i_coeff_theta_sand I) (i_coeff_theta_mud I) (i_beta I) (i_sed_lag I) (i_coeff_U_dep_mud
      I) (i_coeff_U_ero_mud I) (i_coeff_U_ero_sand I) (i_alpha I) (i_stepmax I) (i_sand_frac_bc
      I) (i_seed I).
  Definition seti_subsidence_rate (x : F) (I : inputs F) : inputs F :=
    mkInputs (i_Length I) (i_Width I) (i_dx I) (i_L0_meters I) (i_S0 I) (i_itermax I)
      (i_Np_water I) (i_u0 I) (i_N0_meters I) (i_h0 I) (i_hb I) (i_H_SL I) (i_SLR I) (i_Np_sed
      I) (i_f_bedload I) (i_active_layer_thickness I) (i_C0_percent I) (i_Csmooth I)
      (i_toggle_subsidence I) x (i_start_subsidence I) (i_save_dt I) (i_checkpoint_dt I)
      (i_save_checkpoint I) (i_omega_sfc I) (i_omega_flow I) (i_Nsmooth I) (i_theta_water I)
      (i_coeff_theta_sand I) (i_coeff_theta_mud I) (i_beta I) (i_sed_lag I) (i_coeff_U_dep_mud
      I) (i_coeff_U_ero_mud I) (i_coeff_U_ero_sand I) (i_alpha I) (i_stepmax I) (i_sand_frac_bc
      I) (i_seed I).
  Definition seti_start_subsidence (x : F) (I : inputs F) : inputs F :=
    mkInputs (i_Length I) (i_Width I) (i_dx I) (i_L0_meters I) (i_S0 I) (i_itermax I)
      (i_Np_water I) (i_u0 I) (i_N0_meters I) (i_h0 I) (i_hb I) (i_H_SL I) (i_SLR I) (i_Np_sed
      I) (i_f_bedload I) (i_active_layer_thickness I) (i_C0_percent I) (i_Csmooth I)
      (i_toggle_subsidence I) (i_subsidence_rate I) x (i_save_dt I) (i_checkpoint_dt I)
      (i_save_checkpoint I) (i_omega_sfc I) (i_omega_flow I) (i_Nsmooth I) (i_theta_water I)
      (i_coeff_theta_sand I) (i_coeff_theta_mud I) (i_beta I) (i_sed_lag I) (i_coeff_U_dep_mud
      I) (i_coeff_U_ero_mud I) (i_coeff_U_ero_sand I) (i_alpha I) (i_stepmax I) (i_sand_frac_bc
      I) (i_seed I).
  Definition seti_save_dt (x : F) (I : inputs F) : inputs F :=
    mkInputs (i_Length I) (i_Width I) (i_dx I) (i_L0_meters I) (i_S0 I) (i_itermax I)
      (i_Np_water I) (i_u0 I) (i_N0_meters I) (i_h0 I) (i_hb I) (i_H_SL I) (i_SLR I) (i_Np_sed
      I) (i_f_bedload I) (i_active_layer_thickness I) (i_C0_percent I) (i_Csmooth I)
      (i_toggle_subsidence I) (i_subsidence_rate I) (i_start_subsidence I) x (i_checkpoint_dt I)
      (i_save_checkpoint I) (i_omega_sfc I) (i_omega_flow I) (i_Nsmooth I) (i_theta_water I)
      (i_coeff_theta_sand I) (i_coeff_theta_mud I) (i_beta I) (i_sed_lag I) (i_coeff_U_dep_mud
      I) (i_coeff_U_ero_mud I) (i_coeff_U_ero_sand I) (i_alpha I) (i_stepmax I) (i_sand_frac_bc
      I) (i_seed I).
  Definition seti_checkpoint_dt (x : option F) (I : inputs F) : inputs F :=
    mkInputs (i_Length I) (i_Width I) (i_dx I) (i_L0_meters I) (i_S0 I) (i_itermax I)
      (i_Np_water I) (i_u0 I) (i_N0_meters I) (i_h0 I) (i_hb I) (i_H_SL I) (i_SLR I) (i_Np_sed
      I) (i_f_bedload I) (i_active_layer_thickness I) (i_C0_percent I) (i_Csmooth I)
      (i_toggle_subsidence I) (i_subsidence_rate I) (i_start_subsidence I) (i_save_dt I) x
      (i_save_checkpoint I) (i_omega_sfc I) (i_omega_flow I) (i_Nsmooth I) (i_theta_water I)
      (i_coeff_theta_sand I) (i_coeff_theta_mud I) (i_beta I) (i_sed_lag I) (i_coeff_U_dep_mud
      I) (i_coeff_U_ero_mud I) (i_coeff_U_ero_sand I) (i_alpha I) (i_stepmax I) (i_sand_frac_bc
      I) (i_seed I).
  Definition seti_save_checkpoint (x : bool) (I : inputs F) : inputs F :=
    mkInputs (i_Length I) (i_Width I) (i_dx I) (i_L0_meters I) (i_S0 I) (i_itermax I)
      (i_Np_water I) (i_u0 I) (i_N0_meters I) (i_h0 I) (i_hb I) (i_H_SL I) (i_SLR I) (i_Np_sed
      I) (i_f_bedload I) (i_active_layer_thickness I) (i_C0_percent I) (i_Csmooth I)
      (i_toggle_subsidence I) (i_subsidence_rate I) (i_start_subsidence I) (i_save_dt I)
      (i_checkpoint_dt I) x (i_omega_sfc I) (i_omega_flow I) (i_Nsmooth I) (i_theta_water I)
      (i_coeff_theta_sand I) (i_coeff_theta_mud I) (i_beta I) (i_sed_lag I) (i_coeff_U_dep_mud
      I) (i_coeff_U_ero_mud I) (i_coeff_U_ero_sand I) (i_alpha I) (i_stepmax I) (i_sand_frac_bc
      I) (i_seed I).
  Definition seti_omega_sfc (x : F) (I : inputs F) : inputs F :=
    mkInputs (i_Length I) (i_Width I) (i_dx I) (i_L0_meters I) (i_S0 I) (i_itermax I)
      (i_Np_water I) (i_u0 I) (i_N0_meters I) (i_h0 I) (i_hb I) (i_H_SL I) (i_SLR I) (i_Np_sed
      I) (i_f_bedload I) (i_active_layer_thickness I) (i_C0_percent I) (i_Csmooth I)
      (i_toggle_subsidence I) (i_subsidence_rate I) (i_start_subsidence I) (i_save_dt I)
      (i_checkpoint_dt I) (i_save_checkpoint I) x (i_omega_flow I) (i_Nsmooth I) (i_theta_water
      I) (i_coeff_theta_sand I) (i_coeff_theta_mud I) (i_beta I) (i_sed_lag I)
      (i_coeff_U_dep_mud I) (i_coeff_U_ero_mud I) (i_coeff_U_ero_sand I) (i_alpha I) (i_stepmax
      I) (i_sand_frac_bc I) (i_seed I).
  Definition seti_omega_flow (x : F) (I : inputs F) : inputs F :=
    mkInputs (i_Length I) (i_Width I) (i_dx I) (i_L0_meters I) (i_S0 I) (i_itermax I)
      (i_Np_water I) (i_u0 I) (i_N0_meters I) (i_h0 I) (i_hb I) (i_H_SL I) (i_SLR I) (i_Np_sed
      I) (i_f_bedload I) (i_active_layer_thickness I) (i_C0_percent I) (i_Csmooth I)
      (i_toggle_subsidence I) (i_subsidence_rate I) (i_start_subsidence I) (i_save_dt I)
      (i_checkpoint_dt I) (i_save_checkpoint I) (i_omega_sfc I) x (i_Nsmooth I) (i_theta_water
      I) (i_coeff_theta_sand I) (i_coeff_theta_mud I) (i_beta I) (i_sed_lag I)
      (i_coeff_U_dep_mud I) (i_coeff_U_ero_mud I) (i_coeff_U_ero_sand I) (i_alpha I) (i_stepmax
      I) (i_sand_frac_bc I) (i_seed I).
  Definition seti_Nsmooth (x : Z) (I : inputs F) : inputs F :=
    mkInputs (i_Length I) (i_Width I) (i_dx I) (i_L0_meters I) (i_S0 I) (i_itermax I)
      (i_Np_water I) (i_u0 I) (i_N0_meters I) (i_h0 I) (i_hb I) (i_H_SL I) (i_SLR I) (i_Np_sed
      I) (i_f_bedload I) (i_active_layer_thickness I) (i_C0_percent I) (i_Csmooth I)
      (i_toggle_subsidence I) (i_subsidence_rate I) (i_start_subsidence I) (i_save_dt I)
      (i_checkpoint_dt I) (i_save_checkpoint I) (i_omega_sfc I) (i_omega_flow I) x
      (i_theta_water I) (i_coeff_theta_sand I) (i_coeff_theta_mud I) (i_beta I) (i_sed_lag I)
      (i_coeff_U_dep_mud I) (i_coeff_U_ero_mud I) (i_coeff_U_ero_sand I) (i_alpha I) (i_stepmax
      I) (i_sand_frac_bc I) (i_seed I).
  Definition seti_theta_water (x : F) (I : inputs F) : inputs F :=
    mkInputs (i_Length I) (i_Width I) (i_dx I) (i_L0_meters I) (i_S0 I) (i_itermax I)
      (i_Np_water I) (i_u0 I) (i_N0_meters I) (i_h0 I) (i_hb I) (i_H_SL I) (i_SLR I) (i_Np_sed
      I) (i_f_bedload I) (i_active_layer_thickness I) (i_C0_percent I) (i_Csmooth I)
      (i_toggle_subsidence I) (i_subsidence_rate I) (i_start_subsidence I) (i_save_dt I)
      (i_checkpoint_dt I) (i_save_checkpoint I) (i_omega_sfc I) (i_omega_flow I) (i_Nsmooth I) x
      (i_coeff_theta_sand I) (i_coeff_theta_mud I) (i_beta I) (i_sed_lag I) (i_coeff_U_dep_mud
      I) (i_coeff_U_ero_mud I) (i_coeff_U_ero_sand I) (i_alpha I) (i_stepmax I) (i_sand_frac_bc
      I) (i_seed I).
  Definition seti_coeff_theta_sand (x : F) (I : inputs F) : inputs F :=
    mkInputs (i_Length I) (i_Width I) (i_dx I) (i_L0_meters I) (i_S0 I) (i_itermax I)
      (i_Np_water I) (i_u0 I) (i_N0_meters I) (i_h0 I) (i_hb I) (i_H_SL I) (i_SLR I) (i_Np_sed
      I) (i_f_bedload I) (i_active_layer_thickness I) (i_C0_percent I) (i_Csmooth I)
      (i_toggle_subsidence I) (i_subsidence_rate I) (i_start_subsidence I) (i_save_dt I)
      (i_checkpoint_dt I) (i_save_checkpoint I) (i_omega_sfc I) (i_omega_flow I) (i_Nsmooth I)
      (i_theta_water I) x (i_coeff_theta_mud I) (i_beta I) (i_sed_lag I) (i_coeff_U_dep_mud I)
      (i_coeff_U_ero_mud I) (i_coeff_U_ero_sand I) (i_alpha I) (i_stepmax I) (i_sand_frac_bc I)
      (i_seed I).
  Definition seti_coeff_theta_mud (x : F) (I : inputs F) : inputs F :=
    mkInputs (i_Length I) (i_Width I) (i_dx I) (i_L0_meters I) (i_S0 I) (i_itermax I)
      (i_Np_water I) (i_u0 I) (i_N0_meters I) (i_h0 I) (i_hb I) (i_H_SL I) (i_SLR I) (i_Np_sed
      I) (i_f_bedload I) (i_active_layer_thickness I) (i_C0_percent I) (i_Csmooth I)
      (i_toggle_subsidence I) (i_subsidence_rate I) (i_start_subsidence I) (i_save_dt I)
      (i_checkpoint_dt I) (i_save_checkpoint I) (i_omega_sfc I) (i_omega_flow I) (i_Nsmooth I)
      (i_theta_water I) (i_coeff_theta_sand I) x (i_beta I) (i_sed_lag I) (i_coeff_U_dep_mud I)
      (i_coeff_U_ero_mud I) (i_coeff_U_ero_sand I) (i_alpha I) (i_stepmax I) (i_sand_frac_bc I)
      (i_seed I).
  Definition seti_beta (x : F) (I : inputs F) : inputs F :=
    mkInputs (i_Length I) (i_Width I) (i_dx I) (i_L0_meters I) (i_S0 I) (i_itermax I)
      (i_Np_water I) (i_u0 I) (i_N0_meters I) (i_h0 I) (i_hb I) (i_H_SL I) (i_SLR I) (i_Np_sed
      I) (i_f_bedload I) (i_active_layer_thickness I) (i_C0_percent I) (i_Csmooth I)
      (i_toggle_subsidence I) (i_subsidence_rate I) (i_start_subsidence I) (i_save_dt I)
      (i_checkpoint_dt I) (i_save_checkpoint I) (i_omega_sfc I) (i_omega_flow I) (i_Nsmooth I)
      (i_theta_water I) (i_coeff_theta_sand I) (i_coeff_theta_mud I) x (i_sed_lag I)
      (i_coeff_U_dep_mud I) (i_coeff_U_ero_mud I) (i_coeff_U_ero_sand I) (i_alpha I) (i_stepmax
      I) (i_sand_frac_bc I) (i_seed I).
  Definition seti_sed_lag (x : F) (I : inputs F) : inputs F :=
    mkInputs (i_Length I) (i_Width I) (i_dx I) (i_L0_meters I) (i_S0 I) (i_itermax I)
      (i_Np_water I) (i_u0 I) (i_N0_meters I) (i_h0 I) (i_hb I) (i_H_SL I) (i_SLR I) (i_Np_sed
      I) (i_f_bedload I) (i_active_layer_thickness I) (i_C0_percent I) (i_Csmooth I)
      (i_toggle_subsidence I) (i_subsidence_rate I) (i_start_subsidence I) (i_save_dt I)
      (i_checkpoint_dt I) (i_save_checkpoint I) (i_omega_sfc I) (i_omega_flow I) (i_Nsmooth I)
      (i_theta_water I) (i_coeff_theta_sand I) (i_coeff_theta_mud I) (i_beta I) x
      (i_coeff_U_dep_mud I) (i_coeff_U_ero_mud I) (i_coeff_U_ero_sand I) (i_alpha I) (i_stepmax
      I) (i_sand_frac_bc I) (i_seed I).
  Definition seti_coeff_U_dep_mud (x : F) (I : inputs F) : inputs F :=
    mkInputs (i_Length I) (i_Width I) (i_dx I) (i_L0_meters I) (i_S0 I) (i_itermax I)
      (i_Np_water I) (i_u0 I) (i_N0_meters I) (i_h0 I) (i_hb I) (i_H_SL I) (i_SLR I) (i_Np_sed
      I) (i_f_bedload I) (i_active_layer_thickness I) (i_C0_percent I) (i_Csmooth I)
      (i_toggle_subsidence I) (i_subsidence_rate I) (i_start_subsidence I) (i_save_dt I)
      (i_checkpoint_dt I) (i_save_checkpoint I) (i_omega_sfc I) (i_omega_flow I) (i_Nsmooth I)
      (i_theta_water I) (i_coeff_theta_sand I) (i_coeff_theta_mud I) (i_beta I) (i_sed_lag I) x
      (i_coeff_U_ero_mud I) (i_coeff_U_ero_sand I) (i_alpha I) (i_stepmax I) (i_sand_frac_bc I)
      (i_seed I).
  Definition seti_coeff_U_ero_mud (x : F) (I : inputs F) : inputs F :=
    mkInputs (i_Length I) (i_Width I) (i_dx I) (i_L0_meters I) (i_S0 I) (i_itermax I)
      (i_Np_water I) (i_u0 I) (i_N0_meters I) (i_h0 I) (i_hb I) (i_H_SL I) (i_SLR I) (i_Np_sed
      I) (i_f_bedload I) (i_active_layer_thickness I) (i_C0_percent I) (i_Csmooth I)
      (i_toggle_subsidence I) (i_subsidence_rate I) (i_start_subsidence I) (i_save_dt I)
      (i_checkpoint_dt I) (i_save_checkpoint I) (i_omega_sfc I) (i_omega_flow I) (i_Nsmooth I)
      (i_theta_water I) (i_coeff_theta_sand I) (i_coeff_theta_mud I) (i_beta I) (i_sed_lag I)
      (i_coeff_U_dep_mud I) x (i_coeff_U_ero_sand I) (i_alpha I) (i_stepmax I) (i_sand_frac_bc
      I) (i_seed I).
  Definition seti_coeff_U_ero_sand (x : F) (I : inputs F) : inputs F :=
    mkInputs (i_Length I) (i_Width I) (i_dx I) (i_L0_meters I) (i_S0 I) (i_itermax I)
      (i_Np_water I) (i_u0 I) (i_N0_meters I) (i_h0 I) (i_hb I) (i_H_SL I) (i_SLR I) (i_Np_sed
      I) (i_f_bedload I) (i_active_layer_thickness I) (i_C0_percent I) (i_Csmooth I)
      (i_toggle_subsidence I) (i_subsidence_rate I) (i_start_subsidence I) (i_save_dt I)
      (i_checkpoint_dt I) (i_save_checkpoint I) (i_omega_sfc I) (i_omega_flow I) (i_Nsmooth I)
      (i_theta_water I) (i_coeff_theta_sand I) (i_coeff_theta_mud I) (i_beta I) (i_sed_lag I)
      (i_coeff_U_dep_mud I) (i_coeff_U_ero_mud I) x (i_alpha I) (i_stepmax I) (i_sand_frac_bc I)
      (i_seed I).
  Definition seti_alpha (x : F) (I : inputs F) : inputs F :=
    mkInputs (i_Length I) (i_Width I) (i_dx I) (i_L0_meters I) (i_S0 I) (i_itermax I)
      (i_Np_water I) (i_u0 I) (i_N0_meters I) (i_h0 I) (i_hb I) (i_H_SL I) (i_SLR I) (i_Np_sed
      I) (i_f_bedload I) (i_active_layer_thickness I) (i_C0_percent I) (i_Csmooth I)
      (i_toggle_subsidence I) (i_subsidence_rate I) (i_start_subsidence I) (i_save_dt I)
      (i_checkpoint_dt I) (i_save_checkpoint I) (i_omega_sfc I) (i_omega_flow I) (i_Nsmooth I)
      (i_theta_water I) (i_coeff_theta_sand I) (i_coeff_theta_mud I) (i_beta I) (i_sed_lag I)
      (i_coeff_U_dep_mud I) (i_coeff_U_ero_mud I) (i_coeff_U_ero_sand I) x (i_stepmax I)
      (i_sand_frac_bc I) (i_seed I).
  Definition seti_stepmax (x : option F) (I : inputs F) : inputs F :=
    mkInputs (i_Length I) (i_Width I) (i_dx I) (i_L0_meters I) (i_S0 I) (i_itermax I)
      (i_Np_water I) (i_u0 I) (i_N0_meters I) (i_h0 I) (i_hb I) (i_H_SL I) (i_SLR I) (i_Np_sed
      I) (i_f_bedload I) (i_active_layer_thickness I) (i_C0_percent I) (i_Csmooth I)
      (i_toggle_subsidence I) (i_subsidence_rate I) (i_start_subsidence I) (i_save_dt I)
      (i_checkpoint_dt I) (i_save_checkpoint I) (i_omega_sfc I) (i_omega_flow I) (i_Nsmooth I)
      (i_theta_water I) (i_coeff_theta_sand I) (i_coeff_theta_mud I) (i_beta I) (i_sed_lag I)
      (i_coeff_U_dep_mud I) (i_coeff_U_ero_mud I) (i_coeff_U_ero_sand I) (i_alpha I) x
      (i_sand_frac_bc I) (i_seed I).
  Definition seti_sand_frac_bc (x : F) (I : inputs F) : inputs F :=
    mkInputs (i_Length I) (i_Width I) (i_dx I) (i_L0_meters I) (i_S0 I) (i_itermax I)
      (i_Np_water I) (i_u0 I) (i_N0_meters I) (i_h0 I) (i_hb I) (i_H_SL I) (i_SLR I) (i_Np_sed
      I) (i_f_bedload I) (i_active_layer_thickness I) (i_C0_percent I) (i_Csmooth I)
      (i_toggle_subsidence I) (i_subsidence_rate I) (i_start_subsidence I) (i_save_dt I)
      (i_checkpoint_dt I) (i_save_checkpoint I) (i_omega_sfc I) (i_omega_flow I) (i_Nsmooth I)
      (i_theta_water I) (i_coeff_theta_sand I) (i_coeff_theta_mud I) (i_beta I) (i_sed_lag I)
      (i_coeff_U_dep_mud I) (i_coeff_U_ero_mud I) (i_coeff_U_ero_sand I) (i_alpha I) (i_stepmax
      I) x (i_seed I).
  Definition seti_seed (x : option Z) (I : inputs F) : inputs F :=
    mkInputs (i_Length I) (i_Width I) (i_dx I) (i_L0_meters I) (i_S0 I) (i_itermax I)
      (i_Np_water I) (i_u0 I) (i_N0_meters I) (i_h0 I) (i_hb I) (i_H_SL I) (i_SLR I) (i_Np_sed
      I) (i_f_bedload I) (i_active_layer_thickness I) (i_C0_percent I) (i_Csmooth I)
      (i_toggle_subsidence I) (i_subsidence_rate I) (i_start_subsidence I) (i_save_dt I)
      (i_checkpoint_dt I) (i_save_checkpoint I) (i_omega_sfc I) (i_omega_flow I) (i_Nsmooth I)
      (i_theta_water I) (i_coeff_theta_sand I) (i_coeff_theta_mud I) (i_beta I) (i_sed_lag I)
      (i_coeff_U_dep_mud I) (i_coeff_U_ero_mud I) (i_coeff_U_ero_sand I) (i_alpha I) (i_stepmax
      I) (i_sand_frac_bc I) x.
End Setters.
