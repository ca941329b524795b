(** Model of assigning configuration values to a model that has been made:
    the plain attributes of model.py (248-661, 1018-1340, 1518-1525). *)
From Coq Require Import ZArith List Bool.
From Verif Require Import Base Params State Inputs Init Session SessionSpec.
Import ListNotations.

Section Assign.
  Context {F : Type} {A : Arith F} {S : Type}.

  (** An assignment [model.name = value].  Not covered: Length, Width, dx, u0,
      h0, Np_water, stepmax, If, verbose, directories and the figure and grid
      switches (Switches.v). model.py:248-661, 1018-1340, 1518-1525. *)
  Inductive change : Type :=
  | To_Csmooth (x : F) | To_Nsmooth (n : Z) | To_omega_sfc (x : F) | To_omega_flow (x : F)
  | To_SLR (x : F) | To_start_subsidence (x : F) | To_active_layer_thickness (x : option F)
  | To_save_dt (x : F) | To_checkpoint_dt (x : option F) | To_save_checkpoint (b : bool) | To_sand_frac_bc (x : F)
  | To_L0_meters (x : F) | To_N0_meters (x : F) | To_hb (x : option F) | To_C0_percent (x : F)
  | To_subsidence_rate (x : F) | To_coeff_theta_sand (x : F) | To_coeff_theta_mud (x : F) | To_beta (x : F)
  | To_sed_lag (x : F) | To_coeff_U_dep_mud (x : F) | To_coeff_U_ero_mud (x : F) | To_coeff_U_ero_sand (x : F)
  | To_alpha (x : F) | To_seed (z : Z)
  | To_theta_water (x : F) | To_S0 (x : F) | To_itermax (n : Z) | To_Np_sed (n : Z).

  (** The stored attribute and what the update reads directly; model.py:248-661. *)
  Definition stored (inp : inputs F) (P : params F) (m : model (F:=F) S) : result (model S) :=
    Ok (mkModel inp P (m_st m) (m_finalized m)).

  (** The setters (lines at each case).  The update reads some attributes
      directly (water_tools.py:26, 277, 314-320, 410, 491; sed_tools.py:121,
      189; iteration_tools.py:81, 115, 147, 166-173, 198, 211), the others were
      used when the model was made. *)
  Definition apply_change (ch : change) (m : model (F:=F) S) : result (model S) :=
    let inp := m_in m in let P := m_P m in
    match ch with
    (* model.py:606-609 *)
    | To_Csmooth x => do inp <- set_Csmooth x inp; stored inp (setp_Csmooth x P) m
    (* model.py:1105-1107 *)
    | To_Nsmooth n => stored (seti_Nsmooth n inp) (setp_Nsmooth n P) m
    (* model.py:1083-1085 *)
    | To_omega_sfc x => stored (seti_omega_sfc x inp) (setp_omega_sfc x P) m
    (* model.py:1094-1096 *)
    | To_omega_flow x => stored (seti_omega_flow x inp) (setp_omega_flow x P) m
    (* model.py:498-500 *)
    | To_SLR x => stored (seti_SLR x inp) (setp_SLR x P) m
    (* model.py:644-646 *)
    | To_start_subsidence x => stored (seti_start_subsidence x inp) (setp_start_subsidence x P) m
    (* model.py:571-580 *)
    | To_active_layer_thickness x =>
        do inp <- set_active_layer_thickness x inp;
        stored inp (setp_active_layer_thickness (some_or (fz 0) (i_active_layer_thickness inp)) P) m
    (* model.py:1025-1027 *)
    | To_save_dt x => stored (seti_save_dt x inp) (setp_save_dt x P) m
    (* model.py:1036-1040 *)
    | To_checkpoint_dt x =>
        let inp := set_checkpoint_dt x inp in
        stored inp (setp_checkpoint_dt (some_or (i_save_dt inp) (i_checkpoint_dt inp)) P) m
    (* model.py:1049-1051 *)
    | To_save_checkpoint b => stored (seti_save_checkpoint b inp) (setp_save_checkpoint b P) m
    (* model.py:1523-1525 *)
    | To_sand_frac_bc x => stored (seti_sand_frac_bc x inp) (setp_sand_frac_bc x P) m
    (* model.py:358-362, 435-439, 470-472, 592-596, 633-635 *)
    | To_L0_meters x => do inp <- set_L0_meters x inp; stored inp P m
    | To_N0_meters x => do inp <- set_N0_meters x inp; stored inp P m
    | To_hb x => stored (seti_hb x inp) P m
    | To_C0_percent x => do inp <- set_C0_percent x inp; stored inp P m
    | To_subsidence_rate x => stored (seti_subsidence_rate x inp) P m
    (* model.py:1145-1147, 1163-1165, 1177-1179, 1192-1194 *)
    | To_coeff_theta_sand x => stored (seti_coeff_theta_sand x inp) P m
    | To_coeff_theta_mud x => stored (seti_coeff_theta_mud x inp) P m
    | To_beta x => stored (seti_beta x inp) P m
    | To_sed_lag x => stored (seti_sed_lag x inp) P m
    (* model.py:1207-1209, 1222-1224, 1237-1239, 1251-1253, 289-291 *)
    | To_coeff_U_dep_mud x => stored (seti_coeff_U_dep_mud x inp) P m
    | To_coeff_U_ero_mud x => stored (seti_coeff_U_ero_mud x inp) P m
    | To_coeff_U_ero_sand x => stored (seti_coeff_U_ero_sand x inp) P m
    | To_alpha x => stored (seti_alpha x inp) P m
    | To_seed z => stored (seti_seed (Some z) inp) P m
    (* model.py:1127-1129, 375-377, 386-390, 531-535 *)
    | To_theta_water x => stored (seti_theta_water x inp) (setp_theta_water x P) m
    | To_S0 x => stored (seti_S0 x inp) (setp_S0 x P) m
    | To_itermax n => do inp <- set_itermax n inp; stored inp (setp_itermax n P) m
    | To_Np_sed n => do inp <- set_Np_sed n inp; stored inp (setp_Np_sed n P) m
    end.

  (** The public attributes that make new routers (model.py:1378-1501) hand
      them the exponent of the model (init_tools.py:606, 627). *)
  Definition assign_later (s : setting) (x : F) (m : model (F:=F) S) : result (model S) :=
    do m <- assign s x m;
    Ok (match s with
        | TimeStep | FlowVelocity | ChannelWidth | FlowDepth | Concentration =>
            mkModel (m_in m) (setp_beta (i_beta (m_in m)) (m_P m)) (m_st m) (m_finalized m)
        | SeaLevel | SeaLevelRate | BedloadFraction => m
        end).
End Assign.
Arguments change F : clear implicits.
