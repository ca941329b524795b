(** Model of the reading of a configuration: init_tools.py:76-230
    (import_files), default.yml, and the values that process_input_to_model
    (init_tools.py:232-258) assigns. *)
From Coq Require Import ZArith List Bool String.
From Verif Require Import Base Dict Inputs.
Import ListNotations.
Local Open Scope Z_scope.
Local Open Scope string_scope.

(** Values a YAML file or a keyword argument can hold.  The text of YAML
    files is not modelled: a file is what the loader returns for it
    (shared_tools.custom_yaml_loader). init_tools.py:76-150. *)
Inductive value (F : Type) : Type :=
| VNone | VBool (b : bool) | VInt (z : Z) | VFloat (x : F) | VStr (s : string)
| VList (l : list (value F)) | VDict (d : list (string * value F)).
Arguments VNone {F}. Arguments VBool {F}. Arguments VInt {F}. Arguments VFloat {F}.
Arguments VStr {F}. Arguments VList {F}. Arguments VDict {F}.

(** The declared types of default.yml after [eval] (init_tools.py:108-112).
    eval("None") is the value None, not a type. *)
Inductive ty : Type := TInt | TFloat | TStr | TBool | TNone.

(** [type(v) is t] (init_tools.py:146): exact types, and no value has type
    None. *)
Definition has_type {F} (v : value F) (t : ty) : bool :=
  match v, t with
  | VBool _, TBool | VInt _, TInt | VFloat _, TFloat | VStr _, TStr => true
  | _, _ => false
  end.

(** A parameter declaration: accepted types and default value. Default.yml, init_tools.py:76-138. *)
Definition declaration (F : Type) : Type := (list ty * value F)%type.

(** What the input file is to DeltaModel (init_tools.py:115-123): absent, a
    file the loader returns None for, or a mapping. *)
Inductive file (F : Type) : Type := NoFile | EmptyFile | Mapping (d : dict (value F)).
Arguments NoFile {F}. Arguments EmptyFile {F}. Arguments Mapping {F}.

Section Config.
  Context {F : Type} {A : Arith F}.

  (** default.yml:1-185 *)
  Definition default_table : dict (declaration F) :=
    [
     ("out_dir", ([TStr], VStr "deltaRCM_Output"));
     ("verbose", ([TInt], VInt 0));
     ("seed", ([TInt; TNone], VNone));
     ("Length", ([TFloat; TInt], VFloat (fz 5000)));
     ("Width", ([TFloat; TInt], VFloat (fz 10000)));
     ("dx", ([TFloat; TInt], VFloat (fz 50)));
     ("L0_meters", ([TFloat; TInt], VFloat (fz 150)));
     ("S0", ([TFloat; TInt], VFloat (flit 15 100000)));
     ("itermax", ([TInt], VInt 3));
     ("Np_water", ([TInt], VInt 2000));
     ("u0", ([TFloat; TInt], VFloat (fz 1)));
     ("N0_meters", ([TFloat; TInt], VFloat (fz 250)));
     ("h0", ([TFloat; TInt], VFloat (fz 5)));
     ("hb", ([TFloat; TInt; TNone], VNone));
     ("H_SL", ([TFloat; TInt], VFloat (fz 0)));
     ("SLR", ([TFloat; TInt], VFloat (fz 0)));
     ("Np_sed", ([TInt], VInt 2000));
     ("f_bedload", ([TFloat; TInt], VFloat (flit 5 10)));
     ("active_layer_thickness", ([TFloat; TInt; TNone], VNone));
     ("C0_percent", ([TFloat; TInt], VFloat (flit 1 10)));
     ("Csmooth", ([TFloat; TInt], VFloat (flit 9 10)));
     ("toggle_subsidence", ([TBool], VBool false));
     ("subsidence_rate", ([TFloat; TInt], VFloat (flit 2 1000000000)));
     ("start_subsidence", ([TFloat; TInt], VInt 216000));
     ("save_eta_figs", ([TBool], VBool false));
     ("save_stage_figs", ([TBool], VBool false));
     ("save_depth_figs", ([TBool], VBool false));
     ("save_discharge_figs", ([TBool], VBool false));
     ("save_velocity_figs", ([TBool], VBool false));
     ("save_sedflux_figs", ([TBool], VBool false));
     ("save_sandfrac_figs", ([TBool], VBool false));
     ("save_figs_sequential", ([TBool], VBool true));
     ("save_metadata", ([TBool], VBool false));
     ("save_eta_grids", ([TBool], VBool false));
     ("save_stage_grids", ([TBool], VBool false));
     ("save_depth_grids", ([TBool], VBool false));
     ("save_discharge_grids", ([TBool], VBool false));
     ("save_velocity_grids", ([TBool], VBool false));
     ("save_sedflux_grids", ([TBool], VBool false));
     ("save_sandfrac_grids", ([TBool], VBool false));
     ("save_discharge_components", ([TBool], VBool false));
     ("save_velocity_components", ([TBool], VBool false));
     ("save_dt", ([TInt], VInt 86400));
     ("checkpoint_dt", ([TInt; TNone], VNone));
     ("save_checkpoint", ([TBool], VBool false));
     ("resume_checkpoint", ([TBool; TStr], VBool false));
     ("omega_sfc", ([TFloat; TInt], VFloat (flit 1 10)));
     ("omega_flow", ([TFloat; TInt], VFloat (flit 9 10)));
     ("Nsmooth", ([TInt], VInt 10));
     ("theta_water", ([TFloat; TInt], VFloat (fz 1)));
     ("coeff_theta_sand", ([TFloat; TInt], VFloat (fz 2)));
     ("coeff_theta_mud", ([TFloat; TInt], VFloat (fz 1)));
     ("beta", ([TInt], VInt 3));
     ("sed_lag", ([TFloat; TInt], VFloat (fz 1)));
     ("coeff_U_dep_mud", ([TFloat; TInt], VFloat (flit 3 10)));
     ("coeff_U_ero_mud", ([TFloat; TInt], VFloat (flit 15 10)));
     ("coeff_U_ero_sand", ([TFloat; TInt], VFloat (flit 105 100)));
     ("alpha", ([TFloat; TInt], VFloat (flit 1 10)));
     ("stepmax", ([TFloat; TInt; TNone], VNone));
     ("sand_frac_bc", ([TFloat; TInt], VInt 0));
     ("clobber_netcdf", ([TBool], VBool false));
     ("legacy_netcdf", ([TBool], VBool false))
    ].

  (** init_tools.py:146-155, 172-190: a given value is checked, an absent one
      replaced by the default. *)
  Definition resolve (user : dict (value F)) (k : string) (d : declaration F) : result (value F) :=
    match dget k user with
    | Some v => if existsb (has_type v) (fst d) then Ok v else Err TypeError
    | None => Ok (snd d)
    end.

  (** init_tools.py:142-157 *)
  Fixpoint populate (table : dict (declaration F)) (user : dict (value F)) : result (dict (value F)) :=
    match table with
    | [] => Ok []
    | (k, d) :: t =>
        do v <- resolve user k d;
        do rest <- populate t user;
        Ok ((k, v) :: rest)
    end.

  (** init_tools.py:159-190: parameters declared by a subclass. *)
  Fixpoint add_custom (custom : dict (declaration F)) (user vars : dict (value F))
    : result (dict (value F)) :=
    match custom with
    | [] => Ok vars
    | (k, d) :: t =>
        if dmem k vars then add_custom t user vars
        else do v <- resolve user k d; add_custom t user (dset k v vars)
    end.

  (** init_tools.py:114-138: keyword arguments over the file.  A file that
      loads as None makes the first membership test fail. *)
  Definition user_values (f : file F) (kw : dict (value F)) : result (dict (value F)) :=
    match f with
    | NoFile => Ok (dupdate [] kw)
    | Mapping d => Ok (dupdate d kw)
    | EmptyFile => Err (match kw with [] => TypeError | _ => AttributeError end)
    end.

  (** init_tools.py:199 *)
  Definition run_controls : list string :=
    ["timesteps"; "time"; "time_years"; "config"; "dryrun"; "parallel"].

  (** init_tools.py:76-230 (import_files): the parameters in order, and the
      keys reported as unused. *)
  Definition import_files (table custom : dict (declaration F)) (f : file F) (kw : dict (value F))
    : result (dict (value F) * list string) :=
    do user <- user_values f kw;
    do vars <- populate table user;
    do vars <- add_custom custom user vars;
    let left := filter (fun kv => negb (existsb (String.eqb (fst kv)) run_controls)) user in
    Ok (vars, filter (fun k => negb (dmem k vars)) (dkeys left)).

  (** ** The numeric attributes *)

  (** Ints become floats where the code computes with them as floats. model.py:305-646. *)
  Definition as_num (v : value F) : option F :=
    match v with VInt z => Some (fz z) | VFloat x => Some x | _ => None end.
  (** model.py:290, 387 *)
  Definition as_int (v : value F) : option Z := match v with VInt z => Some z | _ => None end.
  (** model.py:623 *)
  Definition as_bool (v : value F) : option bool := match v with VBool b => Some b | _ => None end.
  (** model.py:471, 572 *)
  Definition as_opt_num (v : value F) : option (option F) :=
    match v with VNone => Some None | _ => option_map Some (as_num v) end.
  (** model.py:290 *)
  Definition as_opt_int (v : value F) : option (option Z) :=
    match v with VNone => Some None | _ => option_map Some (as_int v) end.

  (** Value of a parameter; a missing or ill-typed value cannot occur
      ([ConfigProofs.inputs_of_Ok]). init_tools.py:232-258. *)
  Definition read_as {T} (conv : value F -> option T) (k : string) (c : dict (value F)) : result T :=
    match dget k c with
    | Some v => match conv v with Some t => Ok t | None => Err TypeError end
    | None => Err KeyError
    end.

  (** init_tools.py:251-252: the value handed to each numeric setter. *)
  Definition inputs_of (c : dict (value F)) : result (inputs F) :=
    do v_Length <- read_as as_num "Length" c;
    do v_Width <- read_as as_num "Width" c;
    do v_dx <- read_as as_num "dx" c;
    do v_L0_meters <- read_as as_num "L0_meters" c;
    do v_S0 <- read_as as_num "S0" c;
    do v_itermax <- read_as as_int "itermax" c;
    do v_Np_water <- read_as as_int "Np_water" c;
    do v_u0 <- read_as as_num "u0" c;
    do v_N0_meters <- read_as as_num "N0_meters" c;
    do v_h0 <- read_as as_num "h0" c;
    do v_hb <- read_as as_opt_num "hb" c;
    do v_H_SL <- read_as as_num "H_SL" c;
    do v_SLR <- read_as as_num "SLR" c;
    do v_Np_sed <- read_as as_int "Np_sed" c;
    do v_f_bedload <- read_as as_num "f_bedload" c;
    do v_active_layer_thickness <- read_as as_opt_num "active_layer_thickness" c;
    do v_C0_percent <- read_as as_num "C0_percent" c;
    do v_Csmooth <- read_as as_num "Csmooth" c;
    do v_toggle_subsidence <- read_as as_bool "toggle_subsidence" c;
    do v_subsidence_rate <- read_as as_num "subsidence_rate" c;
    do v_start_subsidence <- read_as as_num "start_subsidence" c;
    do v_save_dt <- read_as as_num "save_dt" c;
    do v_checkpoint_dt <- read_as as_opt_num "checkpoint_dt" c;
    do v_save_checkpoint <- read_as as_bool "save_checkpoint" c;
    do v_omega_sfc <- read_as as_num "omega_sfc" c;
    do v_omega_flow <- read_as as_num "omega_flow" c;
    do v_Nsmooth <- read_as as_int "Nsmooth" c;
    do v_theta_water <- read_as as_num "theta_water" c;
    do v_coeff_theta_sand <- read_as as_num "coeff_theta_sand" c;
    do v_coeff_theta_mud <- read_as as_num "coeff_theta_mud" c;
    do v_beta <- read_as as_num "beta" c;
    do v_sed_lag <- read_as as_num "sed_lag" c;
    do v_coeff_U_dep_mud <- read_as as_num "coeff_U_dep_mud" c;
    do v_coeff_U_ero_mud <- read_as as_num "coeff_U_ero_mud" c;
    do v_coeff_U_ero_sand <- read_as as_num "coeff_U_ero_sand" c;
    do v_alpha <- read_as as_num "alpha" c;
    do v_stepmax <- read_as as_opt_num "stepmax" c;
    do v_sand_frac_bc <- read_as as_num "sand_frac_bc" c;
    do v_seed <- read_as as_opt_int "seed" c;
    Ok (mkInputs v_Length v_Width v_dx v_L0_meters v_S0 v_itermax v_Np_water v_u0 v_N0_meters v_h0
      v_hb v_H_SL v_SLR v_Np_sed v_f_bedload v_active_layer_thickness v_C0_percent v_Csmooth
      v_toggle_subsidence v_subsidence_rate v_start_subsidence v_save_dt v_checkpoint_dt
      v_save_checkpoint v_omega_sfc v_omega_flow v_Nsmooth v_theta_water v_coeff_theta_sand
      v_coeff_theta_mud v_beta v_sed_lag v_coeff_U_dep_mud v_coeff_U_ero_mud v_coeff_U_ero_sand
      v_alpha v_stepmax v_sand_frac_bc v_seed).

  (** init_tools.py:76-258: file and keyword arguments to the numeric
      configuration. *)
  Definition configure (custom : dict (declaration F)) (f : file F) (kw : dict (value F))
    : result (inputs F) :=
    do (c, _) <- import_files default_table custom f kw;
    inputs_of c.
End Config.
