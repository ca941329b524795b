(** What reading a configuration is meant to do. *)
From Coq Require Import ZArith List Bool String Reals.
From Verif Require Import Base Dict Inputs Config.
Import ListNotations.
Local Open Scope string_scope.

Section ConfigSpec.
  Context {F : Type} {A : Arith F}.

  (** The value the user gives for a parameter: the keyword argument, else
      the entry of the file. *)
  Definition given (f : file F) (kw : dict (value F)) (k : string) : option (value F) :=
    match dget k kw with
    | Some v => Some v
    | None => match f with Mapping d => dget k d | _ => None end
    end.

  (** The declaration in force for a name: the library's, else the
      subclass's. *)
  Definition declared (table custom : dict (declaration F)) (k : string) : option (declaration F) :=
    match dget k table with Some d => Some d | None => dget k custom end.

  (** The type of a value is one of the declared ones. *)
  Inductive right_type : value F -> list ty -> Prop :=
  | rt_int z l : In TInt l -> right_type (VInt z) l
  | rt_float x l : In TFloat l -> right_type (VFloat x) l
  | rt_str s l : In TStr l -> right_type (VStr s) l
  | rt_bool b l : In TBool l -> right_type (VBool b) l.

  (** Every given value has a declared type. *)
  Definition well_typed (table custom : dict (declaration F)) (f : file F) (kw : dict (value F)) : Prop :=
    forall k d v, declared table custom k = Some d -> given f kw k = Some v -> right_type v (fst d).

  (** Keys are unique, as in every dictionary. *)
  Definition is_dict {V} (d : dict V) : Prop := NoDup (dkeys d).
  (** There is a mapping, or no file at all. *)
  Definition readable (f : file F) : Prop :=
    match f with NoFile => True | EmptyFile => False | Mapping d => is_dict d end.

  (** An attribute holding [w] for the configured value [v]: the same value,
      an integer possibly as a float. *)
  Definition same_value (v w : value F) : Prop :=
    v = w \/ exists z, v = VInt z /\ w = VFloat (fz z).

  (** None or a number. *)
  Definition opt_float (x : option F) : value F := match x with Some t => VFloat t | None => VNone end.
  Definition opt_int (x : option Z) : value F := match x with Some t => VInt t | None => VNone end.
  (** The numeric attributes by name. *)
  Definition attributes (inp : inputs F) : dict (value F) :=
    [
     ("Length", VFloat (i_Length inp));
     ("Width", VFloat (i_Width inp));
     ("dx", VFloat (i_dx inp));
     ("L0_meters", VFloat (i_L0_meters inp));
     ("S0", VFloat (i_S0 inp));
     ("itermax", VInt (i_itermax inp));
     ("Np_water", VInt (i_Np_water inp));
     ("u0", VFloat (i_u0 inp));
     ("N0_meters", VFloat (i_N0_meters inp));
     ("h0", VFloat (i_h0 inp));
     ("hb", opt_float (i_hb inp));
     ("H_SL", VFloat (i_H_SL inp));
     ("SLR", VFloat (i_SLR inp));
     ("Np_sed", VInt (i_Np_sed inp));
     ("f_bedload", VFloat (i_f_bedload inp));
     ("active_layer_thickness", opt_float (i_active_layer_thickness inp));
     ("C0_percent", VFloat (i_C0_percent inp));
     ("Csmooth", VFloat (i_Csmooth inp));
     ("toggle_subsidence", VBool (i_toggle_subsidence inp));
     ("subsidence_rate", VFloat (i_subsidence_rate inp));
     ("start_subsidence", VFloat (i_start_subsidence inp));
     ("save_dt", VFloat (i_save_dt inp));
     ("checkpoint_dt", opt_float (i_checkpoint_dt inp));
     ("save_checkpoint", VBool (i_save_checkpoint inp));
     ("omega_sfc", VFloat (i_omega_sfc inp));
     ("omega_flow", VFloat (i_omega_flow inp));
     ("Nsmooth", VInt (i_Nsmooth inp));
     ("theta_water", VFloat (i_theta_water inp));
     ("coeff_theta_sand", VFloat (i_coeff_theta_sand inp));
     ("coeff_theta_mud", VFloat (i_coeff_theta_mud inp));
     ("beta", VFloat (i_beta inp));
     ("sed_lag", VFloat (i_sed_lag inp));
     ("coeff_U_dep_mud", VFloat (i_coeff_U_dep_mud inp));
     ("coeff_U_ero_mud", VFloat (i_coeff_U_ero_mud inp));
     ("coeff_U_ero_sand", VFloat (i_coeff_U_ero_sand inp));
     ("alpha", VFloat (i_alpha inp));
     ("stepmax", opt_float (i_stepmax inp));
     ("sand_frac_bc", VFloat (i_sand_frac_bc inp));
     ("seed", opt_int (i_seed inp))
    ].
End ConfigSpec.

(** The defaults as documented. *)
Definition documented_defaults : inputs R := {|
  i_Length := 5000; i_Width := 10000; i_dx := 50; i_L0_meters := 150; i_S0 := 15 / 100000;
  i_itermax := 3; i_Np_water := 2000; i_u0 := 1; i_N0_meters := 250; i_h0 := 5; i_hb := None;
  i_H_SL := 0; i_SLR := 0; i_Np_sed := 2000; i_f_bedload := 5 / 10; i_active_layer_thickness := None;
  i_C0_percent := 1 / 10; i_Csmooth := 9 / 10; i_toggle_subsidence := false;
  i_subsidence_rate := 2 / 1000000000; i_start_subsidence := 216000; i_save_dt := 86400;
  i_checkpoint_dt := None; i_save_checkpoint := false; i_omega_sfc := 1 / 10; i_omega_flow := 9 / 10;
  i_Nsmooth := 10; i_theta_water := 1; i_coeff_theta_sand := 2; i_coeff_theta_mud := 1; i_beta := 3;
  i_sed_lag := 1; i_coeff_U_dep_mud := 3 / 10; i_coeff_U_ero_mud := 15 / 10;
  i_coeff_U_ero_sand := 105 / 100; i_alpha := 1 / 10; i_stepmax := None; i_sand_frac_bc := 0;
  i_seed := None |}%R.
