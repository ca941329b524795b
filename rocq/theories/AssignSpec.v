(** What an assignment to a model in use means. *)
From Coq Require Import ZArith List Bool Reals.
From Verif Require Import Base Params State Inputs Iter Init Session SessionSpec InitSpec Assign.

Section AssignSpec.
  Context {F : Type}.

  (** The configuration with the value in it. *)
  Definition configured (ch : change F) (c : inputs F) : inputs F :=
    match ch with
    | To_Csmooth x => seti_Csmooth x c | To_Nsmooth n => seti_Nsmooth n c
    | To_omega_sfc x => seti_omega_sfc x c | To_omega_flow x => seti_omega_flow x c
    | To_SLR x => seti_SLR x c | To_start_subsidence x => seti_start_subsidence x c
    | To_active_layer_thickness x => seti_active_layer_thickness x c
    | To_save_dt x => seti_save_dt x c | To_checkpoint_dt x => seti_checkpoint_dt x c
    | To_save_checkpoint b => seti_save_checkpoint b c | To_sand_frac_bc x => seti_sand_frac_bc x c
    | To_L0_meters x => seti_L0_meters x c | To_N0_meters x => seti_N0_meters x c | To_hb x => seti_hb x c
    | To_C0_percent x => seti_C0_percent x c | To_subsidence_rate x => seti_subsidence_rate x c
    | To_coeff_theta_sand x => seti_coeff_theta_sand x c | To_coeff_theta_mud x => seti_coeff_theta_mud x c
    | To_beta x => seti_beta x c | To_sed_lag x => seti_sed_lag x c
    | To_coeff_U_dep_mud x => seti_coeff_U_dep_mud x c | To_coeff_U_ero_mud x => seti_coeff_U_ero_mud x c
    | To_coeff_U_ero_sand x => seti_coeff_U_ero_sand x c | To_alpha x => seti_alpha x c
    | To_seed z => seti_seed (Some z) c
    | To_theta_water x => seti_theta_water x c | To_S0 x => seti_S0 x c
    | To_itermax n => seti_itermax n c | To_Np_sed n => seti_Np_sed n c
    end.

  (** Settings that act from the next update on.  The checkpoint interval that
      was not configured keeps the saving interval of the configuration. *)
  Definition acts_at_once (ch : change F) (c : inputs F) : Prop :=
    match ch with
    | To_Csmooth _ | To_Nsmooth _ | To_omega_sfc _ | To_omega_flow _ | To_SLR _ | To_start_subsidence _
    | To_active_layer_thickness _ | To_checkpoint_dt _ | To_save_checkpoint _ | To_sand_frac_bc _ => True
    | To_save_dt _ => i_checkpoint_dt c <> None
    | _ => False
    end.

  (** Settings that are only used when a model is made. *)
  Definition used_when_made (ch : change F) : Prop :=
    match ch with
    | To_L0_meters _ | To_N0_meters _ | To_hb _ | To_C0_percent _ | To_subsidence_rate _
    | To_coeff_theta_sand _ | To_coeff_theta_mud _ | To_beta _ | To_sed_lag _
    | To_coeff_U_dep_mud _ | To_coeff_U_ero_mud _ | To_coeff_U_ero_sand _ | To_alpha _ | To_seed _ => True
    | _ => False
    end.
End AssignSpec.

(** A model made from configuration [c] and updated any number of times. *)
Inductive in_use {F} {A : Arith F} {S N} {G : Rng F S} {GN : NpRng N} (c : inputs F) (nb : S) (np : N)
  : model (F:=F) S -> Prop :=
| in_use_new m o np' : new_model (G:=G) (GN:=GN) c nb np = Ok (m, o, np') -> in_use c nb np m
| in_use_update m m' o : in_use c nb np m -> model_update m = Ok (m', o) -> in_use c nb np m'.

(** Anything done to a model: updates, assignments of configuration values and
    of public attributes. *)
Inductive handled {F} {A : Arith F} {S} {G : Rng F S} : model (F:=F) S -> model (F:=F) S -> Prop :=
| handled_none m : handled m m
| handled_update m m1 m2 o : handled m m1 -> model_update m1 = Ok (m2, o) -> handled m m2
| handled_change ch m m1 m2 : handled m m1 -> apply_change ch m1 = Ok m2 -> handled m m2
| handled_assign s x m m1 m2 : handled m m1 -> assign_later s x m1 = Ok m2 -> handled m m2.

(** The range of a value. *)
Definition in_range (ch : change R) : Prop :=
  match ch with
  | To_L0_meters x | To_C0_percent x | To_Csmooth x | To_active_layer_thickness (Some x) => (0 <= x)%R
  | To_N0_meters x => (0 < x)%R
  | To_itermax n => (0 <= n)%Z
  | To_Np_sed n => (0 < n)%Z
  | _ => True
  end.

(** What the inlet's quantities are computed from when an inlet attribute is
    assigned: constants [P] of the model afterwards follow the stored values
    [c]. *)
Record recomputed (c : inputs R) (P : params R) : Prop := {
  re_lag : p_lambda P = i_sed_lag c;
  re_beta : p_beta P = i_beta c;
  re_strip : exists n, rounded (i_L0_meters c / i_dx c) n /\ p_L0 P = Z.max 1 (Z.min n (p_L P / 4));
  re_width : exists n, rounded (i_N0_meters c / i_dx c) n /\ p_N0 P = Z.max 3 (Z.min n (p_W P / 4));
  re_concentration : p_C0 P = (i_C0_percent c / 100)%R;
  re_slope : (p_gamma P * (i_u0 c * i_u0 c) = 981 / 100 * i_S0 c * i_dx c)%R;
  re_diffusion : (p_diffusion_multiplier P * (2 * (i_dx c * i_dx c)) * IZR (p_N_crossdiff P) = p_dt P * i_alpha c)%R;
  re_iterations : (p_omega_flow_iter P * IZR (p_itermax P) = 2)%R;
  re_parcels : (IZR (p_Np_sed P) * p_Vp_sed P = p_dVs P)%R
}.

(** Constants that no assignment reaches. *)
Definition settled {F} (P P' : params F) : Prop :=
  p_U_dep_mud P' = p_U_dep_mud P /\ p_U_ero_mud P' = p_U_ero_mud P /\ p_U_ero_sand P' = p_U_ero_sand P /\
  p_theta_sand P' = p_theta_sand P /\ p_theta_mud P' = p_theta_mud P /\ p_hb P' = p_hb P /\
  p_L P' = p_L P /\ p_W P' = p_W P /\ p_inlet P' = p_inlet P.
