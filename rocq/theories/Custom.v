(** Model of classes derived from the model class: hooks that change the model
    (hook_tools.py:33-291, docs/source/examples/variable_velocity.rst,
    slight_slope.rst, variable_bedload.rst), and the names of earlier
    versions (hook_tools.py:11-31, iteration_tools.py:48-59, sed_tools.py:51-61). *)
From Coq Require Import ZArith List Bool String.
From Verif Require Import Base Params State Shared Water Sed Iter Inputs Init Hooks.
Import ListNotations.
Local Open Scope Z_scope.

Section Custom.
  Context {F : Type} {A : Arith F} {S : Type} {G : Rng F S} {Y : Type}.

  (** A model of a derived class: its constants, which hooks may change too,
      the constants its routers were built with (init_tools.py:591-631), its
      fields and output, and attributes [Y] of the class's own.
      model.py:37-147; docs/source/examples/variable_velocity.rst:63-93.
      Hooks that put a new array in the place of mod_erosion are outside the
      model, since the routers keep the old one. *)
  Record custom : Type := mkCustom { u_P : params F; u_R : params F; u_w : work (F:=F) (S:=S); u_own : Y }.

  (** The constants of sediment routing: what the routers copied when they
      were built (sed_tools.py:582-627, 835-878) in the place of the model's. *)
  Definition router_constants (R P : params F) : params F :=
    setp_dt (p_dt R) (setp_dx (p_dx R) (setp_Vp_sed (p_Vp_sed R) (setp_u_max (p_u_max R)
    (setp_qs0 (p_qs0 R) (setp_u0 (p_u0 R) (setp_U_ero_sand (p_U_ero_sand R) (setp_U_dep_mud (p_U_dep_mud R)
    (setp_U_ero_mud (p_U_ero_mud R) (setp_f_bedload_router (p_f_bedload_router R) (setp_dry_depth (p_dry_depth R)
    (setp_lambda (p_lambda R) (setp_beta (p_beta R) (setp_stepmax (p_stepmax R)
    (setp_theta_sand (p_theta_sand R) (setp_theta_mud (p_theta_mud R) P))))))))))))))).
  (** The constants a method works with (sed_tools.py:129-145, 197-212). *)
  Definition constants_of (e : event) (x : custom) : params F :=
    match e with
    | Start RouteSand | Start RouteMud => router_constants (u_R x) (u_P x)
    | _ => u_P x
    end.
  (** Building the routers again. init_tools.py:577-631. *)
  Definition rebuild_routers (x : custom) : custom :=
    mkCustom (init_sediment_routers (u_P x)) (init_sediment_routers (u_P x)) (u_w x) (u_own x).

  (** A hook does what the class says; every other call is the library's, with
      the constants of the moment. hook_tools.py:33-291. *)
  Definition custom_call (hook : event -> custom -> result custom) (e : event) (x : custom) : result custom :=
    match e with
    | Before _ | After _ => hook e x
    | _ => do w <- method_effect (constants_of e x) e (u_w x); Ok (mkCustom (u_P x) (u_R x) w (u_own x))
    end.

  (** model.py:188-215; the number of water iterations is read when
      route_water starts (water_tools.py:26). *)
  Definition custom_update (hook : event -> custom -> result custom) (x : custom) : result custom :=
    let call := custom_call hook in
    do x <- call (Before Solve) x;
    do x <- call (Start Solve) x;
    do x <- call (Before RouteWater) x;
    do x <- route_water_calls call (p_itermax (u_P x)) x;
    do x <- call (After RouteWater) x;
    do x <- call (Before RouteSediment) x;
    do x <- route_sediment_calls call x;
    do x <- call (After RouteSediment) x;
    do x <- call (Before ApplySubsidence) x;
    do x <- call (Start ApplySubsidence) x;
    do x <- call (Before FinalizeTimestep) x;
    do x <- finalize_timestep_calls call x;
    do x <- call (After FinalizeTimestep) x;
    do x <- call (Do AdvanceClock) x;
    output_calls call x.

  (** Repeated updates. model.py:149-215, preprocessor.py:795-796. *)
  Fixpoint custom_updates (hook : event -> custom -> result custom) (n : nat) (x : custom) : result custom :=
    match n with
    | O => Ok x
    | Datatypes.S n' => do x <- custom_update hook x; custom_updates hook n' x
    end.
End Custom.
Arguments custom F S Y : clear implicits.
Arguments mkCustom {F S Y}. Arguments u_P {F S Y}. Arguments u_R {F S Y}. Arguments u_w {F S Y}. Arguments u_own {F S Y}.

(** Names that a derived class must not define. hook_tools.py:22-25. *)
Definition deprecated_names : list string := ["hook_sed_route"; "hook_run_one_timestep"]%string.
(** hook_tools.py:26-31: hasattr over these names; [defined] are the methods
    of the class. *)
Definition check_deprecated_hooks (defined : list string) : result unit :=
  if existsb (fun n => existsb (String.eqb n) defined) deprecated_names then Err AttributeError else Ok tt.

Section Old.
  Context {X : Type} (call : event -> X -> result X).
  (** iteration_tools.py:48-59; the warning is left out. *)
  Definition run_one_timestep_calls (itermax : Z) : X -> result X := solve_calls call itermax.
  (** sed_tools.py:51-61; the warning is left out. *)
  Definition sed_route_calls : X -> result X := route_sediment_calls call.
End Old.
