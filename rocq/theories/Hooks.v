(** Model of the order in which methods and hooks are called: model.py:95-143
    (__init__), model.py:188-215 (update) and the methods they call.  What a
    call does is a parameter, so that subclasses may define any hook and
    override any method. *)
From Coq Require Import ZArith List Bool.
From Verif Require Import Base Params State Shared Water Sed Iter.
Import ListNotations.
Local Open Scope Z_scope.

(** Methods that have a hook (hook_tools.py:33-221). *)
Inductive meth : Type :=
| ImportFiles | ProcessInput | CreateOtherVariables | CreateDomain | LoadCheckpoint | InitOutputFile
| OutputData | OutputCheckpoint
| Solve | ApplySubsidence | FinalizeTimestep
| RouteWater | InitWaterIteration | RunWaterIteration | ComputeFreeSurface
| FinalizeWaterIteration (iteration : Z)
| RouteSediment | InitSedimentIteration | RouteSand | TopoDiffusion | RouteMud
| ComputeSandFrac.

(** Steps without a hook. init_tools.py and model.py:37-147. *)
Inductive step : Type :=
| InitOutputInfrastructure | InitLogger | DetermineRandomSeed | InitSedimentRouters | InitSubsidence
| RaiseSeaLevel | AdvanceClock.

(** [Before m] is hook_m, [After m] is hook_after_m (hook_tools.py:253-288),
    [Start m] the method itself, up to the first hook inside it, and [Do] a
    step without hook. *)
Inductive event : Type := Before (m : meth) | Start (m : meth) | After (m : meth) | Do (s : step).

Section Calls.
  Context {X : Type} (call : event -> X -> result X).

  (** One call after another; an exception ends the sequence. model.py:37-147. *)
  Definition andthen (f g : X -> result X) (x : X) : result X := do y <- f x; g y.
  Local Notation "f ;; g" := (andthen f g) (at level 60, right associativity).
  (** hook_tools.py:33-221: the default hooks *)
  Definition nothing (x : X) : result X := Ok x.

  (** water_tools.py:26-41: the loop of route_water from [it]. *)
  Fixpoint water_calls (n : nat) (it : Z) : X -> result X :=
    match n with
    | O => nothing
    | Datatypes.S n' =>
        call (Before InitWaterIteration) ;; call (Start InitWaterIteration) ;;
        call (Before RunWaterIteration) ;; call (Start RunWaterIteration) ;;
        call (Before ComputeFreeSurface) ;; call (Start ComputeFreeSurface) ;;
        call (Before (FinalizeWaterIteration it)) ;; call (Start (FinalizeWaterIteration it)) ;;
        water_calls n' (it + 1)
    end.
  (** water_tools.py:11-41 *)
  Definition route_water_calls (itermax : Z) : X -> result X :=
    call (Start RouteWater) ;; water_calls (Z.to_nat itermax) 0.

  (** sed_tools.py:18-49 *)
  Definition route_sediment_calls : X -> result X :=
    call (Start RouteSediment) ;;
    call (Before InitSedimentIteration) ;; call (Start InitSedimentIteration) ;;
    call (Before RouteSand) ;; call (Start RouteSand) ;;
    call (Before TopoDiffusion) ;; call (Start TopoDiffusion) ;;
    call (Before RouteMud) ;; call (Start RouteMud).

  (** iteration_tools.py:23-46 *)
  Definition solve_calls (itermax : Z) : X -> result X :=
    call (Start Solve) ;;
    call (Before RouteWater) ;; route_water_calls itermax ;; call (After RouteWater) ;;
    call (Before RouteSediment) ;; route_sediment_calls ;; call (After RouteSediment).

  (** iteration_tools.py:87-115 *)
  Definition finalize_timestep_calls : X -> result X :=
    call (Start FinalizeTimestep) ;;
    call (Before ComputeSandFrac) ;; call (Start ComputeSandFrac) ;;
    call (Do RaiseSeaLevel).

  (** model.py:210-215, and model.py:139-143 *)
  Definition output_calls : X -> result X :=
    call (Before OutputData) ;; call (Start OutputData) ;;
    call (Before OutputCheckpoint) ;; call (Start OutputCheckpoint).

  (** model.py:188-215 (update) *)
  Definition update_calls (finalized : bool) (itermax : Z) (x : X) : result X :=
    if finalized then Err RuntimeError else
    (call (Before Solve) ;; solve_calls itermax ;;
     call (Before ApplySubsidence) ;; call (Start ApplySubsidence) ;;
     call (Before FinalizeTimestep) ;; finalize_timestep_calls ;; call (After FinalizeTimestep) ;;
     call (Do AdvanceClock) ;;
     output_calls) x.

  (** model.py:149-215, repeated *)
  Fixpoint updates_calls (n : nat) (itermax : Z) : X -> result X :=
    match n with
    | O => nothing
    | Datatypes.S n' => update_calls false itermax ;; updates_calls n' itermax
    end.

  (** init_tools.py:839-997: load_checkpoint; [missing] is whether output is
      to be written now and the output file does not exist. *)
  Definition load_checkpoint_calls (missing : bool) : X -> result X :=
    call (Start LoadCheckpoint) ;;
    if missing then call (Before InitOutputFile) ;; call (Start InitOutputFile) else nothing.

  (** model.py:92-143 (__init__); [deprecated]: the class defines one of the
      names of hook_tools.py:22-25. *)
  Definition init_calls (deprecated resume defer missing : bool) (x : X) : result X :=
    if deprecated then Err AttributeError else
    (call (Before ImportFiles) ;; call (Start ImportFiles) ;;
     call (Do InitOutputInfrastructure) ;; call (Do InitLogger) ;;
     call (Before ProcessInput) ;; call (Start ProcessInput) ;;
     call (Do DetermineRandomSeed) ;;
     call (Before CreateOtherVariables) ;; call (Start CreateOtherVariables) ;;
     call (Before CreateDomain) ;; call (Start CreateDomain) ;; call (After CreateDomain) ;;
     call (Do InitSedimentRouters) ;; call (Do InitSubsidence) ;;
     if resume then call (Before LoadCheckpoint) ;; load_checkpoint_calls missing
     else if defer then nothing
     else call (Before InitOutputFile) ;; call (Start InitOutputFile) ;; output_calls) x.
End Calls.

(** ** What the calls of an update do *)
Section Effects.
  Context {F : Type} {A : Arith F} {S : Type} {G : Rng F S} (P : params F).

  (** The fields, the parcels routed in the current water iteration and the
      output written so far. iteration_tools.py:23-46, water_tools.py:11-41. *)
  Record work : Type := mkWork { k_st : state F S; k_ps : list parcel; k_out : list (output F S) }.
  (** iteration_tools.py:23-46 *)
  Definition with_st (f : state F S -> result (state F S)) (x : work) : result work :=
    do st <- f (k_st x); Ok (mkWork st (k_ps x) (k_out x)).

  (** The methods of [Water.v], [Sed.v] and [Iter.v]; init_water_iteration is
      part of [run_water_iteration] there.  Methods of construction do
      nothing here. iteration_tools.py:23-115, water_tools.py:11-41. *)
  Definition method_effect (e : event) : work -> result work :=
    match e with
    | Start Solve => (** iteration_tools.py:36 *) with_st (fun st => Ok (set_eta0 (s_eta st) st))
    | Start RunWaterIteration => fun x =>
        do (ps, q, width, s) <- run_water_iteration P (k_st x);
        let '(qxn, qyn, qwn) := q in
        Ok (mkWork (set_width width (set_rng s
          (set_qxn (fun i j => qxn (i * p_W P + j))
          (set_qyn (fun i j => qyn (i * p_W P + j))
          (set_qwn (fun i j => qwn (i * p_W P + j)) (k_st x)))))) ps (k_out x))
    | Start ComputeFreeSurface => fun x => with_st (compute_free_surface P (k_ps x)) x
    | Start (FinalizeWaterIteration it) => with_st (fun st => Ok (finalize_water_iteration P it st))
    | Start InitSedimentIteration => with_st (fun st => Ok (init_sediment_iteration st))
    | Start RouteSand => with_st (route_all_parcels P Sand)
    | Start TopoDiffusion => with_st (fun st => Ok (topo_diffusion P st))
    | Start RouteMud => with_st (route_all_parcels P Mud)
    | Start ApplySubsidence => with_st (fun st => Ok (apply_subsidence P st))
    | Start FinalizeTimestep => with_st (fun st => Ok (finalize_levels P st))
    | Start ComputeSandFrac => with_st (fun st => Ok (compute_sand_frac P st))
    | Do RaiseSeaLevel => with_st (fun st => Ok (set_H_SL (fadd (s_H_SL st) (fmul (p_SLR P) (p_dt P))) st))
    | Do AdvanceClock => with_st (fun st => Ok (advance_clock P st))
    | Start OutputData => fun x =>
        let (st, o) := output_data P (k_st x) in Ok (mkWork st (k_ps x) (k_out x ++ o))
    | Start OutputCheckpoint => fun x =>
        let (st, o) := output_checkpoint P (k_st x) in Ok (mkWork st (k_ps x) (k_out x ++ o))
    | _ => fun x => Ok x
    end.

  (** A model with user hooks, which may do anything to the model and to
      values [Y] of the user. hook_tools.py:33-221. *)
  Definition hooked_call {Y} (hook : event -> work * Y -> result (work * Y)) (e : event)
      (x : work * Y) : result (work * Y) :=
    match e with
    | Before _ | After _ => hook e x
    | _ => do w <- method_effect e (fst x); Ok (w, snd x)
    end.
End Effects.
Arguments mkWork {F S}. Arguments k_st {F S}. Arguments k_ps {F S}. Arguments k_out {F S}.
