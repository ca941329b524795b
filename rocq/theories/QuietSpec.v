(** C73: what it means for two configurations to differ only in what they
    save, print and where, and for two runs to be the same run. *)
From Coq Require Import ZArith List Bool String.
From Verif Require Import Base Params State Iter IterSpec Inputs Init Dict Config ConfigSpec.
Import ListNotations.
Local Open Scope string_scope.

(** The parameters that concern output only. *)
Definition output_keys : list string :=
  ["out_dir"; "verbose"; "save_eta_figs"; "save_stage_figs"; "save_depth_figs";
   "save_discharge_figs"; "save_velocity_figs"; "save_sedflux_figs"; "save_sandfrac_figs";
   "save_figs_sequential"; "save_metadata"; "save_eta_grids"; "save_stage_grids";
   "save_depth_grids"; "save_discharge_grids"; "save_velocity_grids"; "save_sedflux_grids";
   "save_sandfrac_grids"; "save_discharge_components"; "save_velocity_components";
   "save_dt"; "checkpoint_dt"; "save_checkpoint"; "clobber_netcdf"; "legacy_netcdf"].

(** Two ways to configure a model that give every other parameter the same
    value (or leave it out in both). *)
Definition differ_in_output_only {F} (f f' : file F) (kw kw' : dict (value F)) : Prop :=
  forall k, ~ In k output_keys -> given f kw k = given f' kw' k.

(** The same for the numeric configuration: every field agrees but the two
    intervals and the checkpoint switch. *)
Definition same_inputs {F} (a b : inputs F) : Prop :=
  b = seti_save_dt (i_save_dt b) (seti_checkpoint_dt (i_checkpoint_dt b)
        (seti_save_checkpoint (i_save_checkpoint b) a)).

(** The same for the constants of a model. *)
Definition same_constants {F} (a b : params F) : Prop :=
  b = setp_save_dt (p_save_dt b) (setp_checkpoint_dt (p_checkpoint_dt b)
        (setp_save_checkpoint (p_save_checkpoint b) a)).

(** Both calls raise the same exception, or both succeed with related
    results. *)
Definition same_outcome {T T'} (rel : T -> T' -> Prop) (x : result T) (y : result T') : Prop :=
  match x, y with
  | Ok a, Ok b => rel a b
  | Err e, Err e' => e = e'
  | _, _ => False
  end.

(** Same fields, clock, sea level and generator; what was written is not
    compared. *)
Definition same_state {F S} (a b : state F S * list (output F S)) : Prop :=
  same_but_counters (fst a) (fst b).

(** Two models with the same attributes, constants, fields, clock and
    generator, but for output settings and counters. *)
Record same_model {F S} (m m' : model (F:=F) S) : Prop := {
  sm_attributes : same_inputs (m_in m) (m_in m');
  sm_constants : same_constants (m_P m) (m_P m');
  sm_state : same_but_counters (m_st m) (m_st m');
  sm_finalized : m_finalized m = m_finalized m' }.

(** An output shows a state: its time and the state of a record, or a
    checkpoint of it. *)
Definition shows {F S} (o : output F S) (st : state F S) : Prop :=
  match o with
  | Record_ _ t x => t = s_time st /\ same_but_counters x st
  | Checkpoint c => exists z, c = save_the_checkpoint z /\ same_but_counters z st
  end.
