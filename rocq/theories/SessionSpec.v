(** What sessions, attributes and resuming are meant to do. *)
From Coq Require Import ZArith List Bool Reals.
From Flocq Require Import Core.
From Verif Require Import Base Shared Params State Water Iter IterSpec Inputs Init InitSpec Session.
Import ListNotations.
Local Open Scope Z_scope.

(** ** Trajectories *)

(** Two models are at the same point of the same trajectory. *)
Record same_point {F S} (a b : state F S) : Prop := {
  sp_bed : s_eta a = s_eta b;
  sp_stage : s_stage a = s_stage b;
  sp_depth : s_depth a = s_depth b;
  sp_velocity : s_ux a = s_ux b /\ s_uy a = s_uy b /\ s_uw a = s_uw b;
  sp_discharge : s_qx a = s_qx b /\ s_qy a = s_qy b /\ s_qw a = s_qw b;
  sp_sand : s_sand_frac a = s_sand_frac b /\ s_active_layer a = s_active_layer b;
  sp_sea : s_H_SL a = s_H_SL b;
  sp_clock : s_time a = s_time b /\ s_time_iter a = s_time_iter b;
  sp_rng : s_rng a = s_rng b
}.

(** Both computations fail with the same exception, or both succeed with
    related results. *)
Definition alike {T U} (Q : T -> U -> Prop) (x : result T) (y : result U) : Prop :=
  match x, y with
  | Ok a, Ok b => Q a b
  | Err e, Err e' => e = e'
  | _, _ => False
  end.

(** The output records among what was written. *)
Fixpoint shown_records {F S} (o : list (output F S)) : list (Z * F * state F S) :=
  match o with
  | [] => []
  | Record_ k t st :: o' => (k, t, st) :: shown_records o'
  | Checkpoint _ :: o' => shown_records o'
  end.

(** Two records with the same index, time and contents; the index may be
    shifted by [d].  The sand flux is part of a record. *)
Definition same_record {F S} (d : Z) (x y : Z * F * state F S) : Prop :=
  fst (fst y) = fst (fst x) - d /\ snd (fst x) = snd (fst y) /\ same_point (snd x) (snd y) /\
  s_qs (snd x) = s_qs (snd y).

(** ** Calls on a model *)
Inductive call := Update | Finalize.

(** What a caller sees. *)
Inductive reply (F S : Type) := Returned (o : list (output F S)) | Raised (e : exn).
Arguments Returned {F S}. Arguments Raised {F S}.

(** One call.  An update that raises while computing may leave any fields
    behind. *)
Inductive called {F} {A : Arith F} {S} {G : Rng F S} : call -> model (F:=F) S -> reply F S -> model (F:=F) S -> Prop :=
| update_returns m m' o : model_update m = Ok (m', o) -> called Update m (Returned o) m'
| update_refused m e : m_finalized m = true -> model_update m = Err e -> called Update m (Raised e) m
| update_fails m e st : m_finalized m = false -> model_update m = Err e ->
    called Update m (Raised e) (mkModel (m_in m) (m_P m) st false)
| finalize_returns m m' : model_finalize m = Ok m' -> called Finalize m (Returned []) m'
| finalize_refused m e : model_finalize m = Err e -> called Finalize m (Raised e) m.

(** A sequence of calls, with the model before, the reply and the model after
    each. *)
Inductive calls {F} {A : Arith F} {S} {G : Rng F S} : model (F:=F) S ->
  list (call * model (F:=F) S * reply F S * model (F:=F) S) -> model (F:=F) S -> Prop :=
| calls_nil m : calls m [] m
| calls_cons m c r m1 tr m' : called c m r m1 -> calls m1 tr m' -> calls m ((c, m, r, m1) :: tr) m'.

Definition call_of {M Rp : Type} (x : call * M * Rp * M) : call := fst (fst (fst x)).

(** ** Public attributes *)

(** Inlet quantities agree with the current attributes. *)
Record inlet_consistent (c : inputs R) (P : params R) : Prop := {
  ic_width : exists n, rounded (i_N0_meters c / i_dx c)%R n /\ p_N0 P = Z.max 3 (Z.min n (p_W P / 4));
  ic_speed : p_u0 P = i_u0 c /\ p_u_max P = (2 * i_u0 c)%R;
  ic_depth : p_h0 P = i_h0 c /\ p_dry_depth P = Rmin (1 / 10) (i_h0 c / 10);
  ic_concentration : p_C0 P = (i_C0_percent c / 100)%R;
  ic_water : p_qw0 P = (i_u0 c * i_h0 c)%R /\ p_Qw0 P = (p_qw0 P * (IZR (p_N0 P) * i_dx c))%R /\
    (IZR (p_Np_water P) * p_Qp_water P)%R = p_Qw0 P;
  ic_sediment : p_qs0 P = (p_qw0 P * p_C0 P)%R /\ p_Qs0 P = (p_Qw0 P * p_C0 P)%R /\
    (IZR (p_Np_sed P) * p_Vp_sed P)%R = p_dVs P;
  ic_volume : p_dVs P = (IZR (p_N0 P * p_N0 P) / 10 * (i_h0 c * (i_dx c * i_dx c)))%R;
  ic_step : (p_dt P * p_Qs0 P)%R = p_dVs P;
  ic_gamma : (p_gamma P * (i_u0 c * i_u0 c))%R = (981 / 100 * i_S0 c * i_dx c)%R;
  ic_router : p_f_bedload_router P = p_f_bedload P
}.

(** Subsidence acts at the configured rate. *)
Definition rate_kept (m_rate : R) (P : params R) : Prop :=
  forall i j, p_sigma P i j = lowering P m_rate i.

(** The attributes of the public interface. *)
Inductive setting := TimeStep | FlowVelocity | ChannelWidth | FlowDepth | SeaLevel | SeaLevelRate
  | BedloadFraction | Concentration.

Definition read {F} {A : Arith F} {S} (s : setting) (m : model (F:=F) S) : F :=
  match s with
  | TimeStep => get_time_step m
  | FlowVelocity => get_channel_flow_velocity m
  | ChannelWidth => get_channel_width m
  | FlowDepth => get_channel_flow_depth m
  | SeaLevel => get_sea_surface_mean_elevation m
  | SeaLevelRate => get_sea_surface_elevation_change m
  | BedloadFraction => get_bedload_fraction m
  | Concentration => get_influx_sediment_concentration m
  end.
Definition assign {F} {A : Arith F} {S} (s : setting) (x : F) (m : model (F:=F) S) : result (model S) :=
  match s with
  | TimeStep => set_time_step x m
  | FlowVelocity => set_channel_flow_velocity x m
  | ChannelWidth => set_channel_width x m
  | FlowDepth => set_channel_flow_depth x m
  | SeaLevel => set_sea_surface_mean_elevation x m
  | SeaLevelRate => set_sea_surface_elevation_change x m
  | BedloadFraction => set_bedload_fraction x m
  | Concentration => set_influx_sediment_concentration x m
  end.

(** The settings that describe the inlet. *)
Definition inlet_setting (s : setting) : bool :=
  match s with FlowVelocity | ChannelWidth | FlowDepth | Concentration => true | _ => false end.

(** Models obtained from a configuration by any sequence of updates and
    attribute changes, from a new model or from a resumed one. *)
Inductive reached {F} {A : Arith F} {S N} {G : Rng F S} {GN : NpRng N} (c : inputs F) : model (F:=F) S -> Prop :=
| reached_new nb np m o np' : new_model (G:=G) (GN:=GN) c nb np = Ok (m, o, np') -> reached c m
| reached_resumed ck missing nb np m np' : resume (GN:=GN) c ck missing nb np = Ok (m, np') -> reached c m
| reached_update m m' o : reached c m -> model_update m = Ok (m', o) -> reached c m'
| reached_assign s x m m' : reached c m -> assign s x m = Ok m' -> reached c m'
| reached_finalize m m' : reached c m -> model_finalize m = Ok m' -> reached c m'.

(** Values an attribute takes, refuses with ValueError, and refuses with
    ZeroDivisionError. *)
Definition takes (s : setting) (x : R) : Prop :=
  match s with
  | TimeStep | SeaLevel | SeaLevelRate => True
  | FlowVelocity | FlowDepth => x <> 0%R
  | ChannelWidth | Concentration => (0 < x)%R
  | BedloadFraction => (0 <= x <= 1)%R
  end.
Definition out_of_range (s : setting) (x : R) : Prop :=
  match s with
  | ChannelWidth => (x <= 0)%R
  | Concentration => (x < 0)%R
  | BedloadFraction => (x < 0 \/ 1 < x)%R
  | _ => False
  end.
Definition zero_refused (s : setting) (x : R) : Prop :=
  match s with FlowVelocity | FlowDepth | Concentration => x = 0%R | _ => False end.

(** The subsidence rate after an assignment, when it was [rate] before. *)
Definition new_rate (s : setting) (rate : R) (P P' : params R) : R :=
  if inlet_setting s then (rate * p_dt P / p_dt P')%R else rate.

(** Updates and attribute changes, with the attributes and values set. *)
Inductive session {F} {A : Arith F} {S} {G : Rng F S}
  : list (setting * F) -> model (F:=F) S -> model (F:=F) S -> Prop :=
| session_nil m : session [] m m
| session_update l m m1 m2 o : model_update m = Ok (m1, o) -> session l m1 m2 -> session l m m2
| session_assign s x l m m1 m2 : assign s x m = Ok m1 -> session l m1 m2 -> session ((s, x) :: l) m m2.

(** A change that leaves the time step alone or sets it to a nonzero value
    through its own attribute. *)
Definition gentle (e : setting * R) : Prop :=
  inlet_setting (fst e) = false /\ (fst e = TimeStep -> snd e <> 0%R).
