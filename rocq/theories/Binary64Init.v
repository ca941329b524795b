(** Specification for C76: the configuration of a model in binary64 and in real numbers. *)
From Coq Require Import ZArith Reals Floats.SpecFloat.
From Verif Require Import Base Shared Params State Inputs Init Binary64Spec.
Local Open Scope R_scope.

Definition same_option (x : option sfloat) (r : option R) : Prop :=
  match x, r with Some a, Some b => stands_for a b | None, None => True | _, _ => False end.

(** The same configuration, as far as a new model and the routing of water depend on it. *)
Record same_inputs (cF : inputs sfloat) (cR : inputs R) : Prop := {
  si_Length : stands_for (i_Length cF) (i_Length cR); si_Width : stands_for (i_Width cF) (i_Width cR);
  si_dx : stands_for (i_dx cF) (i_dx cR); si_L0 : stands_for (i_L0_meters cF) (i_L0_meters cR);
  si_S0 : stands_for (i_S0 cF) (i_S0 cR); si_itermax : i_itermax cF = i_itermax cR; si_Np : i_Np_water cF = i_Np_water cR;
  si_u0 : stands_for (i_u0 cF) (i_u0 cR); si_N0 : stands_for (i_N0_meters cF) (i_N0_meters cR);
  si_h0 : stands_for (i_h0 cF) (i_h0 cR); si_hb : same_option (i_hb cF) (i_hb cR);
  si_H_SL : stands_for (i_H_SL cF) (i_H_SL cR); si_Np_sed : i_Np_sed cF = i_Np_sed cR;
  si_f : stands_for (i_f_bedload cF) (i_f_bedload cR); si_active : same_option (i_active_layer_thickness cF) (i_active_layer_thickness cR);
  si_C0 : stands_for (i_C0_percent cF) (i_C0_percent cR); si_Csmooth : stands_for (i_Csmooth cF) (i_Csmooth cR);
  si_omega_sfc : stands_for (i_omega_sfc cF) (i_omega_sfc cR); si_omega_flow : stands_for (i_omega_flow cF) (i_omega_flow cR);
  si_Nsmooth : i_Nsmooth cF = i_Nsmooth cR; si_theta : stands_for (i_theta_water cF) (i_theta_water cR);
  si_stepmax : same_option (i_stepmax cF) (i_stepmax cR);
  si_seed : i_seed cF = i_seed cR
}.

(** An ordinary configuration. The default values are ordinary. *)
Record ordinary (c : inputs R) : Prop := {
  or_dx : / 10 ^ 3 <= i_dx c <= 10 ^ 5;
  or_Length : 8 * i_dx c <= i_Length c <= 10000 * i_dx c;
  or_Width : 5 * i_dx c <= i_Width c <= 10000 * i_dx c;
  or_L0 : 2 * i_dx c <= i_L0_meters c <= 10000 * i_dx c;
  or_N0 : i_dx c <= i_N0_meters c <= 900 * i_dx c;
  or_u0 : / 10 ^ 3 <= i_u0 c <= 10 ^ 3; or_h0 : / 10 ^ 3 <= i_h0 c <= 10 ^ 3;
  or_slope : 0 <= i_S0 c <= 1000 /\ 16 * (i_S0 c * i_dx c) <= i_u0 c * i_u0 c;
  or_hb : forall d, i_hb c = Some d -> d = 0 \/ / 10 ^ 3 <= d <= 10 ^ 3;
  or_H_SL : Rabs (i_H_SL c) <= 10 ^ 5;
  or_itermax : (2 <= i_itermax c <= 6)%Z;
  or_Np : (1 <= i_Np_water c <= 1000000)%Z; or_Np_sed : (1 <= i_Np_sed c <= 1000000)%Z;
  or_f : 0 <= i_f_bedload c <= 1; or_active : forall t, i_active_layer_thickness c = Some t -> 0 <= t;
  or_C0 : / 10 ^ 6 <= i_C0_percent c <= 100; or_Csmooth : 0 <= i_Csmooth c <= 1;
  or_omega_sfc : 0 <= i_omega_sfc c <= 1; or_omega_flow : 0 <= i_omega_flow c <= 1;
  or_Nsmooth : (i_Nsmooth c <= 10)%Z;
  or_theta : i_theta_water c = 0 \/ i_theta_water c = 1 \/ i_theta_water c = 2;
  or_stepmax : forall x, i_stepmax c = Some x -> 4 <= x <= 10 ^ 6
}.

(** Two constructed models hold the same numbers, and both numpy generators are in the same state. *)
Definition same_start {S N : Type} (x : model (F:=sfloat) S * N) (y : model (F:=R) S * N) : Prop :=
  same_constants (m_P (fst x)) (m_P (fst y)) /\ same_water (m_P (fst y)) (m_st (fst x)) (m_st (fst y)) /\ snd x = snd y.
