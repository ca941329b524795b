(** What construction of a model is meant to do. *)
From Coq Require Import ZArith List Bool Reals.
From Verif Require Import Base Shared Params State Water WaterSpec Iter IterSpec Inputs Init.
From Flocq Require Import Core.
Import ListNotations.
Local Open Scope R_scope.

(** ** Accepted parameter values *)
Record accepted (c : inputs R) : Prop := {
  ac_Length : 0 < i_Length c;
  ac_Width : 0 < i_Width c;
  ac_dx : 0 < i_dx c /\ i_dx c <= i_Length c /\ i_dx c <= i_Width c;
  ac_L0 : 0 <= i_L0_meters c;
  ac_itermax : (0 <= i_itermax c)%Z;
  ac_Np_water : (0 < i_Np_water c)%Z;
  ac_N0 : 0 < i_N0_meters c;
  ac_Np_sed : (0 < i_Np_sed c)%Z;
  ac_f_bedload : 0 <= i_f_bedload c <= 1;
  ac_active_layer : forall t, i_active_layer_thickness c = Some t -> 0 <= t;
  ac_C0 : 0 <= i_C0_percent c;
  ac_Csmooth : 0 <= i_Csmooth c
}.

(** A setter stores the values in a range and rejects all others. *)
Definition accepts {T C} (set : T -> C -> result C) (store : T -> C -> C) (range : T -> C -> Prop) : Prop :=
  forall x c, (range x c -> set x c = Ok (store x c)) /\ (~ range x c -> set x c = Err ValueError).

(** The configuration with the two defaults that depend on other values. *)
Definition resolved (rnd : R -> R) (c : inputs R) : inputs R :=
  seti_checkpoint_dt
    (Some (match i_checkpoint_dt c with None => i_save_dt c | Some t => t end))
  (seti_active_layer_thickness
    (Some (match i_active_layer_thickness c with None => rnd (i_h0 c / rnd 2) | Some t => t end)) c).

(** A quantity the derived constants divide by is zero. *)
Definition vanishing (c : inputs R) : Prop :=
  i_u0 c = 0 \/ i_h0 c = 0 \/ i_C0_percent c = 0 \/ i_itermax c = 0%Z.

(** Steps a parcel may take. *)
Definition step_limit (c : inputs R) (P : params R) : Z :=
  match i_stepmax c with None => 2 * (p_L P + p_W P) | Some x => Ztrunc x end.

(** n is x rounded to the nearest integer, to the even one at a tie. *)
Definition rounded (x : R) (n : Z) : Prop :=
  Rabs (IZR n - x) <= 1 / 2 /\ (Rabs (IZR n - x) = 1 / 2 -> Z.even n = true).

(** Constants of a model in terms of its configuration. *)
Record derived (c : inputs R) (P : params R) : Prop := {
  de_rows : rounded (i_Length c / i_dx c) (p_L P) /\ (1 <= p_L P)%Z;
  de_cols : rounded (i_Width c / i_dx c) (p_W P) /\ (1 <= p_W P)%Z;
  de_L0 : exists n, rounded (i_L0_meters c / i_dx c) n /\ p_L0 P = Z.max 1 (Z.min n (p_L P / 4));
  de_N0 : exists n, rounded (i_N0_meters c / i_dx c) n /\ p_N0 P = Z.max 3 (Z.min n (p_W P / 4));
  de_u_max : p_u_max P = 2 * i_u0 c;
  de_C0 : p_C0 P = i_C0_percent c / 100;
  de_dry : p_dry_depth P = Rmin (1 / 10) (i_h0 c / 10);
  de_gamma : p_gamma P = 981 / 100 * i_S0 c * i_dx c / (i_u0 c * i_u0 c);
  de_Qw0 : p_Qw0 P = i_u0 c * i_h0 c * (IZR (p_N0 P) * i_dx c);
  de_qw0 : p_qw0 P = i_u0 c * i_h0 c;
  de_qs0 : p_qs0 P = i_u0 c * i_h0 c * (i_C0_percent c / 100);
  de_water_parcels : IZR (i_Np_water c) * p_Qp_water P = p_Qw0 P;
  de_Qs0 : p_Qs0 P = p_Qw0 P * (i_C0_percent c / 100);
  de_dVs : p_dVs P = IZR (p_N0 P * p_N0 P) / 10 * (i_h0 c * (i_dx c * i_dx c));
  de_sed_parcels : IZR (i_Np_sed c) * p_Vp_sed P = p_dVs P;
  de_dt : p_dt P * p_Qs0 P = p_dVs P /\
    p_dt P = IZR (p_N0 P) * i_dx c / (10 * i_u0 c * (i_C0_percent c / 100));
  de_dt_sign : 0 < p_dt P <-> 0 < i_u0 c;
  de_passes : rounded (IZR (p_N0 P * p_N0 P) / 10) (p_N_crossdiff P) /\ (1 <= p_N_crossdiff P)%Z;
  de_multiplier : p_diffusion_multiplier P
    = p_dt P / IZR (p_N_crossdiff P) * i_alpha c / 2 / (i_dx c * i_dx c);
  de_omega : p_omega_flow_iter P = 2 / IZR (i_itermax c);
  de_stepmax : p_stepmax P = step_limit c P;
  de_thresholds : p_U_dep_mud P = i_coeff_U_dep_mud c * i_u0 c /\
    p_U_ero_mud P = i_coeff_U_ero_mud c * i_u0 c /\ p_U_ero_sand P = i_coeff_U_ero_sand c * i_u0 c;
  de_theta : p_theta_water P = i_theta_water c /\
    p_theta_sand P = i_coeff_theta_sand c * i_theta_water c /\
    p_theta_mud P = i_coeff_theta_mud c * i_theta_water c;
  de_hb : p_hb P = match i_hb c with
    | Some d => if Req_EM_T d 0 then i_h0 c else d | None => i_h0 c end;
  de_layer : p_active_layer_thickness P
    = match i_active_layer_thickness c with Some t => t | None => i_h0 c / 2 end;
  de_checkpoint_dt : p_checkpoint_dt P
    = match i_checkpoint_dt c with Some t => t | None => i_save_dt c end;
  de_sigma : forall i j, p_sigma P i j
    = if i_toggle_subsidence c then lowering P (i_subsidence_rate c) i else 0;
  de_copied : p_dx P = i_dx c /\ p_h0 P = i_h0 c /\ p_u0 P = i_u0 c /\ p_S0 P = i_S0 c /\
    p_itermax P = i_itermax c /\ p_Np_water P = i_Np_water c /\ p_Np_sed P = i_Np_sed c /\
    p_f_bedload P = i_f_bedload c /\ p_f_bedload_router P = i_f_bedload c /\
    p_beta P = i_beta c /\ p_lambda P = i_sed_lag c /\ p_omega_sfc P = i_omega_sfc c /\
    p_omega_flow P = i_omega_flow c /\ p_Nsmooth P = i_Nsmooth c /\ p_Csmooth P = i_Csmooth c /\
    p_SLR P = i_SLR c /\ p_sand_frac_bc P = i_sand_frac_bc c /\
    p_toggle_subsidence P = i_toggle_subsidence c /\ p_start_subsidence P = i_start_subsidence c /\
    p_save_dt P = i_save_dt c /\ p_save_checkpoint P = i_save_checkpoint c
}.

(** ** Layout *)
Definition CHANNEL : Z := 1.
Definition OCEAN : Z := 0.

(** [first] is the first channel column. *)
Record layout {S} (P : params R) (st : state R S) (first : Z) : Prop := {
  la_columns : (1 <= first /\ first + p_N0 P <= p_W P - 1 /\ first <= p_CTR P < first + p_N0 P)%Z;
  la_strip : forall i j, inb (p_L P) (p_W P) i j -> (i < p_L0 P)%Z ->
    s_cell_type st i j = if ((first <=? j) && (j <? first + p_N0 P))%Z then CHANNEL else LAND;
  la_border : forall i j, inb (p_L P) (p_W P) i j -> (p_L0 P <= i)%Z ->
    (i = p_L P - 1 \/ j = 0 \/ j = p_W P - 1)%Z -> s_cell_type st i j = EDGE;
  la_radius : forall i j, inb (p_L P) (p_W P) i j -> (p_L0 P <= i)%Z ->
    Rmin (IZR (p_L P - 5)) (IZR (p_W P) / 2 - 5) <= sqrt (IZR ((i - 3) * (i - 3) + (j - p_CTR P) * (j - p_CTR P))) ->
    s_cell_type st i j = EDGE;
  la_ocean : forall i j, inb (p_L P) (p_W P) i j -> (p_L0 P <= i < p_L P - 1)%Z -> (0 < j < p_W P - 1)%Z ->
    sqrt (IZR ((i - 3) * (i - 3) + (j - p_CTR P) * (j - p_CTR P))) < Rmin (IZR (p_L P - 5)) (IZR (p_W P) / 2 - 5) ->
    s_cell_type st i j = OCEAN;
  la_inlet : p_inlet P = zseq first (Z.to_nat (p_N0 P));
  la_centre : p_CTR P = (if p_W P <? 6 then 2 else p_W P / 2 - 1)%Z;
  (** Half the channel's width (rounded to an even number when it is odd)
      ends at the centre column. *)
  la_first : exists half, (first = p_CTR P + 1 - half /\
    (2 * half = p_N0 P \/ (Z.abs (2 * half - p_N0 P) = 1 /\ Z.even half = true)))%Z
}.

(** Fields of a new model. *)
Record initial {S} (c : inputs R) (P : params R) (st : state R S) : Prop := {
  in_bed : forall i j, s_eta st i j = s_stage st i j - s_depth st i j;
  in_stage : forall i j, inb (p_L P) (p_W P) i j ->
    s_stage st i j = if (i <? p_L0 P)%Z then IZR (p_L0 P - 1 - i) * i_dx c * i_S0 c else 0;
  in_depth : forall i j, inb (p_L P) (p_W P) i j ->
    s_depth st i j = if (p_L0 P <=? i)%Z then p_hb P
                     else if (s_cell_type st i j =? CHANNEL)%Z then i_h0 c else 0;
  in_qx : forall i j, inb (p_L P) (p_W P) i j ->
    s_qx st i j = if (p_L0 P <=? i)%Z then i_u0 c * i_h0 c / 5
                  else if (s_cell_type st i j =? CHANNEL)%Z then i_u0 c * i_h0 c else 0;
  in_qy : forall i j, s_qy st i j = 0;
  in_qw : forall i j, s_qw st i j = Rabs (s_qx st i j);
  in_speed : forall i j, 0 < s_depth st i j ->
    s_ux st i j * s_depth st i j = s_qx st i j /\ s_uy st i j = 0 /\
    s_uw st i j * s_depth st i j = s_qw st i j;
  in_still : forall i j, s_depth st i j <= 0 -> s_ux st i j = 0 /\ s_uy st i j = 0 /\ s_uw st i j = 0;
  in_fractions : forall i j, s_sand_frac st i j = i_sand_frac_bc c /\ s_active_layer st i j = i_sand_frac_bc c;
  in_modifiers : forall i j, s_mod_water_weight st i j = 1 /\ s_mod_sed_weight st i j = 1 /\ s_mod_erosion st i j = 1;
  in_flux : forall i j, s_qs st i j = 0;
  in_clock : s_time st = 0 /\ s_time_iter st = 0%Z /\ s_save_iter st = 0%Z /\ s_H_SL st = i_H_SL c /\
    s_save_time_since_data st = Inf /\ s_save_time_since_checkpoint st = Inf;
  in_width : s_width st = Z.quot (p_stepmax P) 2
}.

(** A configuration whose model can be updated forever. *)
Record runnable (c : inputs R) : Prop := {
  ru_accepted : accepted c;
  ru_rows : 15 / 2 <= i_Length c / i_dx c;
  ru_cols : 9 / 2 < i_Width c / i_dx c;
  ru_inlet : 3 / 2 <= i_L0_meters c / i_dx c;
  ru_u0 : 0 < i_u0 c;
  ru_h0 : i_h0 c <> 0;
  ru_C0 : 0 < i_C0_percent c;
  ru_itermax : (0 < i_itermax c)%Z;
  ru_slope : 0 <= i_S0 c /\ 981 / 100 * i_S0 c * i_dx c <= i_u0 c * i_u0 c;
  ru_steps : forall x, i_stepmax c = Some x -> 4 <= x;
  ru_thresholds : 0 < i_coeff_U_dep_mud c /\ 0 < i_coeff_U_ero_mud c /\ 0 < i_coeff_U_ero_sand c
}.

(** ** Whole runs *)
(** Construct a model and update it n times: the final fields and everything
    written. *)
Definition run_model {F} {A : Arith F} {S N} {G : Rng F S} {GN : NpRng N}
  (c : inputs F) (nb : S) (np : N) (n : nat) : result (state F S * list (output F S)) :=
  do r <- new_model c nb np;
  let '(m, o, _) := r in
  do (st, o') <- updates (m_P m) n (m_st m);
  Ok (st, o ++ o').
