(** Model of /repo/pyDeltaRCM/init_tools.py 232-631, 759-779 and of the
    constructor (model.py:37-147) without configuration files (see
    [Config.v]), output files (see [Files.v]) and hooks (see [Hooks.v]). *)
From Coq Require Import ZArith List Bool.
From Verif Require Import Base Shared Params State Water Iter Inputs.
Import ListNotations.
Local Open Scope Z_scope.

Section Init.
  Context {F : Type} {A : Arith F}.

  (** ** Setters with validation *)

  (** model.py:305-308 *)
  Definition set_Length (x : F) (inp : inputs F) : result (inputs F) :=
    if fleb x (fz 0) then Err ValueError else Ok (seti_Length x inp).
  (** model.py:322-325 *)
  Definition set_Width (x : F) (inp : inputs F) : result (inputs F) :=
    if fleb x (fz 0) then Err ValueError else Ok (seti_Width x inp).
  (** model.py:339-345 *)
  Definition set_dx (x : F) (inp : inputs F) : result (inputs F) :=
    if fleb x (fz 0) || fltb (i_Length inp) x || fltb (i_Width inp) x
    then Err ValueError else Ok (seti_dx x inp).
  (** model.py:359-362 *)
  Definition set_L0_meters (x : F) (inp : inputs F) : result (inputs F) :=
    if fltb x (fz 0) then Err ValueError else Ok (seti_L0_meters x inp).
  (** model.py:387-390 *)
  Definition set_itermax (n : Z) (inp : inputs F) : result (inputs F) :=
    if n <? 0 then Err ValueError else Ok (seti_itermax n inp).
  (** model.py:404-407 *)
  Definition set_Np_water (n : Z) (inp : inputs F) : result (inputs F) :=
    if n <=? 0 then Err ValueError else Ok (seti_Np_water n inp).
  (** model.py:436-439 *)
  Definition set_N0_meters (x : F) (inp : inputs F) : result (inputs F) :=
    if fleb x (fz 0) then Err ValueError else Ok (seti_N0_meters x inp).
  (** model.py:532-535 *)
  Definition set_Np_sed (n : Z) (inp : inputs F) : result (inputs F) :=
    if n <=? 0 then Err ValueError else Ok (seti_Np_sed n inp).
  (** model.py:550-555 *)
  Definition set_f_bedload (x : F) (inp : inputs F) : result (inputs F) :=
    if fltb x (fz 0) || fltb (fz 1) x then Err ValueError else Ok (seti_f_bedload x inp).
  (** model.py:572-580 *)
  Definition set_active_layer_thickness (x : option F) (inp : inputs F) : result (inputs F) :=
    match x with
    | None => Ok (seti_active_layer_thickness (Some (fdiv (i_h0 inp) (fz 2))) inp)
    | Some t => if fltb t (fz 0) then Err ValueError else Ok (seti_active_layer_thickness (Some t) inp)
    end.
  (** model.py:593-596 *)
  Definition set_C0_percent (x : F) (inp : inputs F) : result (inputs F) :=
    if fltb x (fz 0) then Err ValueError else Ok (seti_C0_percent x inp).
  (** model.py:606-609 *)
  Definition set_Csmooth (x : F) (inp : inputs F) : result (inputs F) :=
    if fltb x (fz 0) then Err ValueError else Ok (seti_Csmooth x inp).
  (** model.py:1037-1040 *)
  Definition set_checkpoint_dt (x : option F) (inp : inputs F) : inputs F :=
    seti_checkpoint_dt (Some (match x with None => i_save_dt inp | Some t => t end)) inp.

  (** model.py:515-518.  If is not in default.yml: a new model has no value
      for it. *)
  Definition set_If (x : F) (cur : option F) : result (option F) :=
    if fleb x (fz 0) || fltb (fz 1) x then Err ValueError else Ok (Some x).

  (** init_tools.py:251-252: the setters run in the order of default.yml.
      Parameters without validation are simply stored. *)
  Definition process_input_to_model (inp : inputs F) : result (inputs F) :=
    do inp <- set_Length (i_Length inp) inp;
    do inp <- set_Width (i_Width inp) inp;
    do inp <- set_dx (i_dx inp) inp;
    do inp <- set_L0_meters (i_L0_meters inp) inp;
    do inp <- set_itermax (i_itermax inp) inp;
    do inp <- set_Np_water (i_Np_water inp) inp;
    do inp <- set_N0_meters (i_N0_meters inp) inp;
    do inp <- set_Np_sed (i_Np_sed inp) inp;
    do inp <- set_f_bedload (i_f_bedload inp) inp;
    do inp <- set_active_layer_thickness (i_active_layer_thickness inp) inp;
    do inp <- set_C0_percent (i_C0_percent inp) inp;
    do inp <- set_Csmooth (i_Csmooth inp) inp;
    Ok (set_checkpoint_dt (i_checkpoint_dt inp) inp).

  (** ** Derived constants *)

  (** Value of an attribute that the setters never leave None. init_tools.py:483. *)
  Definition some_or (d : F) (x : option F) : F := match x with Some t => t | None => d end.

  (** init_tools.py:292-312 (create_other_variables); the fields computed by
      create_boundary_conditions are placeholders here.  float(dx) is the
      identity. *)
  Definition create_other_variables (inp : inputs F) : params F :=
    let L := frint (fdiv (i_Length inp) (i_dx inp)) in
    let W := frint (fdiv (i_Width inp) (i_dx inp)) in
    let CTR := if W / 2 - 1 <=? 1 then W / 2 else W / 2 - 1 in
    {| p_L := L; p_W := W; p_CTR := CTR; p_L0 := 0; p_N0 := 0; p_inlet := [];
       p_dx := i_dx inp; p_h0 := i_h0 inp; p_hb := i_h0 inp; p_u0 := i_u0 inp; p_S0 := i_S0 inp;
       p_u_max := fz 0; p_C0 := fz 0; p_dry_depth := fz 0; p_gamma := fz 0; p_V0 := fz 0;
       p_Qw0 := fz 0; p_qw0 := fz 0; p_Qp_water := fz 0; p_qs0 := fz 0; p_dVs := fz 0;
       p_Qs0 := fz 0; p_Vp_sed := fz 0; p_stepmax := 0; p_dt := fz 0; p_omega_flow_iter := fz 0;
       p_N_crossdiff := 0; p_lambda := fz 0; p_diffusion_multiplier := fz 0;
       p_theta_water := i_theta_water inp;
       p_theta_sand := fmul (i_coeff_theta_sand inp) (i_theta_water inp);
       p_theta_mud := fmul (i_coeff_theta_mud inp) (i_theta_water inp);
       p_U_dep_mud := fmul (i_coeff_U_dep_mud inp) (i_u0 inp);
       p_U_ero_sand := fmul (i_coeff_U_ero_sand inp) (i_u0 inp);
       p_U_ero_mud := fmul (i_coeff_U_ero_mud inp) (i_u0 inp);
       p_itermax := i_itermax inp; p_Np_water := i_Np_water inp; p_Np_sed := i_Np_sed inp;
       p_f_bedload := i_f_bedload inp; p_f_bedload_router := i_f_bedload inp; p_beta := i_beta inp;
       p_omega_sfc := i_omega_sfc inp; p_omega_flow := i_omega_flow inp; p_Nsmooth := i_Nsmooth inp;
       p_Csmooth := i_Csmooth inp; p_SLR := i_SLR inp; p_sand_frac_bc := i_sand_frac_bc inp;
       p_active_layer_thickness := some_or (fz 0) (i_active_layer_thickness inp);
       p_toggle_subsidence := i_toggle_subsidence inp; p_start_subsidence := i_start_subsidence inp;
       p_sigma := fun _ _ => fz 0; p_save_dt := i_save_dt inp;
       p_checkpoint_dt := some_or (i_save_dt inp) (i_checkpoint_dt inp);
       p_save_checkpoint := i_save_checkpoint inp |}.

  (** Python's float division: a zero divisor raises. init_tools.py:427-450. *)
  Definition pydiv (x y : F) : result F :=
    if feqb y (fz 0) then Err ZeroDivisionError else Ok (fdiv x y).

  (** init_tools.py:392-463 (create_boundary_conditions).  When a division
      raises, the attributes assigned before it keep their new values in the
      code; here the call has no other effect. *)
  Definition create_boundary_conditions (inp : inputs F) (P : params F) : result (params F) :=
    let L := p_L P in let W := p_W P in
    let dx := i_dx inp in let u0 := i_u0 inp in let h0 := i_h0 inp in
    let L0 := Z.max 1 (Z.min (frint (fdiv (i_L0_meters inp) dx)) (L / 4)) in
    let N0 := Z.max 3 (Z.min (frint (fdiv (i_N0_meters inp) dx)) (W / 4)) in
    let u_max := fmul (fz 2) u0 in
    let C0 := fdiv (fmul (i_C0_percent inp) (fz 1)) (fz 100) in
    let dry_depth := fmin (flit 1 10) (fmul (flit 1 10) h0) in
    do gamma <- pydiv (fmul (fmul (flit 981 100) (i_S0 inp)) dx) (fmul u0 u0);
    let V0 := fmul h0 (fmul dx dx) in
    let Qw0 := fmul (fmul (fmul u0 h0) (fz N0)) dx in
    let qw0 := fmul u0 h0 in
    do Qp_water <- pydiv Qw0 (fz (p_Np_water P));
    let qs0 := fmul qw0 C0 in
    let dVs := fmul (fmul (flit 1 10) (fz (N0 * N0))) V0 in
    let Qs0 := fmul Qw0 C0 in
    do Vp_sed <- pydiv dVs (fz (p_Np_sed P));
    let stepmax := match i_stepmax inp with None => 2 * (L + W) | Some x => ftrunc x end in
    do dt <- pydiv dVs Qs0;
    do omega_flow_iter <- pydiv (fz 2) (fz (p_itermax P));
    do crossdiff <- pydiv dVs V0;
    let N_crossdiff := frint crossdiff in
    do dt_pass <- pydiv dt (fz N_crossdiff);
    do multiplier <- pydiv (fmul (fmul dt_pass (i_alpha inp)) (flit 1 2)) (fmul dx dx);
    Ok (setp_L0 L0 (setp_N0 N0 (setp_u_max u_max (setp_C0 C0 (setp_dry_depth dry_depth
       (setp_gamma gamma (setp_V0 V0 (setp_Qw0 Qw0 (setp_qw0 qw0 (setp_Qp_water Qp_water
       (setp_qs0 qs0 (setp_dVs dVs (setp_Qs0 Qs0 (setp_Vp_sed Vp_sed (setp_stepmax stepmax
       (setp_dt dt (setp_omega_flow_iter omega_flow_iter (setp_N_crossdiff N_crossdiff
       (setp_lambda (i_sed_lag inp) (setp_diffusion_multiplier multiplier P)))))))))))))))))))).

  (** init_tools.py:448-450: size_indices. *)
  Definition size_indices (P : params F) : Z := Z.quot (p_stepmax P) 2.

  (** ** Domain *)

  (** Python's round(n / 2) of an integer n: half to even
      (init_tools.py:537). *)
  Definition round_half (n : Z) : Z :=
    if Z.even n then n / 2 else if Z.even (n / 2) then n / 2 else n / 2 + 1.
  (** First channel column — init_tools.py:537. *)
  Definition channel_inds (P : params F) : Z := p_CTR P - round_half (p_N0 P) + 1.
  (** Python's slice bound in a sequence of n elements. init_tools.py:537-539. *)
  Definition slice_bound (n i : Z) : Z := if i <? 0 then Z.max 0 (i + n) else Z.min i n.
  (** Column of the slice channel_inds:y_channel_max — init_tools.py:538-539. *)
  Definition channel_col (P : params F) (j : Z) : bool :=
    (slice_bound (p_W P) (channel_inds P) <=? j) &&
    (j <? slice_bound (p_W P) (channel_inds P + p_N0 P)).

  (** init_tools.py:535-539: land strip and channel. *)
  Definition cell_type_0 (P : params F) : grid Z := fun i j =>
    if i <? p_L0 P then (if channel_col P j then 1 else -2) else 0.

  (** init_tools.py:562-569: distance from (3, CTR) and the radius of the
      domain. *)
  Definition outside_radius (P : params F) (i j : Z) : bool :=
    let r := fsqrt (fz ((i - 3) * (i - 3) + (j - p_CTR P) * (j - p_CTR P))) in
    fleb (fmin (fz (p_L P - 5)) (fsub (fdiv (fz (p_W P)) (fz 2)) (fz 5))) r.

  (** init_tools.py:556-572 *)
  Definition create_cell_type (P : params F) : grid Z := fun i j =>
    if i <? p_L0 P then (if channel_col P j then 1 else -2)
    else if outside_radius P i j then -1
    else if (i =? p_L P - 1) || (j =? 0) || (j =? p_W P - 1) then -1
    else cell_type_0 P i j.

  (** init_tools.py:574: columns holding a channel cell, in order. *)
  Definition create_inlet (P : params F) (ct : grid Z) : list Z :=
    filter (fun j => existsb (fun i => ct i j =? 1) (zrange (p_L P))) (zrange (p_W P)).

  (** init_tools.py:483: `self.hb or self.h0`. *)
  Definition basin_depth (inp : inputs F) : F :=
    match i_hb inp with
    | None => i_h0 inp
    | Some d => if feqb d (fz 0) then i_h0 inp else d
    end.

  (** init_tools.py:465-575 (create_domain).  The coordinate arrays are in
      Header.v.  A negative walk buffer size raises (line 519). *)
  Definition create_domain {S} (inp : inputs F) (P : params F) (s : S)
    : result (params F * state F S) :=
    let L := p_L P in let W := p_W P in
    if size_indices P <? 0 then Err ValueError else
    let hb := basin_depth inp in
    let ct0 := cell_type_0 P in
    let memo := gmemo L W in
    let stage := memo (fun i j => if ct0 i j =? 0 then fz 0
      else fmul (fmul (fz (Z.max 0 (p_L0 P - i - 1))) (i_dx inp)) (i_S0 inp)) in
    let depth := memo (fun i j => if ct0 i j =? 0 then hb else if ct0 i j =? 1 then i_h0 inp else fz 0) in
    let qx := memo (fun i j => if ct0 i j =? 1 then p_qw0 P
      else if ct0 i j =? 0 then fdiv (p_qw0 P) (fz 5) else fz 0) in
    let zero : grid F := fun _ _ => fz 0 in
    let one : grid F := fun _ _ => fz 1 in
    let qw := memo (fun i j => hypot (qx i j) (zero i j)) in
    let over_depth (q : grid F) : grid F := memo (fun i j =>
      if fltb (fz 0) (depth i j) then fdiv (q i j) (depth i j) else fz 0) in
    let ct := gmemo L W (create_cell_type P) in
    let bc : grid F := fun _ _ => fadd (fz 0) (i_sand_frac_bc inp) in
    let eta := memo (fun i j => fsub (stage i j) (depth i j)) in
    Ok (setp_inlet (create_inlet P ct) (setp_hb hb P),
        {| s_eta := eta; s_eta0 := zero; s_stage := stage; s_depth := depth;
           s_qx := qx; s_qy := zero; s_qw := qw; s_qxn := zero; s_qyn := zero; s_qwn := zero;
           s_ux := over_depth qx; s_uy := over_depth zero; s_uw := over_depth qw; s_qs := zero;
           s_sand_frac := bc; s_active_layer := bc; s_Vp_dep_sand := zero; s_Vp_dep_mud := zero;
           s_mod_water_weight := one; s_mod_sed_weight := one; s_mod_erosion := one;
           s_sfc_visit := zero; s_sfc_sum := zero; s_Hnew := zero; s_cf := zero;
           s_cell_type := ct; s_H_SL := i_H_SL inp; s_time := fz 0; s_time_iter := 0;
           s_save_time_since_data := Inf; s_save_time_since_checkpoint := Inf; s_save_iter := 0;
           s_width := size_indices P; s_rng := s |}).

  (** init_tools.py:577-631: the SandRouter copies f_bedload; the other
      constants of the routers always equal the model's. *)
  Definition init_sediment_routers (P : params F) : params F :=
    setp_f_bedload_router (p_f_bedload P) P.

  (** init_tools.py:759-779 *)
  Definition init_subsidence (inp : inputs F) (P : params F) : params F :=
    if p_toggle_subsidence P then
      setp_sigma (fun i _ => fmul (fmul (fz (if i <? p_L0 P then 0 else 1)) (i_subsidence_rate inp)) (p_dt P)) P
    else P.

  (** ** Construction *)

  (** The two generators of the process: numba's, used by the model, and
      numpy's, used to draw a seed. init_tools.py:268-271. *)
  Class NpRng (N : Type) : Type := randint : N -> Z * N.

  (** init_tools.py:260-275 (determine_random_seed) *)
  Definition determine_random_seed {S N} {G : Rng F S} {GN : NpRng N} (inp : inputs F) (np : N)
    : inputs F * S * N :=
    match i_seed inp with
    | Some z => (inp, seed_rng z, np)
    | None => let (z, np') := randint np in (seti_seed (Some z) inp, seed_rng z, np')
    end.

  (** A model instance: its attributes, constants, fields and whether it is
      finalized. model.py:37-147. *)
  Record model (S : Type) : Type := mkModel {
    m_in : inputs F; m_P : params F; m_st : state F S; m_finalized : bool }.
  Arguments mkModel {S}. Arguments m_in {S}. Arguments m_P {S}. Arguments m_st {S}.
  Arguments m_finalized {S}.

  (** model.py:99-127: construction up to the subsidence fields.  [nb] is the
      state of numba's generator before construction; it is not used. *)
  Definition construct {S N} {G : Rng F S} {GN : NpRng N} (inp : inputs F) (nb : S) (np : N)
    : result (model S * N) :=
    do inp <- process_input_to_model inp;
    let '(inp, s, np) := determine_random_seed (G:=G) inp np in
    do P <- create_boundary_conditions inp (create_other_variables inp);
    do (P, st) <- create_domain inp P s;
    let P := init_subsidence inp (init_sediment_routers P) in
    Ok (mkModel inp P st false, np).

  (** model.py:129-143: a new run (no checkpoint to resume, output not
      deferred) records the initial condition. *)
  Definition new_model {S N} {G : Rng F S} {GN : NpRng N} (inp : inputs F) (nb : S) (np : N)
    : result (model S * list (output F S) * N) :=
    do (m, np) <- construct inp nb np;
    let (st, o) := write_output (m_P m) (m_st m) in
    Ok (mkModel (m_in m) (m_P m) st false, o, np).
End Init.
Arguments mkModel {F S}. Arguments m_in {F S}. Arguments m_P {F S}. Arguments m_st {F S}.
Arguments m_finalized {F S}.
