(** What a user relies on in classes derived from the model class (C87). *)
From Coq Require Import ZArith List Bool Reals.
From Verif Require Import Base Params State Water Sed Iter IterSpec Inputs Init SessionSpec Hooks HookSpec Custom.
Import ListNotations.
Local Open Scope Z_scope.

(** Hooks called after the levels of a step have been settled. *)
Definition late_hooks : list event :=
  [Before ComputeSandFrac; After FinalizeTimestep; Before OutputData; Before OutputCheckpoint].

Section Hooks.
  Context {F S Y : Type}.
  Notation st x := (k_st (u_w x)).

  (** The hook [e] leaves [f] of the model alone. *)
  Definition leaves {T} (f : custom F S Y -> T) (hook : event -> custom F S Y -> result (custom F S Y)) (e : event) : Prop :=
    forall x x', hook e x = Ok x' -> f x' = f x.

  (** Bed, stage, depth and sea level, and the constants that tie them. *)
  Definition levels (x : custom F S Y) :=
    (s_eta (st x), s_stage (st x), s_depth (st x), s_H_SL (st x),
     (p_h0 (u_P x), p_inlet (u_P x), p_SLR (u_P x), p_dt (u_P x))).
  (** Time, step number, next record, times since the last record and the last
      checkpoint. *)
  Definition clock (s : state F S) :=
    (s_time s, s_time_iter s, s_save_iter s, s_save_time_since_data s, s_save_time_since_checkpoint s).
  (** The constants of the schedule. *)
  Definition intervals (P : params F) := (p_dt P, p_save_dt P, p_checkpoint_dt P, p_save_checkpoint P).
  (** Clock, schedule and what has been written. *)
  Definition schedule (x : custom F S Y) := (clock (st x), intervals (u_P x), k_out (u_w x)).
  (** Kinds of cells and the modifiers. *)
  Definition layout (x : custom F S Y) :=
    (s_cell_type (st x), s_mod_water_weight (st x), s_mod_sed_weight (st x), s_mod_erosion (st x)).

  (** Only the hook at the beginning of an update does something. *)
  Definition only_at_start (hook : event -> custom F S Y -> result (custom F S Y)) : Prop :=
    forall e x, e <> Before Solve -> hook e x = Ok x.

  (** The part of a model that a checkpoint holds, but for the counters of
      output. *)
  Record saved_part : Type := mkSaved {
    v_time : F; v_time_iter : Z; v_eta : grid F; v_depth : grid F; v_stage : grid F;
    v_uw : grid F; v_ux : grid F; v_uy : grid F; v_qw : grid F; v_qx : grid F; v_qy : grid F;
    v_sand_frac : grid F; v_active_layer : grid F; v_H_SL : F; v_rng : S }.
  Definition saved_of (s : state F S) : saved_part :=
    mkSaved (s_time s) (s_time_iter s) (s_eta s) (s_depth s) (s_stage s) (s_uw s) (s_ux s) (s_uy s)
      (s_qw s) (s_qx s) (s_qy s) (s_sand_frac s) (s_active_layer s) (s_H_SL s) (s_rng s).
  Definition with_saved (v : saved_part) (s : state F S) : state F S :=
    set_time (v_time v) (set_time_iter (v_time_iter v) (set_eta (v_eta v) (set_depth (v_depth v)
    (set_stage (v_stage v) (set_uw (v_uw v) (set_ux (v_ux v) (set_uy (v_uy v)
    (set_qw (v_qw v) (set_qx (v_qx v) (set_qy (v_qy v) (set_sand_frac (v_sand_frac v)
    (set_active_layer (v_active_layer v) (set_H_SL (v_H_SL v) (set_rng (v_rng v) s)))))))))))))).

  (** The routers have the constants of the model. *)
  Definition routers_match (x : custom F S Y) : Prop := router_constants (u_R x) (u_P x) = u_P x.

  (** A hook at the beginning of updates that reads and changes constants of
      model and routers, attributes of the class and saved fields only. *)
  Definition start_hook : Type :=
    params F * params F * saved_part * Y -> result (params F * params F * saved_part * Y).
  Definition starting (h : start_hook) (e : event) (x : custom F S Y) : result (custom F S Y) :=
    if event_eq_dec e (Before Solve) then
      do r <- h (u_P x, u_R x, saved_of (st x), u_own x);
      let '(P, R, v, y) := r in
      Ok (mkCustom P R (mkWork (with_saved v (st x)) (k_ps (u_w x)) (k_out (u_w x))) y)
    else Ok x.
  (** It never parts the routers' constants from the model's, and leaves the
      limit on steps alone. *)
  Definition keeps_routers (h : start_hook) : Prop :=
    forall P R v y P' R' v' y', h (P, R, v, y) = Ok (P', R', v', y') -> router_constants R P = P ->
      router_constants R' P' = P' /\ p_stepmax P' = p_stepmax P.
End Hooks.
Arguments saved_part F S : clear implicits.
Arguments start_hook F S Y : clear implicits.

(** The levels at the end of an update: the stage is nowhere below the sea
    level [s0] of the step, the depth is that of bed and stage, the inlet has
    its depth, and the sea has risen. *)
Record settled {S} (rnd : R -> R) (s0 : R) (P : params R) (st : state R S) : Prop := {
  lv_stage : forall i j, (s0 <= s_stage st i j)%R;
  lv_depth : forall i j, ~ inlet_cell P i j -> s_depth st i j = Rmax (rnd (s_stage st i j - s_eta st i j)%R) 0;
  lv_inlet : forall i j, inlet_cell P i j -> s_depth st i j = p_h0 P /\ s_eta st i j = rnd (s_stage st i j - p_h0 P)%R;
  lv_sea : s_H_SL st = rnd (s0 + rnd (p_SLR P * p_dt P))%R
}.

(** A run whose constants and fields may be changed before each update: the
    constants in force in each update, with the states it leads from and to
    and what it writes. *)
Inductive varying {F} {A : Arith F} {S} {G : Rng F S} {Y} (hook : custom F S Y -> result (custom F S Y))
  : custom F S Y -> list (params F * state F S * state F S * list (output F S)) -> custom F S Y -> Prop :=
| varying_nil x : varying hook x [] x
| varying_cons x x1 st o ps l x' :
    hook x = Ok x1 -> routers_match x1 -> update (u_P x1) (k_st (u_w x1)) = Ok (st, o) ->
    varying hook (mkCustom (u_P x1) (u_R x1) (mkWork st ps (k_out (u_w x1) ++ o)) (u_own x1)) l x' ->
    varying hook x ((u_P x1, k_st (u_w x1), st, o) :: l) x'.

(** ** The classes of the documentation *)
Section Documented.
  Context {F : Type} {A : Arith F} {S : Type}.

  (** docs/source/examples/variable_bedload.rst:27-29, 36-38; the range check
      is model.py:550-555. *)
  Definition mirror_bedload (P : params F) : result (params F) :=
    let x := fsub (fz 1) (p_f_bedload P) in
    if fltb x (fz 0) || fltb (fz 1) x then Err ValueError else Ok (setp_f_bedload x P).
  Definition switch (at_time : F) (v : saved_part F S) (done : bool) (P : params F) : result (params F * bool) :=
    if negb done && fltb at_time (v_time v) then do P' <- mirror_bedload P; Ok (P', true) else Ok (P, done).
  (** docs/source/examples/variable_bedload.rst:16-42, for any two times. *)
  Definition variable_bedload (t1 t2 : F) : start_hook F S (bool * bool) :=
    fun '(P, R, v, (changed, back)) =>
      do (P, changed) <- switch t1 v changed P;
      do (P, back) <- switch t2 v back P;
      Ok (P, R, v, (changed, back)).

  (** docs/source/examples/variable_velocity.rst:79-86; [u] is the
      interpolated series and the own attributes are the configuration. *)
  Definition variable_velocity (u : F -> F) : start_hook F S (inputs F) :=
    fun '(P, R, v, inp) =>
      let inp := seti_u0 (u (v_time v)) inp in
      do P <- create_boundary_conditions inp (setp_u0 (i_u0 inp) P);
      Ok (P, R, v, inp).
  (** The same, building the routers again
      (init_tools.py:583-586). *)
  Definition variable_velocity_rebuilt (u : F -> F) : start_hook F S (inputs F) :=
    fun x =>
      do r <- variable_velocity u x;
      let '(P, _, v, inp) := r in
      Ok (init_sediment_routers P, init_sediment_routers P, v, inp).
End Documented.

(** Sediment is routed with [Q]: the constants of the routers [R], on the grid,
    inlet and number of parcels of the model [P]. *)
Definition routed_with {F} (R P Q : params F) : Prop :=
  (p_dt Q, p_dx Q, p_Vp_sed Q, p_u_max Q, p_qs0 Q, p_u0 Q) = (p_dt R, p_dx R, p_Vp_sed R, p_u_max R, p_qs0 R, p_u0 R) /\
  (p_U_ero_sand Q, p_U_dep_mud Q, p_U_ero_mud Q, p_f_bedload_router Q, p_dry_depth Q)
    = (p_U_ero_sand R, p_U_dep_mud R, p_U_ero_mud R, p_f_bedload_router R, p_dry_depth R) /\
  (p_lambda Q, p_beta Q, p_stepmax Q, p_theta_sand Q, p_theta_mud Q)
    = (p_lambda R, p_beta R, p_stepmax R, p_theta_sand R, p_theta_mud R) /\
  (p_L Q, p_W Q, p_inlet Q, p_Np_sed Q, p_f_bedload Q) = (p_L P, p_W P, p_inlet P, p_Np_sed P, p_f_bedload P).
