(** Model of /repo/pyDeltaRCM/iteration_tools.py (23-230, 442-493) and of
    DeltaModel.update (model.py:149-215).  Hooks are the subject of [Hooks.v];
    here they do nothing, as in the library. *)
From Coq Require Import ZArith List Bool.
From Verif Require Import Base Shared Params State Water Sed.
Import ListNotations.
Local Open Scope Z_scope.

(** The contents of checkpoint.npz — iteration_tools.py:471-493. *)
Record checkpoint (F S : Type) : Type := mkCkp {
  c_time : F; c_time_iter : Z; c_save_iter : Z; c_save_time_since_data : ext F;
  c_eta : grid F; c_depth : grid F; c_stage : grid F;
  c_uw : grid F; c_ux : grid F; c_uy : grid F;
  c_qw : grid F; c_qx : grid F; c_qy : grid F;
  c_sand_frac : grid F; c_active_layer : grid F;
  c_H_SL : F; c_rng : S
}.
Arguments mkCkp {F S}.
Arguments c_time {F S}. Arguments c_time_iter {F S}. Arguments c_save_iter {F S}.
Arguments c_save_time_since_data {F S}. Arguments c_eta {F S}. Arguments c_depth {F S}.
Arguments c_stage {F S}. Arguments c_uw {F S}. Arguments c_ux {F S}. Arguments c_uy {F S}.
Arguments c_qw {F S}. Arguments c_qx {F S}. Arguments c_qy {F S}.
Arguments c_sand_frac {F S}. Arguments c_active_layer {F S}. Arguments c_H_SL {F S}.
Arguments c_rng {F S}.

(** What an update writes: an output record with its index, time and the
    state it shows (iteration_tools.py:232-324), or a checkpoint
    (iteration_tools.py:442-493). *)
Inductive output (F S : Type) : Type :=
| Record_ (index : Z) (time : F) (shown : state F S)
| Checkpoint (c : checkpoint F S).
Arguments Record_ {F S}. Arguments Checkpoint {F S}.

Section Iter.
  Context {F : Type} {A : Arith F} {S : Type} {G : Rng F S} (P : params F).
  Notation L := (p_L P).
  Notation W := (p_W P).

  (** iteration_tools.py:23-46 *)
  Definition solve_water_and_sediment_timestep (st : state F S) : result (state F S) :=
    do st <- route_water P (set_eta0 (s_eta st) st);
    route_sediment P st.

  (** iteration_tools.py:61-85 *)
  Definition apply_subsidence (st : state F S) : state F S :=
    if p_toggle_subsidence P && fleb (p_start_subsidence P) (s_time st)
    then set_eta (gmemo L W (fun i j => fsub (s_eta st i j) (p_sigma P i j))) st
    else st.

  (** iteration_tools.py:184-230.  [whr_agg] of line 220 is overwritten at
      once. *)
  Definition compute_sand_frac (st : state F S) : state F S :=
    let actlyr_bot : grid F := fun i j => fsub (s_eta0 st i j) (p_active_layer_thickness P) in
    let whr_deg : grid bool := fun i j => fltb (fsub (s_eta st i j) (s_eta0 st i j)) (fz 0) in
    let sf1 : grid F :=
      if existsb (fun c => whr_deg (fst c) (snd c)) (cells L W) then
        fun i j =>
          if whr_deg i j && fleb (actlyr_bot i j) (s_eta st i j) then s_active_layer st i j
          else if fltb (s_eta st i j) (actlyr_bot i j) then p_sand_frac_bc P
          else s_sand_frac st i j
      else s_sand_frac st in
    let whr_agg : grid bool := fun i j =>
      fltb (fz 0) (s_Vp_dep_sand st i j) || fltb (flit 1 1000000) (s_Vp_dep_mud st i j) in
    let mixture : grid F := fun i j =>
      fdiv (s_Vp_dep_sand st i j) (fadd (s_Vp_dep_mud st i j) (s_Vp_dep_sand st i j)) in
    set_sand_frac (gmemo L W (fun i j => if whr_agg i j then mixture i j else sf1 i j))
    (set_active_layer (gmemo L W (fun i j => if whr_agg i j then mixture i j else s_active_layer st i j)) st).

  (** iteration_tools.py:105-110: flooding, clipping to sea level, inlet. *)
  Definition finalize_levels (st : state F S) : state F S :=
    let st := set_stage (flooding_correction P (s_depth st) (s_eta st) (s_stage st)) st in
    let st := set_stage (gmemo L W (fun i j => npmax (s_stage st i j) (s_H_SL st))) st in
    let st := set_depth (gmemo L W (fun i j => npmax (fsub (s_stage st i j) (s_eta st i j)) (fz 0))) st in
    let at_inlet i j := (i =? 0) && in_inlet P j in
    let st := set_eta (gmemo L W (fun i j => if at_inlet i j then fsub (s_stage st i j) (p_h0 P)
                                            else s_eta st i j)) st in
    set_depth (gmemo L W (fun i j => if at_inlet i j then p_h0 P else s_depth st i j)) st.

  (** iteration_tools.py:87-115 *)
  Definition finalize_timestep (st : state F S) : state F S :=
    let st := compute_sand_frac (finalize_levels st) in
    set_H_SL (fadd (s_H_SL st) (fmul (p_SLR P) (p_dt P))) st.

  (** iteration_tools.py:471-493 *)
  Definition save_the_checkpoint (st : state F S) : checkpoint F S :=
    mkCkp (s_time st) (s_time_iter st) (s_save_iter st) (s_save_time_since_data st)
      (s_eta st) (s_depth st) (s_stage st) (s_uw st) (s_ux st) (s_uy st)
      (s_qw st) (s_qx st) (s_qy st) (s_sand_frac st) (s_active_layer st) (s_H_SL st) (s_rng st).

  (** iteration_tools.py:145-151 *)
  Definition output_data (st : state F S) : state F S * list (output F S) :=
    if ext_geb (s_save_time_since_data st) (p_save_dt P) then
      (set_save_time_since_data (Fin (fz 0)) (set_save_iter (s_save_iter st + 1) st),
       [Record_ (s_save_iter st) (s_time st) st])
    else (st, []).

  (** iteration_tools.py:153-182 *)
  Definition output_checkpoint (st : state F S) : state F S * list (output F S) :=
    if ext_geb (s_save_time_since_checkpoint st) (p_checkpoint_dt P) && p_save_checkpoint P then
      (set_save_time_since_checkpoint (Fin (fz 0)) st, [Checkpoint (save_the_checkpoint st)])
    else (st, []).

  (** model.py:203-206 *)
  Definition advance_clock (st : state F S) : state F S :=
    set_time (fadd (s_time st) (p_dt P))
    (set_save_time_since_data (ext_add (s_save_time_since_data st) (p_dt P))
    (set_save_time_since_checkpoint (ext_add (s_save_time_since_checkpoint st) (p_dt P))
    (set_time_iter (s_time_iter st + 1) st))).

  (** model.py:210-215 and, at construction, model.py:139-143 *)
  Definition write_output (st : state F S) : state F S * list (output F S) :=
    let (st, o1) := output_data st in
    let (st, o2) := output_checkpoint st in
    (st, o1 ++ o2).

  (** model.py:191-215: update of a model that is not finalized. *)
  Definition update (st : state F S) : result (state F S * list (output F S)) :=
    do st <- solve_water_and_sediment_timestep st;
    Ok (write_output (advance_clock (finalize_timestep (apply_subsidence st)))).

  (** n calls of update. The loop of a user or of preprocessor.py:795-796, 899-900 over model.py:149-215. *)
  Fixpoint updates (n : nat) (st : state F S) : result (state F S * list (output F S)) :=
    match n with
    | O => Ok (st, [])
    | Datatypes.S n' =>
        do (st1, o1) <- update st;
        do (st2, o2) <- updates n' st1;
        Ok (st2, o1 ++ o2)
    end.
End Iter.
