(** Going on from a checkpoint with another configuration. *)
From Coq Require Import ZArith List Bool.
From Verif Require Import Base Params State Iter IterSpec Inputs Init InitSpec Session SessionSpec.
Local Open Scope Z_scope.

(** Two configurations with the same domain: grid, land strip and channel; and
    the same limit on the steps of a parcel. *)
Record same_domain {F} (c c' : inputs F) : Prop := {
  sd_length : i_Length c' = i_Length c;
  sd_width : i_Width c' = i_Width c;
  sd_spacing : i_dx c' = i_dx c;
  sd_strip : i_L0_meters c' = i_L0_meters c;
  sd_channel : i_N0_meters c' = i_N0_meters c;
  sd_limit : i_stepmax c' = i_stepmax c
}.

(** The state of a model holds what a checkpoint has saved. *)
Record holds {F S} {A : Arith F} (ck : checkpoint F S) (st : state F S) : Prop := {
  ho_time : s_time st = c_time ck;
  ho_steps : s_time_iter st = c_time_iter ck;
  ho_level : s_H_SL st = c_H_SL ck;
  ho_bed : s_eta st = c_eta ck;
  ho_depth : s_depth st = c_depth ck;
  ho_stage : s_stage st = c_stage ck;
  ho_flow : s_qx st = c_qx ck /\ s_qy st = c_qy ck /\ s_qw st = c_qw ck;
  ho_speed : s_ux st = c_ux ck /\ s_uy st = c_uy ck /\ s_uw st = c_uw ck;
  ho_sand : s_sand_frac st = c_sand_frac ck /\ s_active_layer st = c_active_layer ck;
  ho_generator : s_rng st = c_rng ck
}.

(** What going on from state [x] with the constants [P] gives: after every
    number of updates the same state, or the same exception. *)
Definition goes_on {F} {A : Arith F} {S} {G : Rng F S} (P : params F) (x : state F S) (r : model (F:=F) S) : Prop :=
  forall n, alike (fun a b => same_point (fst a) (fst b)) (updates P n x) (updates (m_P r) n (m_st r)).
