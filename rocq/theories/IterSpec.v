(** What the time loop is meant to do. *)
From Coq Require Import ZArith List Bool Reals.
From Verif Require Import Base Shared SharedSpec Params State Water WaterSpec Sed SedSpec Iter.
Import ListNotations.
Local Open Scope R_scope.

(** The states after each of the updates of a run, with what each wrote. *)
Inductive run {F : Type} {A : Arith F} {S : Type} {G : Rng F S} (P : params F)
  : state F S -> list (state F S * list (output F S)) -> state F S -> Prop :=
| run_nil st : run P st [] st
| run_cons st st1 o1 tr st' : update P st = Ok (st1, o1) -> run P st1 tr st' ->
    run P st ((st1, o1) :: tr) st'.

(** Conditions under which an update cannot fail. *)
Definition model_ready {S : Type} (P : params R) (st : state R S) : Prop :=
  water_ready P st /\ sed_ready P st /\ divisors_ok (fun x => x) P.

(** ** End of a step *)
Section StepEnd.
  Context (rnd : R -> R) {S : Type} (P : params R).

  Definition inlet_cell (i j : Z) : Prop := i = 0%Z /\ In j (p_inlet P).

  Record step_end (st st' : state R S) : Prop := {
    se_stage : forall i j, s_H_SL st <= s_stage st' i j;
    se_depth : forall i j, ~ inlet_cell i j ->
      s_depth st' i j = Rmax (rnd (s_stage st' i j - s_eta st' i j)) 0;
    se_inlet : forall i j, inlet_cell i j ->
      s_depth st' i j = p_h0 P /\ s_eta st' i j = rnd (s_stage st' i j - p_h0 P);
    se_eta0 : s_eta0 st' = s_eta st;
    se_types : s_cell_type st' = s_cell_type st;
    se_modifiers : s_mod_water_weight st' = s_mod_water_weight st /\
      s_mod_sed_weight st' = s_mod_sed_weight st /\ s_mod_erosion st' = s_mod_erosion st;
    se_sea : s_H_SL st' = rnd (s_H_SL st + rnd (p_SLR P * p_dt P));
    se_time : s_time st' = rnd (s_time st + p_dt P);
    se_iter : s_time_iter st' = (s_time_iter st + 1)%Z
  }.
End StepEnd.

(** ** Sand fraction *)

Definition fractions_ok {S} (st : state R S) : Prop := forall i j,
  0 <= s_sand_frac st i j <= 1 /\ 0 <= s_active_layer st i j <= 1.

(** The step ending in st left a deposit in the cell: any sand, or more mud
    than a millionth of a cubic metre ([least]). *)
Definition deposited {S} (least : R) (st : state R S) (i j : Z) : Prop :=
  0 < s_Vp_dep_sand st i j \/ least < s_Vp_dep_mud st i j.

(** Sand fractions after the step from st to st'. *)
Definition fraction_rule {S} (P : params R) (st st' : state R S) (i j : Z) : Prop :=
  let rise := s_eta st' i j - s_eta st i j in
  let sand := s_Vp_dep_sand st' i j in
  let mud := s_Vp_dep_mud st' i j in
  (deposited (1 / 1000000) st' i j ->
     s_sand_frac st' i j = sand / (sand + mud) /\ s_active_layer st' i j = sand / (sand + mud)) /\
  (~ deposited (1 / 1000000) st' i j ->
     s_active_layer st' i j = s_active_layer st i j /\
     (0 <= rise -> s_sand_frac st' i j = s_sand_frac st i j) /\
     (rise < 0 -> - rise <= p_active_layer_thickness P ->
        s_sand_frac st' i j = s_active_layer st i j) /\
     (rise < 0 -> p_active_layer_thickness P < - rise ->
        s_sand_frac st' i j = p_sand_frac_bc P)).

(** ** Output schedule *)

(** Index and time of the output records. *)
Fixpoint records {F S} (o : list (output F S)) : list (Z * F) :=
  match o with
  | [] => []
  | Record_ k t _ :: o' => (k, t) :: records o'
  | Checkpoint _ :: o' => records o'
  end.
(** Model time of the checkpoints. *)
Fixpoint checkpoints {F S} (o : list (output F S)) : list F :=
  match o with
  | [] => []
  | Record_ _ _ _ :: o' => checkpoints o'
  | Checkpoint c :: o' => c_time c :: checkpoints o'
  end.

(** k, k+1, ..., n numbers. *)
Fixpoint zseq (k : Z) (n : nat) : list Z :=
  match n with O => [] | S n' => k :: zseq (k + 1) n' end.

(** Consecutive times are at least [least] and less than [most] apart. *)
Fixpoint spaced (least most : R) (l : list R) : Prop :=
  match l with
  | a :: (b :: _) as r => least <= b - a < most /\ spaced least most r
  | _ => True
  end.

(** Fields equal except the output counters. *)
Definition same_but_counters {F S} (a b : state F S) : Prop :=
  set_save_iter 0 (set_save_time_since_data Inf (set_save_time_since_checkpoint Inf a))
  = set_save_iter 0 (set_save_time_since_data Inf (set_save_time_since_checkpoint Inf b)).

(** The steps of a run: state before, state after. *)
Definition steps_of {F S} (st : state F S) (tr : list (state F S * list (output F S))) :=
  combine (st :: map fst tr) (map fst tr).

(** Subsidence acts in the step starting at st. *)
Definition subsides {S} (P : params R) (st : state R S) : Prop :=
  p_toggle_subsidence P = true /\ p_start_subsidence P <= s_time st.

(** Lowering of the cells of one row by a step. *)
Definition lowering (P : params R) (rate : R) (i : Z) : R :=
  if (i <? p_L0 P)%Z then 0 else rate * p_dt P.
