(** The zero of elevations (C78): a model state and the same state with all
    elevations counted from another zero. *)
From Coq Require Import ZArith List Bool Reals.
From Verif Require Import Base Params State WaterSpec Water Sed Iter.
Import ListNotations.
Local Open Scope Z_scope.

(** Both fail in the same way, or both succeed with related results. *)
Definition alike {T U} (Q : T -> U -> Prop) (r : result T) (r' : result U) : Prop :=
  match r, r' with
  | Ok x, Ok x' => Q x x'
  | Err e, Err e' => e' = e
  | _, _ => False
  end.

Section Fields.
  Context (L W : Z).
  (** The same numbers on the grid. *)
  Definition same {T} (g g' : grid T) : Prop := forall i j, inb L W i j -> g' i j = g i j.
  (** Everywhere on the grid higher by c. *)
  Definition higher (c : R) (g g' : grid R) : Prop := forall i j, inb L W i j -> g' i j = (g i j + c)%R.
End Fields.

(** st' is st with all elevations (bed, water surface, sea level) higher by
    c.  The levels collected along the paths of the parcels are sums of as
    many levels as there are visits. *)
Record raised {S : Type} (c : R) (P : params R) (st st' : state R S) : Prop := {
    up_eta : higher (p_L P) (p_W P) c (s_eta st) (s_eta st');
    up_eta0 : higher (p_L P) (p_W P) c (s_eta0 st) (s_eta0 st');
    up_stage : higher (p_L P) (p_W P) c (s_stage st) (s_stage st');
    up_Hnew : higher (p_L P) (p_W P) c (s_Hnew st) (s_Hnew st');
    up_H_SL : s_H_SL st' = (s_H_SL st + c)%R;
    up_sfc_sum : forall i j, inb (p_L P) (p_W P) i j -> s_sfc_sum st' i j = (s_sfc_sum st i j + s_sfc_visit st i j * c)%R;
    up_depth : same (p_L P) (p_W P) (s_depth st) (s_depth st');
    up_qx : same (p_L P) (p_W P) (s_qx st) (s_qx st');
    up_qy : same (p_L P) (p_W P) (s_qy st) (s_qy st');
    up_qw : same (p_L P) (p_W P) (s_qw st) (s_qw st');
    up_qxn : same (p_L P) (p_W P) (s_qxn st) (s_qxn st');
    up_qyn : same (p_L P) (p_W P) (s_qyn st) (s_qyn st');
    up_qwn : same (p_L P) (p_W P) (s_qwn st) (s_qwn st');
    up_ux : same (p_L P) (p_W P) (s_ux st) (s_ux st');
    up_uy : same (p_L P) (p_W P) (s_uy st) (s_uy st');
    up_uw : same (p_L P) (p_W P) (s_uw st) (s_uw st');
    up_qs : same (p_L P) (p_W P) (s_qs st) (s_qs st');
    up_sand_frac : same (p_L P) (p_W P) (s_sand_frac st) (s_sand_frac st');
    up_active_layer : same (p_L P) (p_W P) (s_active_layer st) (s_active_layer st');
    up_Vp_dep_sand : same (p_L P) (p_W P) (s_Vp_dep_sand st) (s_Vp_dep_sand st');
    up_Vp_dep_mud : same (p_L P) (p_W P) (s_Vp_dep_mud st) (s_Vp_dep_mud st');
    up_mod_water_weight : same (p_L P) (p_W P) (s_mod_water_weight st) (s_mod_water_weight st');
    up_mod_sed_weight : same (p_L P) (p_W P) (s_mod_sed_weight st) (s_mod_sed_weight st');
    up_mod_erosion : same (p_L P) (p_W P) (s_mod_erosion st) (s_mod_erosion st');
    up_sfc_visit : same (p_L P) (p_W P) (s_sfc_visit st) (s_sfc_visit st');
    up_cf : same (p_L P) (p_W P) (s_cf st) (s_cf st');
    up_cell_type : same (p_L P) (p_W P) (s_cell_type st) (s_cell_type st');
    up_time : s_time st' = s_time st;
    up_time_iter : s_time_iter st' = s_time_iter st;
    up_since_data : s_save_time_since_data st' = s_save_time_since_data st;
    up_since_checkpoint : s_save_time_since_checkpoint st' = s_save_time_since_checkpoint st;
    up_save_iter : s_save_iter st' = s_save_iter st;
    up_width : s_width st' = s_width st;
    up_rng : s_rng st' = s_rng st
}.

(** A checkpoint and the one with elevations higher by c. *)
Record raised_checkpoint {S : Type} (c : R) (P : params R) (k k' : checkpoint R S) : Prop := {
    uc_eta : higher (p_L P) (p_W P) c (c_eta k) (c_eta k');
    uc_stage : higher (p_L P) (p_W P) c (c_stage k) (c_stage k');
    uc_H_SL : c_H_SL k' = (c_H_SL k + c)%R;
    uc_depth : same (p_L P) (p_W P) (c_depth k) (c_depth k');
    uc_uw : same (p_L P) (p_W P) (c_uw k) (c_uw k');
    uc_ux : same (p_L P) (p_W P) (c_ux k) (c_ux k');
    uc_uy : same (p_L P) (p_W P) (c_uy k) (c_uy k');
    uc_qw : same (p_L P) (p_W P) (c_qw k) (c_qw k');
    uc_qx : same (p_L P) (p_W P) (c_qx k) (c_qx k');
    uc_qy : same (p_L P) (p_W P) (c_qy k) (c_qy k');
    uc_sand_frac : same (p_L P) (p_W P) (c_sand_frac k) (c_sand_frac k');
    uc_active_layer : same (p_L P) (p_W P) (c_active_layer k) (c_active_layer k');
    uc_time : c_time k' = c_time k;
    uc_time_iter : c_time_iter k' = c_time_iter k;
    uc_save_iter : c_save_iter k' = c_save_iter k;
    uc_since_data : c_save_time_since_data k' = c_save_time_since_data k;
    uc_rng : c_rng k' = c_rng k
}.

(** What a run writes and the same with elevations higher by c. *)
Inductive raised_output {S : Type} (c : R) (P : params R) : output R S -> output R S -> Prop :=
| raised_record k t st st' : raised c P st st' -> raised_output c P (Record_ k t st) (Record_ k t st')
| raised_ckp k k' : raised_checkpoint c P k k' -> raised_output c P (Checkpoint k) (Checkpoint k').

(** In both, neither the water surface nor the sea is anywhere below
    elevation zero. *)
Definition levels_above_zero {S : Type} (c : R) (P : params R) (st : state R S) : Prop :=
  ((0 <= s_H_SL st)%R /\ (0 <= s_H_SL st + c)%R) /\
  forall i j, inb (p_L P) (p_W P) i j -> (0 <= s_stage st i j)%R /\ (0 <= s_stage st i j + c)%R.
(** Weights of averages, as documented; a sea that does not fall. *)
Definition averages (P : params R) : Prop := (0 <= p_omega_sfc P <= 1)%R /\ (0 <= p_Csmooth P <= 1)%R.
Definition sea_not_falling (P : params R) : Prop := (0 <= p_SLR P * p_dt P)%R.

(** Number of neighbours of a cell that lie outside the grid. *)
Definition missing_neighbours (L W i j : Z) : Z :=
  Z.of_nat (length (filter (fun k => negb (inbb L W (nb_row i k) (nb_col j k))) (seq 0 9))).
(** No sand passed the cells at the rim of the grid (the upstream row is
    exempt). *)
Definition no_sand_at_rim {S : Type} (P : params R) (st : state R S) : Prop :=
  forall i j, inb (p_L P) (p_W P) i j -> 0 < i -> missing_neighbours (p_L P) (p_W P) i j <> 0 -> s_qs st i j = 0%R.

(** Nothing diffuses across the rim of the grid: diffusion is switched off or
    no sand passed there. *)
Definition rim_at_rest {S : Type} (P : params R) (st : state R S) : Prop :=
  p_N_crossdiff P <= 0 \/ p_diffusion_multiplier P = 0%R \/ no_sand_at_rim P st.

(** In each of n updates nothing diffuses across the rim. *)
Fixpoint rim_at_rest_for {S : Type} {G : Rng R S} (P : params R) (n : nat) (st : state R S) : Prop :=
  match n with
  | O => True
  | Datatypes.S n' =>
      (forall sa sb, route_water (A:=RX) P (set_eta0 (s_eta st) st) = Ok sa ->
         route_all_parcels (A:=RX) P Sand (init_sediment_iteration (A:=RX) sa) = Ok sb -> rim_at_rest P sb) /\
      forall st1 o, update (A:=RX) P st = Ok (st1, o) -> rim_at_rest_for P n' st1
  end.

(** The state with elevations higher by c. *)
Definition raise {S : Type} (c : R) (st : state R S) : state R S :=
  set_eta (fun i j => s_eta st i j + c)%R (set_eta0 (fun i j => s_eta0 st i j + c)%R
  (set_stage (fun i j => s_stage st i j + c)%R (set_Hnew (fun i j => s_Hnew st i j + c)%R
  (set_sfc_sum (fun i j => s_sfc_sum st i j + s_sfc_visit st i j * c)%R (set_H_SL (s_H_SL st + c)%R st))))).
