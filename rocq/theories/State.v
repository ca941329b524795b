(** Model state: the attributes of a DeltaModel instance that change during a
    run.  Setters are mechanical. *)
From Coq Require Import ZArith.
From Verif Require Import Base.

(** Attribute names follow /repo; the comment gives the line creating it. *)
Record state (F S : Type) : Type := mkState {
  s_eta : grid F; (** bed elevation — init_tools.py:495 *)
  s_eta0 : grid F; (** copy of eta at the start of the step — init_tools.py:496, iteration_tools.py:37 *)
  s_stage : grid F; (** water surface — init_tools.py:497 *)
  s_depth : grid F; (** flow depth — init_tools.py:498 *)
  s_qx : grid F; (** down-domain unit discharge — init_tools.py:499 *)
  s_qy : grid F; (** cross-domain unit discharge — init_tools.py:500 *)
  s_qw : grid F; (** unit discharge magnitude — init_tools.py:550 *)
  s_qxn : grid F; (** parcel direction accumulator — init_tools.py:501 *)
  s_qyn : grid F; (** parcel direction accumulator — init_tools.py:502 *)
  s_qwn : grid F; (** parcel discharge accumulator — init_tools.py:503 *)
  s_ux : grid F; (** velocity component — init_tools.py:504 *)
  s_uy : grid F; (** velocity component — init_tools.py:505 *)
  s_uw : grid F; (** velocity magnitude — init_tools.py:506 *)
  s_qs : grid F; (** sand flux — init_tools.py:507 *)
  s_sand_frac : grid F; (** bed sand fraction — init_tools.py:508-510 *)
  s_active_layer : grid F; (** active layer sand fraction — init_tools.py:511-513 *)
  s_Vp_dep_sand : grid F; (** sand volume deposited this step — init_tools.py:514 *)
  s_Vp_dep_mud : grid F; (** mud volume deposited this step — init_tools.py:515 *)
  s_mod_water_weight : grid F; (** hook array — init_tools.py:526 *)
  s_mod_sed_weight : grid F; (** hook array — init_tools.py:527 *)
  s_mod_erosion : grid F; (** hook array — init_tools.py:528 *)
  s_sfc_visit : grid F; (** parcel visits — init_tools.py:522 *)
  s_sfc_sum : grid F; (** summed surface — init_tools.py:523 *)
  s_Hnew : grid F; (** new free surface before smoothing — water_tools.py:295 *)
  s_cf : grid F; (** last crossflux — sed_tools.py:241 *)
  s_cell_type : grid Z; (** -2 land, 1 channel, 0 ocean, -1 edge — init_tools.py:494 *)
  s_H_SL : F; (** sea level — model.py H_SL *)
  s_time : F; (** model time in seconds — model.py _time *)
  s_time_iter : Z; (** completed steps — model.py _time_iter *)
  s_save_time_since_data : ext F; (** model.py _save_time_since_data *)
  s_save_time_since_checkpoint : ext F; (** model.py _save_time_since_checkpoint *)
  s_save_iter : Z; (** model.py _save_iter *)
  s_width : Z; (** columns of free_surf_walk_inds — init_tools.py:519-521 *)
  s_rng : S (** numba generator state *)
}.

Arguments s_eta {F S}.
Arguments s_eta0 {F S}.
Arguments s_stage {F S}.
Arguments s_depth {F S}.
Arguments s_qx {F S}.
Arguments s_qy {F S}.
Arguments s_qw {F S}.
Arguments s_qxn {F S}.
Arguments s_qyn {F S}.
Arguments s_qwn {F S}.
Arguments s_ux {F S}.
Arguments s_uy {F S}.
Arguments s_uw {F S}.
Arguments s_qs {F S}.
Arguments s_sand_frac {F S}.
Arguments s_active_layer {F S}.
Arguments s_Vp_dep_sand {F S}.
Arguments s_Vp_dep_mud {F S}.
Arguments s_mod_water_weight {F S}.
Arguments s_mod_sed_weight {F S}.
Arguments s_mod_erosion {F S}.
Arguments s_sfc_visit {F S}.
Arguments s_sfc_sum {F S}.
Arguments s_Hnew {F S}.
Arguments s_cf {F S}.
Arguments s_cell_type {F S}.
Arguments s_H_SL {F S}.
Arguments s_time {F S}.
Arguments s_time_iter {F S}.
Arguments s_save_time_since_data {F S}.
Arguments s_save_time_since_checkpoint {F S}.
Arguments s_save_iter {F S}.
Arguments s_width {F S}.
Arguments s_rng {F S}.
Arguments mkState {F S}.

Section Setters.
  Context {F S : Type}.
  (** attribute assignment self.eta = x *)
  Definition set_eta (x : grid F) (s : state F S) : state F S :=
    mkState x (s_eta0 s) (s_stage s) (s_depth s) (s_qx s) (s_qy s) (s_qw s) (s_qxn s) (s_qyn s) (s_qwn s) (s_ux s) (s_uy s) (s_uw s) (s_qs s) (s_sand_frac s) (s_active_layer s) (s_Vp_dep_sand s) (s_Vp_dep_mud s) (s_mod_water_weight s) (s_mod_sed_weight s) (s_mod_erosion s) (s_sfc_visit s) (s_sfc_sum s) (s_Hnew s) (s_cf s) (s_cell_type s) (s_H_SL s) (s_time s) (s_time_iter s) (s_save_time_since_data s) (s_save_time_since_checkpoint s) (s_save_iter s) (s_width s) (s_rng s).
  (** attribute assignment self.eta0 = x *)
  Definition set_eta0 (x : grid F) (s : state F S) : state F S :=
    mkState (s_eta s) x (s_stage s) (s_depth s) (s_qx s) (s_qy s) (s_qw s) (s_qxn s) (s_qyn s) (s_qwn s) (s_ux s) (s_uy s) (s_uw s) (s_qs s) (s_sand_frac s) (s_active_layer s) (s_Vp_dep_sand s) (s_Vp_dep_mud s) (s_mod_water_weight s) (s_mod_sed_weight s) (s_mod_erosion s) (s_sfc_visit s) (s_sfc_sum s) (s_Hnew s) (s_cf s) (s_cell_type s) (s_H_SL s) (s_time s) (s_time_iter s) (s_save_time_since_data s) (s_save_time_since_checkpoint s) (s_save_iter s) (s_width s) (s_rng s).
  (** attribute assignment self.stage = x *)
  Definition set_stage (x : grid F) (s : state F S) : state F S :=
    mkState (s_eta s) (s_eta0 s) x (s_depth s) (s_qx s) (s_qy s) (s_qw s) (s_qxn s) (s_qyn s) (s_qwn s) (s_ux s) (s_uy s) (s_uw s) (s_qs s) (s_sand_frac s) (s_active_layer s) (s_Vp_dep_sand s) (s_Vp_dep_mud s) (s_mod_water_weight s) (s_mod_sed_weight s) (s_mod_erosion s) (s_sfc_visit s) (s_sfc_sum s) (s_Hnew s) (s_cf s) (s_cell_type s) (s_H_SL s) (s_time s) (s_time_iter s) (s_save_time_since_data s) (s_save_time_since_checkpoint s) (s_save_iter s) (s_width s) (s_rng s).
  (** attribute assignment self.depth = x *)
  Definition set_depth (x : grid F) (s : state F S) : state F S :=
    mkState (s_eta s) (s_eta0 s) (s_stage s) x (s_qx s) (s_qy s) (s_qw s) (s_qxn s) (s_qyn s) (s_qwn s) (s_ux s) (s_uy s) (s_uw s) (s_qs s) (s_sand_frac s) (s_active_layer s) (s_Vp_dep_sand s) (s_Vp_dep_mud s) (s_mod_water_weight s) (s_mod_sed_weight s) (s_mod_erosion s) (s_sfc_visit s) (s_sfc_sum s) (s_Hnew s) (s_cf s) (s_cell_type s) (s_H_SL s) (s_time s) (s_time_iter s) (s_save_time_since_data s) (s_save_time_since_checkpoint s) (s_save_iter s) (s_width s) (s_rng s).
  (** attribute assignment self.qx = x *)
  Definition set_qx (x : grid F) (s : state F S) : state F S :=
    mkState (s_eta s) (s_eta0 s) (s_stage s) (s_depth s) x (s_qy s) (s_qw s) (s_qxn s) (s_qyn s) (s_qwn s) (s_ux s) (s_uy s) (s_uw s) (s_qs s) (s_sand_frac s) (s_active_layer s) (s_Vp_dep_sand s) (s_Vp_dep_mud s) (s_mod_water_weight s) (s_mod_sed_weight s) (s_mod_erosion s) (s_sfc_visit s) (s_sfc_sum s) (s_Hnew s) (s_cf s) (s_cell_type s) (s_H_SL s) (s_time s) (s_time_iter s) (s_save_time_since_data s) (s_save_time_since_checkpoint s) (s_save_iter s) (s_width s) (s_rng s).
  (** attribute assignment self.qy = x *)
  Definition set_qy (x : grid F) (s : state F S) : state F S :=
    mkState (s_eta s) (s_eta0 s) (s_stage s) (s_depth s) (s_qx s) x (s_qw s) (s_qxn s) (s_qyn s) (s_qwn s) (s_ux s) (s_uy s) (s_uw s) (s_qs s) (s_sand_frac s) (s_active_layer s) (s_Vp_dep_sand s) (s_Vp_dep_mud s) (s_mod_water_weight s) (s_mod_sed_weight s) (s_mod_erosion s) (s_sfc_visit s) (s_sfc_sum s) (s_Hnew s) (s_cf s) (s_cell_type s) (s_H_SL s) (s_time s) (s_time_iter s) (s_save_time_since_data s) (s_save_time_since_checkpoint s) (s_save_iter s) (s_width s) (s_rng s).
  (** attribute assignment self.qw = x *)
  Definition set_qw (x : grid F) (s : state F S) : state F S :=
    mkState (s_eta s) (s_eta0 s) (s_stage s) (s_depth s) (s_qx s) (s_qy s) x (s_qxn s) (s_qyn s) (s_qwn s) (s_ux s) (s_uy s) (s_uw s) (s_qs s) (s_sand_frac s) (s_active_layer s) (s_Vp_dep_sand s) (s_Vp_dep_mud s) (s_mod_water_weight s) (s_mod_sed_weight s) (s_mod_erosion s) (s_sfc_visit s) (s_sfc_sum s) (s_Hnew s) (s_cf s) (s_cell_type s) (s_H_SL s) (s_time s) (s_time_iter s) (s_save_time_since_data s) (s_save_time_since_checkpoint s) (s_save_iter s) (s_width s) (s_rng s).
  (** attribute assignment self.qxn = x *)
  Definition set_qxn (x : grid F) (s : state F S) : state F S :=
    mkState (s_eta s) (s_eta0 s) (s_stage s) (s_depth s) (s_qx s) (s_qy s) (s_qw s) x (s_qyn s) (s_qwn s) (s_ux s) (s_uy s) (s_uw s) (s_qs s) (s_sand_frac s) (s_active_layer s) (s_Vp_dep_sand s) (s_Vp_dep_mud s) (s_mod_water_weight s) (s_mod_sed_weight s) (s_mod_erosion s) (s_sfc_visit s) (s_sfc_sum s) (s_Hnew s) (s_cf s) (s_cell_type s) (s_H_SL s) (s_time s) (s_time_iter s) (s_save_time_since_data s) (s_save_time_since_checkpoint s) (s_save_iter s) (s_width s) (s_rng s).
  (** attribute assignment self.qyn = x *)
  Definition set_qyn (x : grid F) (s : state F S) : state F S :=
    mkState (s_eta s) (s_eta0 s) (s_stage s) (s_depth s) (s_qx s) (s_qy s) (s_qw s) (s_qxn s) x (s_qwn s) (s_ux s) (s_uy s) (s_uw s) (s_qs s) (s_sand_frac s) (s_active_layer s) (s_Vp_dep_sand s) (s_Vp_dep_mud s) (s_mod_water_weight s) (s_mod_sed_weight s) (s_mod_erosion s) (s_sfc_visit s) (s_sfc_sum s) (s_Hnew s) (s_cf s) (s_cell_type s) (s_H_SL s) (s_time s) (s_time_iter s) (s_save_time_since_data s) (s_save_time_since_checkpoint s) (s_save_iter s) (s_width s) (s_rng s).
  (** attribute assignment self.qwn = x *)
  Definition set_qwn (x : grid F) (s : state F S) : state F S :=
    mkState (s_eta s) (s_eta0 s) (s_stage s) (s_depth s) (s_qx s) (s_qy s) (s_qw s) (s_qxn s) (s_qyn s) x (s_ux s) (s_uy s) (s_uw s) (s_qs s) (s_sand_frac s) (s_active_layer s) (s_Vp_dep_sand s) (s_Vp_dep_mud s) (s_mod_water_weight s) (s_mod_sed_weight s) (s_mod_erosion s) (s_sfc_visit s) (s_sfc_sum s) (s_Hnew s) (s_cf s) (s_cell_type s) (s_H_SL s) (s_time s) (s_time_iter s) (s_save_time_since_data s) (s_save_time_since_checkpoint s) (s_save_iter s) (s_width s) (s_rng s).
  (** attribute assignment self.ux = x *)
  Definition set_ux (x : grid F) (s : state F S) : state F S :=
    mkState (s_eta s) (s_eta0 s) (s_stage s) (s_depth s) (s_qx s) (s_qy s) (s_qw s) (s_qxn s) (s_qyn s) (s_qwn s) x (s_uy s) (s_uw s) (s_qs s) (s_sand_frac s) (s_active_layer s) (s_Vp_dep_sand s) (s_Vp_dep_mud s) (s_mod_water_weight s) (s_mod_sed_weight s) (s_mod_erosion s) (s_sfc_visit s) (s_sfc_sum s) (s_Hnew s) (s_cf s) (s_cell_type s) (s_H_SL s) (s_time s) (s_time_iter s) (s_save_time_since_data s) (s_save_time_since_checkpoint s) (s_save_iter s) (s_width s) (s_rng s).
  (** attribute assignment self.uy = x *)
  Definition set_uy (x : grid F) (s : state F S) : state F S :=
    mkState (s_eta s) (s_eta0 s) (s_stage s) (s_depth s) (s_qx s) (s_qy s) (s_qw s) (s_qxn s) (s_qyn s) (s_qwn s) (s_ux s) x (s_uw s) (s_qs s) (s_sand_frac s) (s_active_layer s) (s_Vp_dep_sand s) (s_Vp_dep_mud s) (s_mod_water_weight s) (s_mod_sed_weight s) (s_mod_erosion s) (s_sfc_visit s) (s_sfc_sum s) (s_Hnew s) (s_cf s) (s_cell_type s) (s_H_SL s) (s_time s) (s_time_iter s) (s_save_time_since_data s) (s_save_time_since_checkpoint s) (s_save_iter s) (s_width s) (s_rng s).
  (** attribute assignment self.uw = x *)
  Definition set_uw (x : grid F) (s : state F S) : state F S :=
    mkState (s_eta s) (s_eta0 s) (s_stage s) (s_depth s) (s_qx s) (s_qy s) (s_qw s) (s_qxn s) (s_qyn s) (s_qwn s) (s_ux s) (s_uy s) x (s_qs s) (s_sand_frac s) (s_active_layer s) (s_Vp_dep_sand s) (s_Vp_dep_mud s) (s_mod_water_weight s) (s_mod_sed_weight s) (s_mod_erosion s) (s_sfc_visit s) (s_sfc_sum s) (s_Hnew s) (s_cf s) (s_cell_type s) (s_H_SL s) (s_time s) (s_time_iter s) (s_save_time_since_data s) (s_save_time_since_checkpoint s) (s_save_iter s) (s_width s) (s_rng s).
  (** attribute assignment self.qs = x *)
  Definition set_qs (x : grid F) (s : state F S) : state F S :=
    mkState (s_eta s) (s_eta0 s) (s_stage s) (s_depth s) (s_qx s) (s_qy s) (s_qw s) (s_qxn s) (s_qyn s) (s_qwn s) (s_ux s) (s_uy s) (s_uw s) x (s_sand_frac s) (s_active_layer s) (s_Vp_dep_sand s) (s_Vp_dep_mud s) (s_mod_water_weight s) (s_mod_sed_weight s) (s_mod_erosion s) (s_sfc_visit s) (s_sfc_sum s) (s_Hnew s) (s_cf s) (s_cell_type s) (s_H_SL s) (s_time s) (s_time_iter s) (s_save_time_since_data s) (s_save_time_since_checkpoint s) (s_save_iter s) (s_width s) (s_rng s).
  (** attribute assignment self.sand_frac = x *)
  Definition set_sand_frac (x : grid F) (s : state F S) : state F S :=
    mkState (s_eta s) (s_eta0 s) (s_stage s) (s_depth s) (s_qx s) (s_qy s) (s_qw s) (s_qxn s) (s_qyn s) (s_qwn s) (s_ux s) (s_uy s) (s_uw s) (s_qs s) x (s_active_layer s) (s_Vp_dep_sand s) (s_Vp_dep_mud s) (s_mod_water_weight s) (s_mod_sed_weight s) (s_mod_erosion s) (s_sfc_visit s) (s_sfc_sum s) (s_Hnew s) (s_cf s) (s_cell_type s) (s_H_SL s) (s_time s) (s_time_iter s) (s_save_time_since_data s) (s_save_time_since_checkpoint s) (s_save_iter s) (s_width s) (s_rng s).
  (** attribute assignment self.active_layer = x *)
  Definition set_active_layer (x : grid F) (s : state F S) : state F S :=
    mkState (s_eta s) (s_eta0 s) (s_stage s) (s_depth s) (s_qx s) (s_qy s) (s_qw s) (s_qxn s) (s_qyn s) (s_qwn s) (s_ux s) (s_uy s) (s_uw s) (s_qs s) (s_sand_frac s) x (s_Vp_dep_sand s) (s_Vp_dep_mud s) (s_mod_water_weight s) (s_mod_sed_weight s) (s_mod_erosion s) (s_sfc_visit s) (s_sfc_sum s) (s_Hnew s) (s_cf s) (s_cell_type s) (s_H_SL s) (s_time s) (s_time_iter s) (s_save_time_since_data s) (s_save_time_since_checkpoint s) (s_save_iter s) (s_width s) (s_rng s).
  (** attribute assignment self.Vp_dep_sand = x *)
  Definition set_Vp_dep_sand (x : grid F) (s : state F S) : state F S :=
    mkState (s_eta s) (s_eta0 s) (s_stage s) (s_depth s) (s_qx s) (s_qy s) (s_qw s) (s_qxn s) (s_qyn s) (s_qwn s) (s_ux s) (s_uy s) (s_uw s) (s_qs s) (s_sand_frac s) (s_active_layer s) x (s_Vp_dep_mud s) (s_mod_water_weight s) (s_mod_sed_weight s) (s_mod_erosion s) (s_sfc_visit s) (s_sfc_sum s) (s_Hnew s) (s_cf s) (s_cell_type s) (s_H_SL s) (s_time s) (s_time_iter s) (s_save_time_since_data s) (s_save_time_since_checkpoint s) (s_save_iter s) (s_width s) (s_rng s).
  (** attribute assignment self.Vp_dep_mud = x *)
  Definition set_Vp_dep_mud (x : grid F) (s : state F S) : state F S :=
    mkState (s_eta s) (s_eta0 s) (s_stage s) (s_depth s) (s_qx s) (s_qy s) (s_qw s) (s_qxn s) (s_qyn s) (s_qwn s) (s_ux s) (s_uy s) (s_uw s) (s_qs s) (s_sand_frac s) (s_active_layer s) (s_Vp_dep_sand s) x (s_mod_water_weight s) (s_mod_sed_weight s) (s_mod_erosion s) (s_sfc_visit s) (s_sfc_sum s) (s_Hnew s) (s_cf s) (s_cell_type s) (s_H_SL s) (s_time s) (s_time_iter s) (s_save_time_since_data s) (s_save_time_since_checkpoint s) (s_save_iter s) (s_width s) (s_rng s).
  (** attribute assignment self.mod_water_weight = x *)
  Definition set_mod_water_weight (x : grid F) (s : state F S) : state F S :=
    mkState (s_eta s) (s_eta0 s) (s_stage s) (s_depth s) (s_qx s) (s_qy s) (s_qw s) (s_qxn s) (s_qyn s) (s_qwn s) (s_ux s) (s_uy s) (s_uw s) (s_qs s) (s_sand_frac s) (s_active_layer s) (s_Vp_dep_sand s) (s_Vp_dep_mud s) x (s_mod_sed_weight s) (s_mod_erosion s) (s_sfc_visit s) (s_sfc_sum s) (s_Hnew s) (s_cf s) (s_cell_type s) (s_H_SL s) (s_time s) (s_time_iter s) (s_save_time_since_data s) (s_save_time_since_checkpoint s) (s_save_iter s) (s_width s) (s_rng s).
  (** attribute assignment self.mod_sed_weight = x *)
  Definition set_mod_sed_weight (x : grid F) (s : state F S) : state F S :=
    mkState (s_eta s) (s_eta0 s) (s_stage s) (s_depth s) (s_qx s) (s_qy s) (s_qw s) (s_qxn s) (s_qyn s) (s_qwn s) (s_ux s) (s_uy s) (s_uw s) (s_qs s) (s_sand_frac s) (s_active_layer s) (s_Vp_dep_sand s) (s_Vp_dep_mud s) (s_mod_water_weight s) x (s_mod_erosion s) (s_sfc_visit s) (s_sfc_sum s) (s_Hnew s) (s_cf s) (s_cell_type s) (s_H_SL s) (s_time s) (s_time_iter s) (s_save_time_since_data s) (s_save_time_since_checkpoint s) (s_save_iter s) (s_width s) (s_rng s).
  (** attribute assignment self.mod_erosion = x *)
  Definition set_mod_erosion (x : grid F) (s : state F S) : state F S :=
    mkState (s_eta s) (s_eta0 s) (s_stage s) (s_depth s) (s_qx s) (s_qy s) (s_qw s) (s_qxn s) (s_qyn s) (s_qwn s) (s_ux s) (s_uy s) (s_uw s) (s_qs s) (s_sand_frac s) (s_active_layer s) (s_Vp_dep_sand s) (s_Vp_dep_mud s) (s_mod_water_weight s) (s_mod_sed_weight s) x (s_sfc_visit s) (s_sfc_sum s) (s_Hnew s) (s_cf s) (s_cell_type s) (s_H_SL s) (s_time s) (s_time_iter s) (s_save_time_since_data s) (s_save_time_since_checkpoint s) (s_save_iter s) (s_width s) (s_rng s).
  (** attribute assignment self.sfc_visit = x *)
  Definition set_sfc_visit (x : grid F) (s : state F S) : state F S :=
    mkState (s_eta s) (s_eta0 s) (s_stage s) (s_depth s) (s_qx s) (s_qy s) (s_qw s) (s_qxn s) (s_qyn s) (s_qwn s) (s_ux s) (s_uy s) (s_uw s) (s_qs s) (s_sand_frac s) (s_active_layer s) (s_Vp_dep_sand s) (s_Vp_dep_mud s) (s_mod_water_weight s) (s_mod_sed_weight s) (s_mod_erosion s) x (s_sfc_sum s) (s_Hnew s) (s_cf s) (s_cell_type s) (s_H_SL s) (s_time s) (s_time_iter s) (s_save_time_since_data s) (s_save_time_since_checkpoint s) (s_save_iter s) (s_width s) (s_rng s).
  (** attribute assignment self.sfc_sum = x *)
  Definition set_sfc_sum (x : grid F) (s : state F S) : state F S :=
    mkState (s_eta s) (s_eta0 s) (s_stage s) (s_depth s) (s_qx s) (s_qy s) (s_qw s) (s_qxn s) (s_qyn s) (s_qwn s) (s_ux s) (s_uy s) (s_uw s) (s_qs s) (s_sand_frac s) (s_active_layer s) (s_Vp_dep_sand s) (s_Vp_dep_mud s) (s_mod_water_weight s) (s_mod_sed_weight s) (s_mod_erosion s) (s_sfc_visit s) x (s_Hnew s) (s_cf s) (s_cell_type s) (s_H_SL s) (s_time s) (s_time_iter s) (s_save_time_since_data s) (s_save_time_since_checkpoint s) (s_save_iter s) (s_width s) (s_rng s).
  (** attribute assignment self.Hnew = x *)
  Definition set_Hnew (x : grid F) (s : state F S) : state F S :=
    mkState (s_eta s) (s_eta0 s) (s_stage s) (s_depth s) (s_qx s) (s_qy s) (s_qw s) (s_qxn s) (s_qyn s) (s_qwn s) (s_ux s) (s_uy s) (s_uw s) (s_qs s) (s_sand_frac s) (s_active_layer s) (s_Vp_dep_sand s) (s_Vp_dep_mud s) (s_mod_water_weight s) (s_mod_sed_weight s) (s_mod_erosion s) (s_sfc_visit s) (s_sfc_sum s) x (s_cf s) (s_cell_type s) (s_H_SL s) (s_time s) (s_time_iter s) (s_save_time_since_data s) (s_save_time_since_checkpoint s) (s_save_iter s) (s_width s) (s_rng s).
  (** attribute assignment self.cf = x *)
  Definition set_cf (x : grid F) (s : state F S) : state F S :=
    mkState (s_eta s) (s_eta0 s) (s_stage s) (s_depth s) (s_qx s) (s_qy s) (s_qw s) (s_qxn s) (s_qyn s) (s_qwn s) (s_ux s) (s_uy s) (s_uw s) (s_qs s) (s_sand_frac s) (s_active_layer s) (s_Vp_dep_sand s) (s_Vp_dep_mud s) (s_mod_water_weight s) (s_mod_sed_weight s) (s_mod_erosion s) (s_sfc_visit s) (s_sfc_sum s) (s_Hnew s) x (s_cell_type s) (s_H_SL s) (s_time s) (s_time_iter s) (s_save_time_since_data s) (s_save_time_since_checkpoint s) (s_save_iter s) (s_width s) (s_rng s).
  (** attribute assignment self.cell_type = x *)
  Definition set_cell_type (x : grid Z) (s : state F S) : state F S :=
    mkState (s_eta s) (s_eta0 s) (s_stage s) (s_depth s) (s_qx s) (s_qy s) (s_qw s) (s_qxn s) (s_qyn s) (s_qwn s) (s_ux s) (s_uy s) (s_uw s) (s_qs s) (s_sand_frac s) (s_active_layer s) (s_Vp_dep_sand s) (s_Vp_dep_mud s) (s_mod_water_weight s) (s_mod_sed_weight s) (s_mod_erosion s) (s_sfc_visit s) (s_sfc_sum s) (s_Hnew s) (s_cf s) x (s_H_SL s) (s_time s) (s_time_iter s) (s_save_time_since_data s) (s_save_time_since_checkpoint s) (s_save_iter s) (s_width s) (s_rng s).
  (** attribute assignment self.H_SL = x *)
  Definition set_H_SL (x : F) (s : state F S) : state F S :=
    mkState (s_eta s) (s_eta0 s) (s_stage s) (s_depth s) (s_qx s) (s_qy s) (s_qw s) (s_qxn s) (s_qyn s) (s_qwn s) (s_ux s) (s_uy s) (s_uw s) (s_qs s) (s_sand_frac s) (s_active_layer s) (s_Vp_dep_sand s) (s_Vp_dep_mud s) (s_mod_water_weight s) (s_mod_sed_weight s) (s_mod_erosion s) (s_sfc_visit s) (s_sfc_sum s) (s_Hnew s) (s_cf s) (s_cell_type s) x (s_time s) (s_time_iter s) (s_save_time_since_data s) (s_save_time_since_checkpoint s) (s_save_iter s) (s_width s) (s_rng s).
  (** attribute assignment self.time = x *)
  Definition set_time (x : F) (s : state F S) : state F S :=
    mkState (s_eta s) (s_eta0 s) (s_stage s) (s_depth s) (s_qx s) (s_qy s) (s_qw s) (s_qxn s) (s_qyn s) (s_qwn s) (s_ux s) (s_uy s) (s_uw s) (s_qs s) (s_sand_frac s) (s_active_layer s) (s_Vp_dep_sand s) (s_Vp_dep_mud s) (s_mod_water_weight s) (s_mod_sed_weight s) (s_mod_erosion s) (s_sfc_visit s) (s_sfc_sum s) (s_Hnew s) (s_cf s) (s_cell_type s) (s_H_SL s) x (s_time_iter s) (s_save_time_since_data s) (s_save_time_since_checkpoint s) (s_save_iter s) (s_width s) (s_rng s).
  (** attribute assignment self.time_iter = x *)
  Definition set_time_iter (x : Z) (s : state F S) : state F S :=
    mkState (s_eta s) (s_eta0 s) (s_stage s) (s_depth s) (s_qx s) (s_qy s) (s_qw s) (s_qxn s) (s_qyn s) (s_qwn s) (s_ux s) (s_uy s) (s_uw s) (s_qs s) (s_sand_frac s) (s_active_layer s) (s_Vp_dep_sand s) (s_Vp_dep_mud s) (s_mod_water_weight s) (s_mod_sed_weight s) (s_mod_erosion s) (s_sfc_visit s) (s_sfc_sum s) (s_Hnew s) (s_cf s) (s_cell_type s) (s_H_SL s) (s_time s) x (s_save_time_since_data s) (s_save_time_since_checkpoint s) (s_save_iter s) (s_width s) (s_rng s).
  (** attribute assignment self.save_time_since_data = x *)
  Definition set_save_time_since_data (x : ext F) (s : state F S) : state F S :=
    mkState (s_eta s) (s_eta0 s) (s_stage s) (s_depth s) (s_qx s) (s_qy s) (s_qw s) (s_qxn s) (s_qyn s) (s_qwn s) (s_ux s) (s_uy s) (s_uw s) (s_qs s) (s_sand_frac s) (s_active_layer s) (s_Vp_dep_sand s) (s_Vp_dep_mud s) (s_mod_water_weight s) (s_mod_sed_weight s) (s_mod_erosion s) (s_sfc_visit s) (s_sfc_sum s) (s_Hnew s) (s_cf s) (s_cell_type s) (s_H_SL s) (s_time s) (s_time_iter s) x (s_save_time_since_checkpoint s) (s_save_iter s) (s_width s) (s_rng s).
  (** attribute assignment self.save_time_since_checkpoint = x *)
  Definition set_save_time_since_checkpoint (x : ext F) (s : state F S) : state F S :=
    mkState (s_eta s) (s_eta0 s) (s_stage s) (s_depth s) (s_qx s) (s_qy s) (s_qw s) (s_qxn s) (s_qyn s) (s_qwn s) (s_ux s) (s_uy s) (s_uw s) (s_qs s) (s_sand_frac s) (s_active_layer s) (s_Vp_dep_sand s) (s_Vp_dep_mud s) (s_mod_water_weight s) (s_mod_sed_weight s) (s_mod_erosion s) (s_sfc_visit s) (s_sfc_sum s) (s_Hnew s) (s_cf s) (s_cell_type s) (s_H_SL s) (s_time s) (s_time_iter s) (s_save_time_since_data s) x (s_save_iter s) (s_width s) (s_rng s).
  (** attribute assignment self.save_iter = x *)
  Definition set_save_iter (x : Z) (s : state F S) : state F S :=
    mkState (s_eta s) (s_eta0 s) (s_stage s) (s_depth s) (s_qx s) (s_qy s) (s_qw s) (s_qxn s) (s_qyn s) (s_qwn s) (s_ux s) (s_uy s) (s_uw s) (s_qs s) (s_sand_frac s) (s_active_layer s) (s_Vp_dep_sand s) (s_Vp_dep_mud s) (s_mod_water_weight s) (s_mod_sed_weight s) (s_mod_erosion s) (s_sfc_visit s) (s_sfc_sum s) (s_Hnew s) (s_cf s) (s_cell_type s) (s_H_SL s) (s_time s) (s_time_iter s) (s_save_time_since_data s) (s_save_time_since_checkpoint s) x (s_width s) (s_rng s).
  (** attribute assignment self.width = x *)
  Definition set_width (x : Z) (s : state F S) : state F S :=
    mkState (s_eta s) (s_eta0 s) (s_stage s) (s_depth s) (s_qx s) (s_qy s) (s_qw s) (s_qxn s) (s_qyn s) (s_qwn s) (s_ux s) (s_uy s) (s_uw s) (s_qs s) (s_sand_frac s) (s_active_layer s) (s_Vp_dep_sand s) (s_Vp_dep_mud s) (s_mod_water_weight s) (s_mod_sed_weight s) (s_mod_erosion s) (s_sfc_visit s) (s_sfc_sum s) (s_Hnew s) (s_cf s) (s_cell_type s) (s_H_SL s) (s_time s) (s_time_iter s) (s_save_time_since_data s) (s_save_time_since_checkpoint s) (s_save_iter s) x (s_rng s).
  (** attribute assignment self.rng = x *)
  Definition set_rng (x : S) (s : state F S) : state F S :=
    mkState (s_eta s) (s_eta0 s) (s_stage s) (s_depth s) (s_qx s) (s_qy s) (s_qw s) (s_qxn s) (s_qyn s) (s_qwn s) (s_ux s) (s_uy s) (s_uw s) (s_qs s) (s_sand_frac s) (s_active_layer s) (s_Vp_dep_sand s) (s_Vp_dep_mud s) (s_mod_water_weight s) (s_mod_sed_weight s) (s_mod_erosion s) (s_sfc_visit s) (s_sfc_sum s) (s_Hnew s) (s_cf s) (s_cell_type s) (s_H_SL s) (s_time s) (s_time_iter s) (s_save_time_since_data s) (s_save_time_since_checkpoint s) (s_save_iter s) (s_width s) x.
End Setters.
