(** C88: what a state is, as far as an update is concerned: the numbers in
    the cells of the domain, and the scalars. *)
From Coq Require Import ZArith List.
From Verif Require Import Base Params State Iter SessionSpec.
Import ListNotations.
Local Open Scope Z_scope.

(** The same values in every cell of the L x W domain; anything elsewhere. *)
Definition on_grid {T} (L W : Z) (f g : grid T) : Prop := forall i j, 0 <= i < L -> 0 <= j < W -> f i j = g i j.

(** Two states with the same values in every cell of the domain of [P], the
    same scalars, clock, counters and generator. *)
Record same_inside {F S} (P : params F) (a b : state F S) : Prop := {
  si_eta : on_grid (p_L P) (p_W P) (s_eta a) (s_eta b);
  si_eta0 : on_grid (p_L P) (p_W P) (s_eta0 a) (s_eta0 b);
  si_stage : on_grid (p_L P) (p_W P) (s_stage a) (s_stage b);
  si_depth : on_grid (p_L P) (p_W P) (s_depth a) (s_depth b);
  si_qx : on_grid (p_L P) (p_W P) (s_qx a) (s_qx b);
  si_qy : on_grid (p_L P) (p_W P) (s_qy a) (s_qy b);
  si_qw : on_grid (p_L P) (p_W P) (s_qw a) (s_qw b);
  si_qxn : on_grid (p_L P) (p_W P) (s_qxn a) (s_qxn b);
  si_qyn : on_grid (p_L P) (p_W P) (s_qyn a) (s_qyn b);
  si_qwn : on_grid (p_L P) (p_W P) (s_qwn a) (s_qwn b);
  si_ux : on_grid (p_L P) (p_W P) (s_ux a) (s_ux b);
  si_uy : on_grid (p_L P) (p_W P) (s_uy a) (s_uy b);
  si_uw : on_grid (p_L P) (p_W P) (s_uw a) (s_uw b);
  si_qs : on_grid (p_L P) (p_W P) (s_qs a) (s_qs b);
  si_sand_frac : on_grid (p_L P) (p_W P) (s_sand_frac a) (s_sand_frac b);
  si_active_layer : on_grid (p_L P) (p_W P) (s_active_layer a) (s_active_layer b);
  si_Vp_dep_sand : on_grid (p_L P) (p_W P) (s_Vp_dep_sand a) (s_Vp_dep_sand b);
  si_Vp_dep_mud : on_grid (p_L P) (p_W P) (s_Vp_dep_mud a) (s_Vp_dep_mud b);
  si_mod_water_weight : on_grid (p_L P) (p_W P) (s_mod_water_weight a) (s_mod_water_weight b);
  si_mod_sed_weight : on_grid (p_L P) (p_W P) (s_mod_sed_weight a) (s_mod_sed_weight b);
  si_mod_erosion : on_grid (p_L P) (p_W P) (s_mod_erosion a) (s_mod_erosion b);
  si_sfc_visit : on_grid (p_L P) (p_W P) (s_sfc_visit a) (s_sfc_visit b);
  si_sfc_sum : on_grid (p_L P) (p_W P) (s_sfc_sum a) (s_sfc_sum b);
  si_Hnew : on_grid (p_L P) (p_W P) (s_Hnew a) (s_Hnew b);
  si_cf : on_grid (p_L P) (p_W P) (s_cf a) (s_cf b);
  si_cell_type : on_grid (p_L P) (p_W P) (s_cell_type a) (s_cell_type b);
  si_H_SL : s_H_SL a = s_H_SL b;
  si_time : s_time a = s_time b;
  si_time_iter : s_time_iter a = s_time_iter b;
  si_save_time_since_data : s_save_time_since_data a = s_save_time_since_data b;
  si_save_time_since_checkpoint : s_save_time_since_checkpoint a = s_save_time_since_checkpoint b;
  si_save_iter : s_save_iter a = s_save_iter b;
  si_width : s_width a = s_width b;
  si_rng : s_rng a = s_rng b
}.

(** Two checkpoints with the same contents. *)
Record same_saved {F S} (P : params F) (c d : checkpoint F S) : Prop := {
  sv_eta : on_grid (p_L P) (p_W P) (c_eta c) (c_eta d);
  sv_depth : on_grid (p_L P) (p_W P) (c_depth c) (c_depth d);
  sv_stage : on_grid (p_L P) (p_W P) (c_stage c) (c_stage d);
  sv_uw : on_grid (p_L P) (p_W P) (c_uw c) (c_uw d);
  sv_ux : on_grid (p_L P) (p_W P) (c_ux c) (c_ux d);
  sv_uy : on_grid (p_L P) (p_W P) (c_uy c) (c_uy d);
  sv_qw : on_grid (p_L P) (p_W P) (c_qw c) (c_qw d);
  sv_qx : on_grid (p_L P) (p_W P) (c_qx c) (c_qx d);
  sv_qy : on_grid (p_L P) (p_W P) (c_qy c) (c_qy d);
  sv_sand_frac : on_grid (p_L P) (p_W P) (c_sand_frac c) (c_sand_frac d);
  sv_active_layer : on_grid (p_L P) (p_W P) (c_active_layer c) (c_active_layer d);
  sv_time : c_time c = c_time d;
  sv_time_iter : c_time_iter c = c_time_iter d;
  sv_save_iter : c_save_iter c = c_save_iter d;
  sv_save_time_since_data : c_save_time_since_data c = c_save_time_since_data d;
  sv_H_SL : c_H_SL c = c_H_SL d;
  sv_rng : c_rng c = c_rng d
}.

(** The same record at the same time under the same number, or the same
    checkpoint. *)
Definition same_written {F S} (P : params F) (x y : output F S) : Prop :=
  match x, y with
  | Record_ k t s, Record_ k' t' s' => k = k' /\ t = t' /\ same_inside P s s'
  | Checkpoint c, Checkpoint d => same_saved P c d
  | _, _ => False
  end.

(** The part of a state that an update looks at: bed, water, velocities,
    discharges, composition, cell types, the hook arrays, sea level, clock and
    generator -- in the cells of the domain. *)
Record same_essence {F S} (P : params F) (a b : state F S) : Prop := {
  se_eta : on_grid (p_L P) (p_W P) (s_eta a) (s_eta b);
  se_stage : on_grid (p_L P) (p_W P) (s_stage a) (s_stage b);
  se_depth : on_grid (p_L P) (p_W P) (s_depth a) (s_depth b);
  se_qx : on_grid (p_L P) (p_W P) (s_qx a) (s_qx b);
  se_qy : on_grid (p_L P) (p_W P) (s_qy a) (s_qy b);
  se_qw : on_grid (p_L P) (p_W P) (s_qw a) (s_qw b);
  se_ux : on_grid (p_L P) (p_W P) (s_ux a) (s_ux b);
  se_uy : on_grid (p_L P) (p_W P) (s_uy a) (s_uy b);
  se_uw : on_grid (p_L P) (p_W P) (s_uw a) (s_uw b);
  se_sand_frac : on_grid (p_L P) (p_W P) (s_sand_frac a) (s_sand_frac b);
  se_active_layer : on_grid (p_L P) (p_W P) (s_active_layer a) (s_active_layer b);
  se_mod_water_weight : on_grid (p_L P) (p_W P) (s_mod_water_weight a) (s_mod_water_weight b);
  se_mod_sed_weight : on_grid (p_L P) (p_W P) (s_mod_sed_weight a) (s_mod_sed_weight b);
  se_mod_erosion : on_grid (p_L P) (p_W P) (s_mod_erosion a) (s_mod_erosion b);
  se_cell_type : on_grid (p_L P) (p_W P) (s_cell_type a) (s_cell_type b);
  se_H_SL : s_H_SL a = s_H_SL b;
  se_time : s_time a = s_time b;
  se_time_iter : s_time_iter a = s_time_iter b;
  se_rng : s_rng a = s_rng b
}.

(** What a record shows, in the cells of the domain. *)
Record same_view {F S} (P : params F) (a b : state F S) : Prop := {
  vw_eta : on_grid (p_L P) (p_W P) (s_eta a) (s_eta b);
  vw_stage : on_grid (p_L P) (p_W P) (s_stage a) (s_stage b);
  vw_depth : on_grid (p_L P) (p_W P) (s_depth a) (s_depth b);
  vw_qx : on_grid (p_L P) (p_W P) (s_qx a) (s_qx b);
  vw_qy : on_grid (p_L P) (p_W P) (s_qy a) (s_qy b);
  vw_qw : on_grid (p_L P) (p_W P) (s_qw a) (s_qw b);
  vw_ux : on_grid (p_L P) (p_W P) (s_ux a) (s_ux b);
  vw_uy : on_grid (p_L P) (p_W P) (s_uy a) (s_uy b);
  vw_uw : on_grid (p_L P) (p_W P) (s_uw a) (s_uw b);
  vw_sand_frac : on_grid (p_L P) (p_W P) (s_sand_frac a) (s_sand_frac b);
  vw_active_layer : on_grid (p_L P) (p_W P) (s_active_layer a) (s_active_layer b);
  vw_qs : on_grid (p_L P) (p_W P) (s_qs a) (s_qs b);
  vw_H_SL : s_H_SL a = s_H_SL b
}.

(** The same record: number, time, contents. *)
Definition same_entry {F S} (P : params F) (x y : Z * F * state F S) : Prop :=
  fst (fst x) = fst (fst y) /\ snd (fst x) = snd (fst y) /\ same_view P (snd x) (snd y).
