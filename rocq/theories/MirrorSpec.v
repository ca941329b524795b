(** Left and right (C72): the mirror image of a model, of its states and of
    what it writes. *)
From Coq Require Import ZArith List Bool Reals.
From Verif Require Import Base Params State WaterSpec Iter.
Import ListNotations.
Local Open Scope Z_scope.

(** Column j seen in a mirror, among W columns. *)
Definition flip (W j : Z) : Z := W - 1 - j.
(** A direction (0..8, row by row) seen in a mirror. *)
Definition flip_dir (k : nat) : nat := nth k [2; 1; 0; 5; 4; 3; 8; 7; 6]%nat k.

Section Fields.
  Context (L W : Z).
  (** g' is the mirror image of g on the grid. *)
  Definition mirror_image {T} (g g' : grid T) : Prop :=
    forall i j, inb L W i j -> g' i (flip W j) = g i j.
  (** The same for components across the domain, which change sign. *)
  Definition mirror_vector (g g' : grid R) : Prop :=
    forall i j, inb L W i j -> g' i (flip W j) = (- g i j)%R.
End Fields.

(** The same model with its inlet, centre and subsiding region seen in a
    mirror. *)
Definition mirror_params (P : params R) : params R :=
  let W := p_W P in
    mkParams (p_L P) (p_W P) (flip W (p_CTR P)) (p_L0 P) (p_N0 P) (rev (map (flip W) (p_inlet P)))
      (p_dx P) (p_h0 P) (p_hb P) (p_u0 P) (p_S0 P) (p_u_max P) (p_C0 P) (p_dry_depth P) (p_gamma P)
      (p_V0 P) (p_Qw0 P) (p_qw0 P) (p_Qp_water P) (p_qs0 P) (p_dVs P) (p_Qs0 P) (p_Vp_sed P)
      (p_stepmax P) (p_dt P) (p_omega_flow_iter P) (p_N_crossdiff P) (p_lambda P)
      (p_diffusion_multiplier P) (p_theta_water P) (p_theta_sand P) (p_theta_mud P) (p_U_dep_mud P)
      (p_U_ero_sand P) (p_U_ero_mud P) (p_itermax P) (p_Np_water P) (p_Np_sed P) (p_f_bedload P)
      (p_f_bedload_router P) (p_beta P) (p_omega_sfc P) (p_omega_flow P) (p_Nsmooth P) (p_Csmooth P)
      (p_SLR P) (p_sand_frac_bc P) (p_active_layer_thickness P) (p_toggle_subsidence P)
      (p_start_subsidence P) (fun i j => p_sigma P i (flip W j)) (p_save_dt P) (p_checkpoint_dt P)
      (p_save_checkpoint P).

(** st' shows st in a mirror (whatever the generators hold). *)
Record mirror_state {S S' : Type} (P : params R) (st : state R S) (st' : state R S') : Prop := {
    mi_eta : mirror_image (p_L P) (p_W P) (s_eta st) (s_eta st');
    mi_eta0 : mirror_image (p_L P) (p_W P) (s_eta0 st) (s_eta0 st');
    mi_stage : mirror_image (p_L P) (p_W P) (s_stage st) (s_stage st');
    mi_depth : mirror_image (p_L P) (p_W P) (s_depth st) (s_depth st');
    mi_qx : mirror_image (p_L P) (p_W P) (s_qx st) (s_qx st');
    mi_qy : mirror_vector (p_L P) (p_W P) (s_qy st) (s_qy st');
    mi_qw : mirror_image (p_L P) (p_W P) (s_qw st) (s_qw st');
    mi_qxn : mirror_image (p_L P) (p_W P) (s_qxn st) (s_qxn st');
    mi_qyn : mirror_vector (p_L P) (p_W P) (s_qyn st) (s_qyn st');
    mi_qwn : mirror_image (p_L P) (p_W P) (s_qwn st) (s_qwn st');
    mi_ux : mirror_image (p_L P) (p_W P) (s_ux st) (s_ux st');
    mi_uy : mirror_vector (p_L P) (p_W P) (s_uy st) (s_uy st');
    mi_uw : mirror_image (p_L P) (p_W P) (s_uw st) (s_uw st');
    mi_qs : mirror_image (p_L P) (p_W P) (s_qs st) (s_qs st');
    mi_sand_frac : mirror_image (p_L P) (p_W P) (s_sand_frac st) (s_sand_frac st');
    mi_active_layer : mirror_image (p_L P) (p_W P) (s_active_layer st) (s_active_layer st');
    mi_Vp_dep_sand : mirror_image (p_L P) (p_W P) (s_Vp_dep_sand st) (s_Vp_dep_sand st');
    mi_Vp_dep_mud : mirror_image (p_L P) (p_W P) (s_Vp_dep_mud st) (s_Vp_dep_mud st');
    mi_mod_water_weight : mirror_image (p_L P) (p_W P) (s_mod_water_weight st) (s_mod_water_weight st');
    mi_mod_sed_weight : mirror_image (p_L P) (p_W P) (s_mod_sed_weight st) (s_mod_sed_weight st');
    mi_mod_erosion : mirror_image (p_L P) (p_W P) (s_mod_erosion st) (s_mod_erosion st');
    mi_sfc_visit : mirror_image (p_L P) (p_W P) (s_sfc_visit st) (s_sfc_visit st');
    mi_sfc_sum : mirror_image (p_L P) (p_W P) (s_sfc_sum st) (s_sfc_sum st');
    mi_Hnew : mirror_image (p_L P) (p_W P) (s_Hnew st) (s_Hnew st');
    mi_cf : mirror_image (p_L P) (p_W P) (s_cf st) (s_cf st');
    mi_cell_type : mirror_image (p_L P) (p_W P) (s_cell_type st) (s_cell_type st');
    mi_H_SL : s_H_SL st' = s_H_SL st;
    mi_time : s_time st' = s_time st;
    mi_time_iter : s_time_iter st' = s_time_iter st;
    mi_since_data : s_save_time_since_data st' = s_save_time_since_data st;
    mi_since_checkpoint : s_save_time_since_checkpoint st' = s_save_time_since_checkpoint st;
    mi_save_iter : s_save_iter st' = s_save_iter st;
    mi_width : s_width st' = s_width st
}.

(** The mirror image of a state, with a generator in state s. *)
Definition mirror_of {S S' : Type} (P : params R) (s : S') (st : state R S) : state R S' :=
  let W := p_W P in
    mkState (fun i j => s_eta st i (flip W j)) (fun i j => s_eta0 st i (flip W j)) (fun i j => s_stage st i (flip W j))
      (fun i j => s_depth st i (flip W j)) (fun i j => s_qx st i (flip W j)) (fun i j => - s_qy st i (flip W j))%R
      (fun i j => s_qw st i (flip W j)) (fun i j => s_qxn st i (flip W j)) (fun i j => - s_qyn st i (flip W j))%R
      (fun i j => s_qwn st i (flip W j)) (fun i j => s_ux st i (flip W j)) (fun i j => - s_uy st i (flip W j))%R
      (fun i j => s_uw st i (flip W j)) (fun i j => s_qs st i (flip W j)) (fun i j => s_sand_frac st i (flip W j))
      (fun i j => s_active_layer st i (flip W j)) (fun i j => s_Vp_dep_sand st i (flip W j)) (fun i j => s_Vp_dep_mud st i (flip W j))
      (fun i j => s_mod_water_weight st i (flip W j)) (fun i j => s_mod_sed_weight st i (flip W j)) (fun i j => s_mod_erosion st i (flip W j))
      (fun i j => s_sfc_visit st i (flip W j)) (fun i j => s_sfc_sum st i (flip W j)) (fun i j => s_Hnew st i (flip W j))
      (fun i j => s_cf st i (flip W j)) (fun i j => s_cell_type st i (flip W j)) (s_H_SL st)
      (s_time st) (s_time_iter st) (s_save_time_since_data st)
      (s_save_time_since_checkpoint st) (s_save_iter st) (s_width st)
      s.
(** The ends of the upstream row are land. *)
Definition corners_land {S : Type} (P : params R) (st : state R S) : Prop :=
  s_cell_type st 0 0 = LAND /\ s_cell_type st 0 (p_W P - 1) = LAND.

(** A checkpoint and the mirror image of it. *)
Record mirror_checkpoint {S S' : Type} (P : params R) (c : checkpoint R S) (c' : checkpoint R S') : Prop := {
    mc_eta : mirror_image (p_L P) (p_W P) (c_eta c) (c_eta c');
    mc_depth : mirror_image (p_L P) (p_W P) (c_depth c) (c_depth c');
    mc_stage : mirror_image (p_L P) (p_W P) (c_stage c) (c_stage c');
    mc_uw : mirror_image (p_L P) (p_W P) (c_uw c) (c_uw c');
    mc_ux : mirror_image (p_L P) (p_W P) (c_ux c) (c_ux c');
    mc_uy : mirror_vector (p_L P) (p_W P) (c_uy c) (c_uy c');
    mc_qw : mirror_image (p_L P) (p_W P) (c_qw c) (c_qw c');
    mc_qx : mirror_image (p_L P) (p_W P) (c_qx c) (c_qx c');
    mc_qy : mirror_vector (p_L P) (p_W P) (c_qy c) (c_qy c');
    mc_sand_frac : mirror_image (p_L P) (p_W P) (c_sand_frac c) (c_sand_frac c');
    mc_active_layer : mirror_image (p_L P) (p_W P) (c_active_layer c) (c_active_layer c');
    mc_time : c_time c' = c_time c;
    mc_time_iter : c_time_iter c' = c_time_iter c;
    mc_save_iter : c_save_iter c' = c_save_iter c;
    mc_since_data : c_save_time_since_data c' = c_save_time_since_data c;
    mc_H_SL : c_H_SL c' = c_H_SL c
}.

(** What a run writes and the mirror image of it. *)
Inductive mirror_output {S S' : Type} (P : params R) : output R S -> output R S' -> Prop :=
| mirror_record k t st st' : mirror_state P st st' -> mirror_output P (Record_ k t st) (Record_ k t st')
| mirror_ckp c c' : mirror_checkpoint P c c' -> mirror_output P (Checkpoint c) (Checkpoint c').

(** A generator that returns given variates one after the other (and one half
    when none is left). *)
#[global] Instance tape : Rng R (list R) := {|
  draw := fun l => match l with [] => ((1 / 2)%R, []) | u :: l' => (u, l') end;
  seed_rng := fun _ => []
|}.
(** Variates a generator may return. *)
Definition variates (us : list R) : Prop := Forall (fun u => (0 < u < 1)%R) us.
