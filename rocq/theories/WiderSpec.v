(** Horizontal distances (C86): the same delta on cells [k] times as wide.
    Exact real arithmetic. *)
From Coq Require Import ZArith List Reals.
From Verif Require Import Base Params State Iter Inputs Init PaceSpec.
Import ListNotations.
Local Open Scope R_scope.

(** A span of time [k] times as long. *)
Definition later (k : R) (t : ext R) : ext R :=
  match t with Inf => Inf | Fin x => Fin (k * x) end.

(** ** The configuration on cells [k] times as wide: every horizontal distance
    is [k] times as long, and the slope [k] times as gentle, so that heights
    are the same; the diffusion coefficient is [k] times as large; times and
    intervals are [k] times as long, and rates of rise and subsidence [k]
    times as slow.  Depths, speeds, concentration and everything else are the
    same. *)
Definition wider_config (k : R) (c : inputs R) : inputs R :=
  (seti_Length (k * i_Length c)
  (seti_Width (k * i_Width c)
  (seti_dx (k * i_dx c)
  (seti_L0_meters (k * i_L0_meters c)
  (seti_N0_meters (k * i_N0_meters c)
  (seti_S0 (i_S0 c / k)
  (seti_alpha (k * i_alpha c)
  (seti_SLR (i_SLR c / k)
  (seti_subsidence_rate (i_subsidence_rate c / k)
  (seti_start_subsidence (k * i_start_subsidence c)
  (seti_save_dt (k * i_save_dt c)
  (seti_checkpoint_dt (option_map (fun t => k * t) (i_checkpoint_dt c)) c)))))))))))).

(** The constants of a model on such cells: volumes are [k * k] times as
    large, discharges of the whole inlet [k] times. *)
Definition wider_params (k : R) (P : params R) : params R :=
  (setp_dx (k * p_dx P)
  (setp_S0 (p_S0 P / k)
  (setp_V0 (k * k * p_V0 P)
  (setp_Qw0 (k * p_Qw0 P)
  (setp_Qp_water (k * p_Qp_water P)
  (setp_dVs (k * k * p_dVs P)
  (setp_Qs0 (k * p_Qs0 P)
  (setp_Vp_sed (k * k * p_Vp_sed P)
  (setp_dt (k * p_dt P)
  (setp_SLR (p_SLR P / k)
  (setp_start_subsidence (k * p_start_subsidence P)
  (setp_save_dt (k * p_save_dt P)
  (setp_checkpoint_dt (k * p_checkpoint_dt P) P))))))))))))).

(** ** The same delta on such cells: bed, water surface, depth, sea level,
    velocities, discharges and sand flux per unit width, cell types, the
    numbers of updates and records, and the random numbers are the same; the
    volumes laid down in each cell are [k * k] times as large and the clock
    shows [k] times the time.  The sand fractions are left open: they depend
    on a fixed volume (see [C86_sand_fraction_refuted]). *)
Record wider {S} (k : R) (st st' : state R S) : Prop := {
  wi_eta : s_eta st' = s_eta st;
  wi_eta0 : s_eta0 st' = s_eta0 st;
  wi_stage : s_stage st' = s_stage st;
  wi_depth : s_depth st' = s_depth st;
  wi_qx : s_qx st' = s_qx st;
  wi_qy : s_qy st' = s_qy st;
  wi_qw : s_qw st' = s_qw st;
  wi_qxn : s_qxn st' = s_qxn st;
  wi_qyn : s_qyn st' = s_qyn st;
  wi_qwn : s_qwn st' = s_qwn st;
  wi_ux : s_ux st' = s_ux st;
  wi_uy : s_uy st' = s_uy st;
  wi_uw : s_uw st' = s_uw st;
  wi_qs : s_qs st' = s_qs st;
  wi_Vp_dep_sand : s_Vp_dep_sand st' = scaled (k * k) (s_Vp_dep_sand st);
  wi_Vp_dep_mud : s_Vp_dep_mud st' = scaled (k * k) (s_Vp_dep_mud st);
  wi_mod_water_weight : s_mod_water_weight st' = s_mod_water_weight st;
  wi_mod_sed_weight : s_mod_sed_weight st' = s_mod_sed_weight st;
  wi_mod_erosion : s_mod_erosion st' = s_mod_erosion st;
  wi_sfc_visit : s_sfc_visit st' = s_sfc_visit st;
  wi_sfc_sum : s_sfc_sum st' = s_sfc_sum st;
  wi_Hnew : s_Hnew st' = s_Hnew st;
  wi_cf : s_cf st' = s_cf st;
  wi_cell_type : s_cell_type st' = s_cell_type st;
  wi_H_SL : s_H_SL st' = s_H_SL st;
  wi_time : s_time st' = k * s_time st;
  wi_time_iter : s_time_iter st' = s_time_iter st;
  wi_save_time_since_data : s_save_time_since_data st' = later k (s_save_time_since_data st);
  wi_save_time_since_checkpoint : s_save_time_since_checkpoint st' = later k (s_save_time_since_checkpoint st);
  wi_save_iter : s_save_iter st' = s_save_iter st;
  wi_width : s_width st' = s_width st;
  wi_rng : s_rng st' = s_rng st
}.

(** The same for a checkpoint. *)
Record wider_checkpoint {S} (k : R) (c c' : checkpoint R S) : Prop := {
  wc_time : c_time c' = k * c_time c;
  wc_time_iter : c_time_iter c' = c_time_iter c;
  wc_save_iter : c_save_iter c' = c_save_iter c;
  wc_since : c_save_time_since_data c' = later k (c_save_time_since_data c);
  wc_eta : c_eta c' = c_eta c;
  wc_depth : c_depth c' = c_depth c;
  wc_stage : c_stage c' = c_stage c;
  wc_uw : c_uw c' = c_uw c; wc_ux : c_ux c' = c_ux c; wc_uy : c_uy c' = c_uy c;
  wc_qw : c_qw c' = c_qw c; wc_qx : c_qx c' = c_qx c; wc_qy : c_qy c' = c_qy c;
  wc_H_SL : c_H_SL c' = c_H_SL c;
  wc_rng : c_rng c' = c_rng c
}.
(** The same kind of file, with the same number, at [k] times the time. *)
Definition wider_output {S} (k : R) (o o' : output R S) : Prop :=
  match o, o' with
  | Record_ n t st, Record_ n' t' st' => n' = n /\ t' = k * t /\ wider k st st'
  | Checkpoint c, Checkpoint c' => wider_checkpoint k c c'
  | _, _ => False
  end.
(** The same exception, or the same delta and the same files on wider cells. *)
Definition wider_result {S} (k : R) (r r' : result (state R S * list (output R S))) : Prop :=
  match r, r' with
  | Ok (st, o), Ok (st', o') => wider k st st' /\ Forall2 (wider_output k) o o'
  | Err e, Err e' => e' = e
  | _, _ => False
  end.
