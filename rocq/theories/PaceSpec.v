(** The pace of a run (C83): water that flows [a] times as fast and brings
    sediment [b] times as fast.  Exact real arithmetic. *)
From Coq Require Import ZArith List Reals.
From Verif Require Import Base Params State Iter Inputs Init.
Import ListNotations.
Local Open Scope R_scope.

(** Every value of a field [c] times as large. *)
Definition scaled (c : R) (g : grid R) : grid R := fun i j => c * g i j.

(** A span of time [b] times as short. *)
Definition sooner (b : R) (t : ext R) : ext R :=
  match t with Inf => Inf | Fin x => Fin (x / b) end.

(** ** The same delta at another pace: the velocities and discharges are [a]
    times as large, the sand flux [b] times, the clock [b] times as slow; bed,
    water depth, water surface, sea level, deposits, sand fractions, cell
    types, the number of updates and records, and the random numbers are the
    same. *)
Definition paced {S} (a b : R) (st : state R S) : state R S :=
  {| s_eta := s_eta st; s_eta0 := s_eta0 st; s_stage := s_stage st;
     s_depth := s_depth st; s_qx := scaled a (s_qx st); s_qy := scaled a (s_qy st);
     s_qw := scaled a (s_qw st); s_qxn := scaled a (s_qxn st); s_qyn := scaled a (s_qyn st);
     s_qwn := scaled a (s_qwn st); s_ux := scaled a (s_ux st); s_uy := scaled a (s_uy st);
     s_uw := scaled a (s_uw st); s_qs := scaled b (s_qs st); s_sand_frac := s_sand_frac st;
     s_active_layer := s_active_layer st; s_Vp_dep_sand := s_Vp_dep_sand st; s_Vp_dep_mud := s_Vp_dep_mud st;
     s_mod_water_weight := s_mod_water_weight st; s_mod_sed_weight := s_mod_sed_weight st; s_mod_erosion := s_mod_erosion st;
     s_sfc_visit := s_sfc_visit st; s_sfc_sum := s_sfc_sum st; s_Hnew := s_Hnew st;
     s_cf := s_cf st; s_cell_type := s_cell_type st; s_H_SL := s_H_SL st;
     s_time := s_time st / b; s_time_iter := s_time_iter st; s_save_time_since_data := sooner b (s_save_time_since_data st);
     s_save_time_since_checkpoint := sooner b (s_save_time_since_checkpoint st); s_save_iter := s_save_iter st; s_width := s_width st;
     s_rng := s_rng st |}.

(** What is written at another pace. *)
Definition paced_checkpoint {S} (a b : R) (c : checkpoint R S) : checkpoint R S :=
  mkCkp (c_time c / b) (c_time_iter c) (c_save_iter c) (sooner b (c_save_time_since_data c))
    (c_eta c) (c_depth c) (c_stage c) (scaled a (c_uw c)) (scaled a (c_ux c)) (scaled a (c_uy c))
    (scaled a (c_qw c)) (scaled a (c_qx c)) (scaled a (c_qy c)) (c_sand_frac c) (c_active_layer c)
    (c_H_SL c) (c_rng c).
(** A record carries its number, the model time and the fields. *)
Definition paced_output {S} (a b : R) (o : output R S) : output R S :=
  match o with
  | Record_ k t st => Record_ k (t / b) (paced a b st)
  | Checkpoint c => Checkpoint (paced_checkpoint a b c)
  end.
(** A result at another pace: the same exception, or the same fields and
    files at that pace. *)
Definition paced_result {S} (a b : R) (r : result (state R S * list (output R S)))
  : result (state R S * list (output R S)) :=
  match r with
  | Ok (st, o) => Ok (paced a b st, map (paced_output a b) o)
  | Err e => Err e
  end.

(** ** The constants of a model at another pace: speeds and discharges [a]
    times, sediment discharges and the rise of the sea [b] times, the concentration [b / a] times; the time
    step, the diffusion per step, and the times and intervals the user gives,
    divided by [b]. *)
Definition paced_params (a b : R) (P : params R) : params R :=
  (setp_u0 (a * p_u0 P)
  (setp_u_max (a * p_u_max P)
  (setp_C0 (b / a * p_C0 P)
  (setp_Qw0 (a * p_Qw0 P)
  (setp_qw0 (a * p_qw0 P)
  (setp_Qp_water (a * p_Qp_water P)
  (setp_qs0 (b * p_qs0 P)
  (setp_Qs0 (b * p_Qs0 P)
  (setp_dt (p_dt P / b)
  (setp_diffusion_multiplier (p_diffusion_multiplier P / b)
  (setp_U_dep_mud (a * p_U_dep_mud P)
  (setp_U_ero_sand (a * p_U_ero_sand P)
  (setp_U_ero_mud (a * p_U_ero_mud P)
  (setp_SLR (b * p_SLR P)
  (setp_start_subsidence (p_start_subsidence P / b)
  (setp_save_dt (p_save_dt P / b)
  (setp_checkpoint_dt (p_checkpoint_dt P / b) P))))))))))))))))).

(** ** A configuration at another pace. *)
Definition paced_config (a b : R) (c : inputs R) : inputs R :=
  (seti_u0 (a * i_u0 c)
  (seti_C0_percent (b / a * i_C0_percent c)
  (seti_SLR (b * i_SLR c)
  (seti_subsidence_rate (b * i_subsidence_rate c)
  (seti_start_subsidence (i_start_subsidence c / b)
  (seti_save_dt (i_save_dt c / b)
  (seti_checkpoint_dt (option_map (fun t => t / b) (i_checkpoint_dt c)) c))))))).

(** A model at another pace. *)
Definition paced_model {S} (a b : R) (m : model S) : model S :=
  mkModel (paced_config a b (m_in m)) (paced_params a b (m_P m)) (paced a b (m_st m)) (m_finalized m).
