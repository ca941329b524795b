(** Model of a session with a constructed model: update and finalize
    (model.py:149-246), the public boundary-condition attributes
    (model.py:1378-1501) and resuming from a checkpoint (model.py:129-132,
    init_tools.py:839-930). *)
From Coq Require Import ZArith List Bool.
From Verif Require Import Base Shared Params State Water Sed Iter Inputs Init.
Import ListNotations.
Local Open Scope Z_scope.

Section Session.
  Context {F : Type} {A : Arith F} {S : Type} {G : Rng F S}.

  (** ** Life cycle *)

  (** model.py:184-215 (update) *)
  Definition model_update (m : model (F:=F) S) : result (model S * list (output F S)) :=
    if m_finalized m then Err RuntimeError else
    do (st, o) <- update (m_P m) (m_st m);
    Ok (mkModel (m_in m) (m_P m) st (m_finalized m), o).

  (** model.py:217-246 (finalize); closing the output file is not modelled.
      An exception while closing is caught and logged. *)
  Definition model_finalize (m : model (F:=F) S) : result (model S) :=
    if m_finalized m then Err RuntimeError
    else Ok (mkModel (m_in m) (m_P m) (m_st m) true).

  (** ** Public attributes.  A setter that raises part of the way leaves the
      attributes it assigned before; here it has no effect. *)

  (** model.py:1378-1395 (time_step); the warning is not modelled. *)
  Definition get_time_step (m : model (F:=F) S) : F := p_dt (m_P m).
  (** Its setter, same lines. *)
  Definition set_time_step (x : F) (m : model (F:=F) S) : result (model S) :=
    let P := m_P m in
    let P1 := if p_toggle_subsidence P
              then setp_sigma (fun i j => fmul (fdiv (p_sigma P i j) (p_dt P)) x) P else P in
    Ok (mkModel (m_in m) (init_sediment_routers (setp_dt x P1)) (m_st m) (m_finalized m)).

  (** The two calls at model.py:1431-1432, 1443-1444, 1462-1463, 1500-1501. *)
  Definition rebuild (inp : inputs F) (P : params F) (m : model (F:=F) S) : result (model S) :=
    do P <- create_boundary_conditions inp P;
    Ok (mkModel inp (init_sediment_routers P) (m_st m) (m_finalized m)).

  (** model.py:1424-1432 (channel_flow_velocity) *)
  Definition get_channel_flow_velocity (m : model (F:=F) S) : F := p_u0 (m_P m).
  (** Its setter, same lines. *)
  Definition set_channel_flow_velocity (x : F) (m : model (F:=F) S) : result (model S) :=
    rebuild (seti_u0 x (m_in m)) (setp_u0 x (m_P m)) m.

  (** model.py:1434-1452 (channel_width) *)
  Definition get_channel_width (m : model (F:=F) S) : F := fmul (fz (p_N0 (m_P m))) (i_dx (m_in m)).
  (** Its setter, same lines. *)
  Definition set_channel_width (x : F) (m : model (F:=F) S) : result (model S) :=
    do inp <- set_N0_meters x (m_in m);
    rebuild inp (m_P m) m.

  (** model.py:1454-1463 (channel_flow_depth) *)
  Definition get_channel_flow_depth (m : model (F:=F) S) : F := p_h0 (m_P m).
  (** Its setter, same lines. *)
  Definition set_channel_flow_depth (x : F) (m : model (F:=F) S) : result (model S) :=
    rebuild (seti_h0 x (m_in m)) (setp_h0 x (m_P m)) m.

  (** model.py:1465-1472 (sea_surface_mean_elevation) *)
  Definition get_sea_surface_mean_elevation (m : model (F:=F) S) : F := s_H_SL (m_st m).
  (** Its setter, same lines. *)
  Definition set_sea_surface_mean_elevation (x : F) (m : model (F:=F) S) : result (model S) :=
    Ok (mkModel (m_in m) (m_P m) (set_H_SL x (m_st m)) (m_finalized m)).

  (** model.py:1474-1481 (sea_surface_elevation_change) *)
  Definition get_sea_surface_elevation_change (m : model (F:=F) S) : F := p_SLR (m_P m).
  (** Its setter, same lines. *)
  Definition set_sea_surface_elevation_change (x : F) (m : model (F:=F) S) : result (model S) :=
    Ok (mkModel (seti_SLR x (m_in m)) (setp_SLR x (m_P m)) (m_st m) (m_finalized m)).

  (** model.py:1483-1490 (bedload_fraction): the routers are not rebuilt. *)
  Definition get_bedload_fraction (m : model (F:=F) S) : F := p_f_bedload (m_P m).
  (** Its setter, same lines. *)
  Definition set_bedload_fraction (x : F) (m : model (F:=F) S) : result (model S) :=
    do inp <- set_f_bedload x (m_in m);
    Ok (mkModel inp (setp_f_bedload x (m_P m)) (m_st m) (m_finalized m)).

  (** model.py:1492-1501 (influx_sediment_concentration) *)
  Definition get_influx_sediment_concentration (m : model (F:=F) S) : F := i_C0_percent (m_in m).
  (** Its setter, same lines. *)
  Definition set_influx_sediment_concentration (x : F) (m : model (F:=F) S) : result (model S) :=
    do inp <- set_C0_percent (fmul x (fz 100)) (m_in m);
    rebuild inp (m_P m) m.

  (** ** Resuming *)

  (** init_tools.py:888-911 and 918-928: values restored from the checkpoint.
      [missing]: output is to be written but the output file does not exist.
      int() of an infinite value raises. *)
  Definition load_checkpoint (c : checkpoint F S) (missing : bool) (st : state F S)
    : result (state F S) :=
    match c_save_time_since_data c with
    | Inf => Err OverflowError
    | Fin x =>
        let st := set_save_time_since_data (Fin (fz (ftrunc x)))
          (set_save_iter (c_save_iter c) (set_time_iter (c_time_iter c)
          (set_H_SL (c_H_SL c) (set_time (c_time c) st)))) in
        let st := set_active_layer (c_active_layer c) (set_sand_frac (c_sand_frac c)
          (set_qy (c_qy c) (set_qx (c_qx c) (set_qw (c_qw c)
          (set_uy (c_uy c) (set_ux (c_ux c) (set_uw (c_uw c)
          (set_stage (c_stage c) (set_depth (c_depth c) (set_eta (c_eta c) st)))))))))) in
        let st := set_rng (c_rng c) st in
        Ok (if missing then set_save_iter 0 st else st)
    end.

  (** model.py:99-132: construction of a model that resumes; nothing is
      written. *)
  Definition resume {N} {GN : NpRng N} (inp : inputs F) (c : checkpoint F S) (missing : bool)
      (nb : S) (np : N) : result (model S * N) :=
    do (m, np) <- construct inp nb np;
    do st <- load_checkpoint c missing (m_st m);
    Ok (mkModel (m_in m) (m_P m) st (m_finalized m), np).
End Session.
