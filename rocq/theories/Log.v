(** Model of the run log: what a model writes to its log file and to the screen
    while it is constructed, updated and finalized — init_tools.py:41-74
    (init_logger), iteration_tools.py:117-143 (log_info, log_model_time) and
    the messages throughout model.py, init_tools.py, iteration_tools.py,
    water_tools.py and sed_tools.py.  The date and time at the head of a line,
    and the text of values, times and file names, are left out; an exception
    that the operating system raises while output is written is not modelled. *)
From Coq Require Import ZArith NArith List Bool String.
From Verif Require Import Base Shared Params State Water Sed Iter Inputs Init Session Dict Text Config.
Import ListNotations.
Local Open Scope string_scope.
Local Open Scope Z_scope.

(** A message; [TimeIs] is "Time: ...; timestep: ..." (iteration_tools.py:138),
    [ConfigIs] "Configuration variable `k`: v" (init_tools.py:257). *)
Inductive message (F : Type) : Type :=
| Note (text : string) | Caution (text : string)
| TimeIs (t : F) (step : Z) | ConfigIs (k : string) (v : value F).
Arguments Note {F}. Arguments Caution {F}. Arguments TimeIs {F}. Arguments ConfigIs {F}.

(** A line goes to the log file or to the screen. iteration_tools.py:117-130, init_tools.py:48-60. *)
Inductive entry (F : Type) : Type := ToFile (m : message F) | ToScreen (m : message F).
Arguments ToFile {F}. Arguments ToScreen {F}.

(** A piece of the program: the lines it writes and how it ends. iteration_tools.py:117-130. *)
Definition logged (F T : Type) : Type := (list (entry F) * result T)%type.
(** iteration_tools.py:117-130 *)
Definition lret {F T} (r : result T) : logged F T := ([], r).
(** iteration_tools.py:117-130 *)
Definition lbind {F T U} (m : logged F T) (k : T -> logged F U) : logged F U :=
  let (l, r) := m in
  match r with
  | Ok x => let (l', r') := k x in ((l ++ l')%list, r')
  | Err e => (l, Err e)
  end.
Notation "'lg' x <- m ; k" := (lbind m (fun x => k)) (at level 200, x pattern, right associativity).
Notation "'lg_' m ; k" := (lbind m (fun _ => k)) (at level 200, right associativity).

(** What the messages of construction mention besides the configuration:
    version, interpreter, platform, class, folder of the output file; and what
    is saved: whether figures, which grids, whether metadata
    (iteration_tools.py:256-324), whether an output file exists and may be
    replaced (init_tools.py:659-668). *)
Record surroundings : Type := mkSurr {
  e_version : string; e_python : string; e_platform : string; e_class : string; e_file : string;
  e_figures : bool; e_grids : list string; e_any_grids : bool; e_meta : bool;
  e_exists : bool; e_clobber : bool }.
(** init_tools.py:633-668 *)
Definition e_saving (e : surroundings) : bool := e_meta e || e_any_grids e.

(** str(z) of an integer — init_tools.py:274 *)
Definition pystrZ (z : Z) : string :=
  if z <? 0 then "-" ++ pystr (Z.to_N (- z)) else pystr (Z.to_N z).

Section Log.
  Context {F : Type} {A : Arith F} {S : Type} {G : Rng F S}.

  (** iteration_tools.py:117-130 (log_info); [v] is the verbosity of the
      model. *)
  Definition log_info (v verbosity : Z) (text : string) : logged F unit :=
    (if verbosity <=? v then [ToFile (Note text)] else [], Ok tt).
  (** The call at init_tools.py:258. *)
  Definition log_config (v : Z) (kv : string * value F) : logged F unit :=
    (if 0 <=? v then [ToFile (ConfigIs (fst kv) (snd kv))] else [], Ok tt).
  (** logger.warning — iteration_tools.py:180, init_tools.py:666, 923 *)
  Definition log_warning (text : string) : logged F unit := ([ToFile (Caution text)], Ok tt).
  (** iteration_tools.py:132-143 (log_model_time) *)
  Definition log_model_time (v : Z) (st : state F S) : logged F unit :=
    let m := TimeIs (s_time st) (s_time_iter st) in
    (ToFile m :: (if 0 <? v then [ToScreen m] else []), Ok tt).

  Section Update.
  Context (v : Z) (e : surroundings) (P : params F).
  Notation L := (p_L P).
  Notation W := (p_W P).

  (** water_tools.py:355-357 in check_size_of_indices_matrix *)
  Definition check_size_log (width step : Z) : logged F unit :=
    if width <=? step then log_info v 2 "Increasing size of self.free_surf_walk_inds"
    else lret (Ok tt).

  (** water_tools.py:118-201: one turn of the loop with its messages: 356-357,
      428-429 (update_Q), 464-465 (check_for_boundary), and update_Q again if
      a parcel is at the boundary (191-201). *)
  Definition water_step_log (weights : Z -> Z -> vec F) (stage : grid F) (H_SL : F)
      (cell_type : grid Z) (step : Z) (st : list parcel * qfields (F:=F) * Z * S)
      : logged F (list parcel * qfields (F:=F) * Z * S) :=
    let '(ps, q, width, s) := st in
    lg_ check_size_log width step;
    let width := check_size_of_indices_matrix P width step in
    lg (ps, s) <- lret (choose_next_directions P weights ps s);
    let ps := calculate_new_inds P ps in
    lg_ log_info v 2 "Updating flux fields after single parcel step";
    lg q <- lret (do q <- update_Q P q cur ps; update_Q P q new ps);
    lg ps <- lret (check_for_loops P stage H_SL step ps);
    lg_ log_info v 2 "Checking stepped parcels against boundary location";
    lg pbs <- lret (mapM (record_step P cell_type) ps);
    if step <? width then
      let ps := map fst pbs in
      lg_ (if existsb snd pbs then log_info v 2 "Updating flux fields after single parcel step"
           else lret (Ok tt));
      lg q <- lret (update_Q P q new (map fst (filter snd pbs)));
      lret (Ok (ps, q, width, s))
    else lret (Err IndexError).

  (** water_tools.py:117-201 *)
  Fixpoint water_loop_log (weights : Z -> Z -> vec F) (stage : grid F) (H_SL : F)
      (cell_type : grid Z) (fuel : nat) (step : Z)
      (st : list parcel * qfields (F:=F) * Z * S)
      : logged F (list parcel * qfields (F:=F) * Z * S) :=
    match fuel with
    | O => lret (Ok st)
    | Datatypes.S fuel' =>
        if any_active (fst (fst (fst st))) then
          lg st' <- water_step_log weights stage H_SL cell_type (step + 1) st;
          water_loop_log weights stage H_SL cell_type fuel' (step + 1) st'
        else lret (Ok st)
    end.

  (** water_tools.py:43-59, 76-201; messages at 45-46, 91-92, 393-394. *)
  Definition run_water_iteration_log (st : state F S)
    : logged F (list parcel * qfields (F:=F) * Z * S) :=
    lg_ log_info v 2 "Initializing water iteration";
    lg_ log_info v 2 "Beginning stepping of water parcels";
    lg (starts, s) <- lret (get_start_indices (p_inlet P) (get_inlet_weights (p_inlet P))
                              (p_Np_water P) (s_rng st));
    let q := (fancy_add zero_flat starts (fz 1), fancy_add zero_flat starts (fz 0),
              fancy_add zero_flat starts (half_flux P)) in
    if s_width st <=? 0 then lret (Err IndexError) else
    let ps := map (fun n => mkParcel n [n] true 4 0 false) starts in
    lg_ log_info v 2 "Computing water weight array";
    lg weights <- lret (get_water_weight_array P (s_depth st) (s_stage st) (s_mod_water_weight st)
                          (s_cell_type st) (s_qx st) (s_qy st));
    water_loop_log weights (s_stage st) (s_H_SL st) (s_cell_type st)
      (Z.to_nat (p_stepmax P)) 0 (ps, q, s_width st, s).

  (** water_tools.py:29-41; messages at 262-263, 309-310, 533-534, 331-332,
      477-478, 512-513. *)
  Definition water_iteration_log (iteration : Z) (st : state F S) : logged F (state F S) :=
    lg (ps, q, width, s) <- run_water_iteration_log st;
    let '(qxn, qyn, qwn) := q in
    let st := set_width width (set_rng s
      (set_qxn (fun i j => qxn (i * W + j))
      (set_qyn (fun i j => qyn (i * W + j))
      (set_qwn (fun i j => qwn (i * W + j)) st)))) in
    lg_ log_info v 2 "Computing free surface from water parcels";
    lg st <- lret (compute_free_surface P ps st);
    lg_ log_info v 2 "Smoothing and finalizing free surface";
    lg_ log_info v 2 "Computing flooding correction";
    lg_ log_info v 2 "Finalizing stepping of water parcels";
    lg_ log_info v 2 "Updating discharge fields after parcel stepping";
    lg_ log_info v 2 "Updating flow velocity fields after parcel stepping";
    lret (Ok (finalize_water_iteration P iteration st)).

  (** water_tools.py:26-41 *)
  Fixpoint water_iterations_log (n : nat) (it : Z) (st : state F S) : logged F (state F S) :=
    match n with
    | O => lret (Ok st)
    | Datatypes.S n' => lg st <- water_iteration_log it st; water_iterations_log n' (it + 1) st
    end.
  (** water_tools.py:11-41; message at 23-24. *)
  Definition route_water_log (st : state F S) : logged F (state F S) :=
    lg_ log_info v 2 "Beginning water iteration";
    water_iterations_log (Z.to_nat (p_itermax P)) 0 st.

  (** sed_tools.py:79-160 and 162-229; messages at 118-119, 127-128, 151-152
      and 186-187, 195-196, 218-219. *)
  Definition route_all_parcels_log (g : grain) (st : state F S) : logged F (state F S) :=
    lg_ log_info v 2 (match g with Sand => "Determining sand parcel start indicies"
                                 | Mud => "Determining mud parcel start indicies" end);
    lg (starts, s) <- lret (get_start_indices (p_inlet P) (get_inlet_weights (p_inlet P))
                              (num_starts P g) (s_rng st));
    lg_ log_info v 2 (match g with Sand => "Supplying model state to SandRouter for iteration"
                                 | Mud => "Supplying model state to MudRouter for iteration" end);
    lg (b, _, s') <- lret (route_parcels P g st starts (bed_of P st) s);
    lg_ log_info v 2 (match g with Sand => "Updating DeltaModel based on SandRouter change"
                                 | Mud => "Updating DeltaModel based on MudRouter change" end);
    lret (Ok (set_rng s' (put_bed P b st))).

  (** sed_tools.py:18-49; messages at 29-30, 68-69 (init_sediment_iteration),
      36-37, 41-42, 46-47. *)
  Definition route_sediment_log (st : state F S) : logged F (state F S) :=
    lg_ log_info v 2 "Beginning sediment iteration";
    lg_ log_info v 2 "Initializing water iteration";
    let st := init_sediment_iteration st in
    lg_ log_info v 2 "Beginning sand parcel routing";
    lg st <- route_all_parcels_log Sand st;
    lg_ log_info v 2 "Beginning topographic diffusion";
    let st := topo_diffusion P st in
    lg_ log_info v 2 "Beginning mud parcel routing";
    route_all_parcels_log Mud st.

  (** iteration_tools.py:23-46 *)
  Definition solve_log (st : state F S) : logged F (state F S) :=
    lg st <- route_water_log (set_eta0 (s_eta st) st);
    route_sediment_log st.

  (** iteration_tools.py:61-85; message at 82-83. *)
  Definition apply_subsidence_log (st : state F S) : logged F (state F S) :=
    lg_ (if p_toggle_subsidence P && fleb (p_start_subsidence P) (s_time st)
         then log_info v 1 "Applying subsidence" else lret (Ok tt));
    lret (Ok (apply_subsidence P st)).

  (** iteration_tools.py:87-115; messages at 102-103, water_tools.py:533-534,
      iteration_tools.py:194-195. *)
  Definition finalize_timestep_log (st : state F S) : logged F (state F S) :=
    lg_ log_info v 2 "Finalizing timestep";
    lg_ log_info v 2 "Computing flooding correction";
    lg_ log_info v 2 "Computing bed sand fraction";
    lret (Ok (finalize_timestep P st)).

  (** iteration_tools.py:433-434 in save_grids, for each grid (303-308). *)
  Fixpoint save_grids_log (names : list string) : logged F unit :=
    match names with
    | [] => lret (Ok tt)
    | k :: names' => lg_ log_info v 2 ("saving " ++ k ++ " grid"); save_grids_log names'
    end.

  (** iteration_tools.py:232-324; messages at 253-254, 261-262, 299-300,
      311-312, 321-322. *)
  Definition save_log (index : Z) : logged F unit :=
    lg_ log_info v 1 ("Saving data to output file: " ++ zfill 5 (pystr (Z.to_N index)));
    lg_ (if e_figures e then log_info v 2 "Saving figures" else lret (Ok tt));
    lg_ (if e_any_grids e then lg_ log_info v 2 "Saving grids"; save_grids_log (e_grids e)
         else lret (Ok tt));
    lg_ (if e_meta e then log_info v 2 "Saving metadata" else lret (Ok tt));
    if e_saving e then log_info v 2 "Syncing data to output file" else lret (Ok tt).

  (** iteration_tools.py:145-151 *)
  Definition output_data_log (st : state F S) : logged F (state F S * list (output F S)) :=
    lg_ (if ext_geb (s_save_time_since_data st) (p_save_dt P) then save_log (s_save_iter st)
         else lret (Ok tt));
    lret (Ok (output_data P st)).

  (** iteration_tools.py:175-178 *)
  Definition interval_warning : string :=
    "Grid save interval and checkpoint interval are not identical, this may result in duplicate entries in the output NetCDF4 after resuming the model run.".
  (** iteration_tools.py:153-182; messages at 168-169, 174-180. *)
  Definition output_checkpoint_log (st : state F S) : logged F (state F S * list (output F S)) :=
    lg_ (if ext_geb (s_save_time_since_checkpoint st) (p_checkpoint_dt P) && p_save_checkpoint P
         then lg_ log_info v 1 "Saving checkpoint";
              if negb (feqb (p_checkpoint_dt P) (p_save_dt P)) then log_warning interval_warning
              else lret (Ok tt)
         else lret (Ok tt));
    lret (Ok (output_checkpoint P st)).

  (** model.py:210-215 and 139-143 *)
  Definition write_output_log (st : state F S) : logged F (state F S * list (output F S)) :=
    lg (st, o1) <- output_data_log st;
    lg (st, o2) <- output_checkpoint_log st;
    lret (Ok (st, o1 ++ o2)%list).

  (** model.py:191-215 *)
  Definition update_log (st : state F S) : logged F (state F S * list (output F S)) :=
    lg st <- solve_log st;
    lg st <- apply_subsidence_log st;
    lg st <- finalize_timestep_log st;
    let st := advance_clock P st in
    lg_ log_model_time v st;
    write_output_log st.
  End Update.

  (** ** The calls of a session *)

  (** model.py:184-215; a finalized model raises before anything is logged. *)
  Definition model_update_log (v : Z) (e : surroundings) (m : model (F:=F) S)
    : logged F (model S * list (output F S)) :=
    if m_finalized m then lret (Err RuntimeError) else
    lg (st, o) <- update_log v e (m_P m) (m_st m);
    lret (Ok (mkModel (m_in m) (m_P m) st (m_finalized m), o)).

  (** model.py:217-246; [open]: the model has an output file (it has none when
      nothing is saved or output was deferred). *)
  Definition model_finalize_log (v : Z) (open : bool) (m : model (F:=F) S) : logged F (model S) :=
    lg_ log_info v 0 "Finalize the model run";
    if m_finalized m then lret (Err RuntimeError) else
    lg_ (if open then log_info v 1 "Closed output NetCDF4 file"
         else log_info v 0 "No output NetCDF4 file to close.");
    lret (model_finalize m).

  (** ** Construction *)

  (** init_tools.py:62-74 *)
  Definition init_logger_log (v : Z) (e : surroundings) : logged F unit :=
    lg_ log_info v 0 "Output log file initialized";
    lg_ log_info v 0 ("pyDeltaRCM version " ++ e_version e);
    lg_ log_info v 0 ("Python version " ++ e_python e);
    log_info v 0 ("Platform: " ++ e_platform e).

  (** init_tools.py:256-258 *)
  Fixpoint config_log (v : Z) (c : dict (value F)) : logged F unit :=
    match c with
    | [] => lret (Ok tt)
    | kv :: c' => lg_ log_config v kv; config_log v c'
    end.

  (** init_tools.py:244-258 *)
  Definition process_input_log (v : Z) (e : surroundings) (resuming : bool) (c : dict (value F))
      (inp : inputs F) : logged F (inputs F) :=
    lg_ log_info v 0 "Setting up model configuration";
    lg_ log_info v 0 ("Model type is: " ++ e_class e);
    lg inp <- lret (process_input_to_model inp);
    lg_ (if resuming then lret (Ok tt) else config_log v c);
    lret (Ok inp).

  (** init_tools.py:260-275; message at 274-275. *)
  Definition determine_random_seed_log {N} {GN : NpRng N} (v : Z) (inp : inputs F) (np : N)
    : logged F (inputs F * S * N) :=
    let '(inp, s, np) := determine_random_seed (G:=G) inp np in
    lg_ log_info v 0 ("Random seed is: " ++
          match i_seed inp with Some z => pystrZ z | None => "None" end ++ " ");
    lret (Ok (inp, s, np)).

  (** model.py:99-127; messages at init_tools.py:291-292, 351-352, 479-480,
      588-589, 772-773. *)
  Definition construct_log {N} {GN : NpRng N} (v : Z) (e : surroundings) (resuming : bool)
      (c : dict (value F)) (inp : inputs F) (nb : S) (np : N) : logged F (model S * N) :=
    lg_ init_logger_log v e;
    lg inp <- process_input_log v e resuming c inp;
    lg (inp, s, np) <- determine_random_seed_log v inp np;
    lg_ log_info v 1 "Setting other variables";
    lg_ log_info v 1 "Setting model constants";
    lg P <- lret (create_boundary_conditions inp (create_other_variables inp));
    lg_ log_info v 1 "Creating model domain";
    lg (P, st) <- lret (create_domain inp P s);
    lg_ log_info v 1 "Initializing sediment routers";
    lg_ log_info v 1 "Initializing subsidence";
    let P := init_subsidence inp (init_sediment_routers P) in
    lret (Ok (mkModel inp P st false, np)).

  (** init_tools.py:633-757; messages at 644-645, 656-657, 665-666, 756-757. *)
  Definition init_output_file_log (v : Z) (e : surroundings) (exists_ : bool) : logged F unit :=
    lg_ log_info v 1 "Initializing output NetCDF4 file";
    if e_saving e then
      lg_ log_info v 2 ("Target output NetCDF4 file: " ++ e_file e);
      if exists_ && negb (e_clobber e) then lret (Err FileExistsError) else
      lg_ (if exists_ then log_warning "Replacing existing netCDF file" else lret (Ok tt));
      log_info v 2 "Output netCDF file created"
    else lret (Ok tt).

  (** model.py:145-147 *)
  Definition complete_log (v : Z) (st : state F S) : logged F unit :=
    lg_ log_info v 0 "Model initialization complete";
    log_model_time v st.

  (** model.py:78-147: a model that does not resume; [c] is the configuration
      import_files found (model.py:98, before there is a log). *)
  Definition new_model_log {N} {GN : NpRng N} (v : Z) (e : surroundings) (defer : bool)
      (c : dict (value F)) (nb : S) (np : N) : logged F (model S * list (output F S) * N) :=
    lg inp <- lret (inputs_of c);
    lg (m, np) <- construct_log v e false c inp nb np;
    if defer then
      lg_ complete_log v (m_st m);
      lret (Ok (m, [], np))
    else
      lg_ init_output_file_log v e (e_exists e);
      lg (st, o) <- write_output_log v e (m_P m) (m_st m);
      lg_ complete_log v st;
      lret (Ok (mkModel (m_in m) (m_P m) st false, o, np)).

  (** init_tools.py:839-997; messages at 875-879, 884-885, 908-909, 919-923,
      945-946, 951-952, 996-997. *)
  Definition load_checkpoint_log (v : Z) (e : surroundings) (defer : bool) (ck : checkpoint F S)
      (st : state F S) : logged F (state F S) :=
    lg_ log_info v 0 "Loading from checkpoint.";
    lg_ log_info v 2 "Locating checkpoint file";
    lg_ log_info v 2 "Loading variables and grids into model";
    let missing := e_saving e && negb defer && negb (e_exists e) in
    lg st <- lret (load_checkpoint ck missing st);
    lg_ log_info v 2 "Loading random state";
    lg_ (if e_saving e && negb defer then
           if negb (e_exists e) then
             lg_ log_warning "NetCDF4 output file not found, but was expected. Creating a new output file.";
             init_output_file_log v e false
           else
             lg_ log_info v 2 "Renaming old NetCDF4 output file";
             log_info v 2 "Creating NetCDF4 output file"
         else lret (Ok tt));
    lg_ log_info v 1 "Successfully loaded checkpoint.";
    lret (Ok st).

  (** model.py:78-147: a model that resumes. *)
  Definition resume_log {N} {GN : NpRng N} (v : Z) (e : surroundings) (defer : bool)
      (c : dict (value F)) (ck : checkpoint F S) (nb : S) (np : N) : logged F (model S * N) :=
    lg inp <- lret (inputs_of c);
    lg (m, np) <- construct_log v e true c inp nb np;
    lg st <- load_checkpoint_log v e defer ck (m_st m);
    lg_ complete_log v st;
    lret (Ok (mkModel (m_in m) (m_P m) st (m_finalized m), np)).

  (** n calls of update. model.py:149-215, repeated. *)
  Fixpoint updates_log (v : Z) (e : surroundings) (P : params F) (n : nat) (st : state F S)
    : logged F (state F S * list (output F S)) :=
    match n with
    | O => lret (Ok (st, []))
    | Datatypes.S n' =>
        lg (st1, o1) <- update_log v e P st;
        lg (st2, o2) <- updates_log v e P n' st1;
        lret (Ok (st2, o1 ++ o2)%list)
    end.

  (** A new model and n updates of it. model.py:37-215. *)
  Definition run_model_log {N} {GN : NpRng N} (v : Z) (e : surroundings) (c : dict (value F))
      (nb : S) (np : N) (n : nat) : logged F (state F S * list (output F S)) :=
    lg (m, o, _) <- new_model_log v e false c nb np;
    lg (st, o') <- updates_log v e (m_P m) n (m_st m);
    lret (Ok (st, o ++ o')%list).
End Log.

(** ** Text of the time step *)

(** Digits of a number, most significant first, without trailing zeros. iteration_tools.py:132-143 (the format of numbers). *)
Fixpoint strip0 (n : nat) (m : N) : N :=
  match n with
  | O => m
  | Datatypes.S n' => if (m mod 10 =? 0)%N then strip0 n' (m / 10)%N else m
  end.
(** Division rounded half to even. iteration_tools.py:132-143. *)
Definition div_half_even (n d : N) : N :=
  let q := (n / d)%N in
  let r := (2 * (n mod d))%N in
  if (d <? r)%N || ((r =? d)%N && N.odd q) then (q + 1)%N else q.
(** "{:g}".format(n) for an integer 0 <= n < 2^53 — iteration_tools.py:138-140:
    six significant digits, exponent notation from 10^6 on. *)
Definition pyg (n : N) : string :=
  if (n <? 1000000)%N then pystr n else
  let e := N.of_nat (String.length (pystr n) - 1) in
  let m := div_half_even n (10 ^ (e - 5)) in
  let '(m, e) := if (m =? 1000000)%N then (100000%N, (e + 1)%N) else (m, e) in
  match pystr (strip0 5 m) with
  | EmptyString => EmptyString
  | String c rest =>
      String c (match rest with EmptyString => "" | _ => "." ++ rest end) ++ "e+" ++ zfill 2 (pystr e)
  end.

(** ** The file of the log *)

(** logging.getLogger(name) returns the same logger for the same name, and
    addHandler adds a handler to it every time — init_tools.py:49-60.  [log
    files and handlers]: for each logger the number of its handlers, and the
    lines of each file; a logger and its file are both named after the folder
    and the second of construction. *)
Record logs (F : Type) : Type := mkLogs { handlers : string -> nat; lines : string -> list (message F) }.
Arguments mkLogs {F}. Arguments handlers {F}. Arguments lines {F}.
(** init_tools.py:48-60 *)
Definition init_logger {F} (name : string) (w : logs F) : logs F :=
  mkLogs (fun n => if String.eqb n name then Datatypes.S (handlers w n) else handlers w n) (lines w).
(** logger.info and logger.warning: every handler appends the line. init_tools.py:48-60, iteration_tools.py:117-130. *)
Definition emit {F} (name : string) (m : message F) (w : logs F) : logs F :=
  mkLogs (handlers w)
    (fun n => if String.eqb n name then (lines w n ++ repeat m (handlers w n))%list else lines w n).
(** iteration_tools.py:117-130 *)
Fixpoint emits {F} (name : string) (l : list (message F)) (w : logs F) : logs F :=
  match l with [] => w | m :: l' => emits name l' (emit name m w) end.
