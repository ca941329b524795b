(** Specification vocabulary for the sediment properties (C19-C26, C55). *)
From Coq Require Import ZArith List Bool Reals.
From Verif Require Import Base Shared VecLemmas SharedSpec Params State Sed WaterSpec.
Import ListNotations.
Local Open Scope R_scope.

(** Sum of a field over the grid. *)
Definition gsum (L W : Z) (f : grid R) : R :=
  rsum (map (fun c => f (fst c) (snd c)) (cells L W)).

(** One stop of a parcel: it left (ev_i0, ev_j0) for the position (ev_px,
    ev_py), which denotes the grid cell (ev_i, ev_j), arriving with volume ev_V
    when the fields were ev_b; it put the volume ev_dV on the bed (negative:
    erosion) and left the fields ev_b'. *)
Record event : Type := mkEvent {
  ev_i0 : Z; ev_j0 : Z; ev_px : Z; ev_py : Z; ev_i : Z; ev_j : Z;
  ev_V : R; ev_dV : R; ev_b : bed R; ev_b' : bed R
}.

Section Walks.
  Context (rnd : R -> R) {S : Type} (P : params R) (g : grain) (st : state R S).
  Notation L := (p_L P).
  Notation W := (p_W P).
  Notation A := (RA rnd).

  (** The volume change of the model at a cell. *)
  Definition volume_change (b : bed R) (V : R) (i j : Z) : R :=
    match g with
    | Sand => sand_change (A:=A) P st b V i j
    | Mud => mud_change (A:=A) P st b V i j
    end.

  (** e is a possible next stop of a parcel carrying V among the fields b. *)
  Record stop (b : bed R) (V : R) (e : event) : Prop := {
    st_from : inb L W (ev_i0 e) (ev_j0 e);
    st_move : exists w k, sed_weights (A:=A) P g st b (ev_i0 e) (ev_j0 e) = Ok w /\
      (k < 9)%nat /\ k <> 4%nat /\ 0 < w k /\
      ev_px e = nb_row (ev_i0 e) k /\ ev_py e = nb_col (ev_j0 e) k;
    st_cell : ev_i e = wrap L (ev_px e) /\ ev_j e = wrap W (ev_py e) /\ inb L W (ev_i e) (ev_j e);
    st_V : ev_V e = V;
    st_b : ev_b e = match g with
      | Sand => set_qs_bed b (add_at (A:=A) (add_at (A:=A) (b_qs b) (ev_i0 e) (ev_j0 e) (flux_part (A:=A) P V))
                    (ev_i e) (ev_j e) (flux_part (A:=A) P V))
      | Mud => b
      end;
    st_dV : ev_dV e = volume_change (ev_b e) V (ev_i e) (ev_j e);
    st_b' : ev_b' e = fst (deposit_or_erode (A:=A) P g st (ev_b e) V (ev_px e) (ev_py e) (ev_i e) (ev_j e))
  }.

  (** Walk of one parcel with n steps left: it stops at the first edge cell or
      when no step is left. *)
  Inductive sed_walk : nat -> Z -> Z -> bed R -> R -> list event -> bed R -> R -> Prop :=
  | sw_last n i j b V e : ev_i0 e = i -> ev_j0 e = j -> stop b V e ->
      s_cell_type st (ev_i e) (ev_j e) = EDGE \/ n = O ->
      sed_walk (Datatypes.S n) i j b V [e] (ev_b' e) (rnd (V - ev_dV e))
  | sw_next n i j b V e es b' V' : ev_i0 e = i -> ev_j0 e = j -> stop b V e ->
      s_cell_type st (ev_i e) (ev_j e) <> EDGE -> n <> O ->
      sed_walk n (ev_px e) (ev_py e) (ev_b' e) (rnd (V - ev_dV e)) es b' V' ->
      sed_walk (Datatypes.S n) i j b V (e :: es) b' V'.

  (** Fields when a parcel enters at column c of the first row. *)
  Definition entry_bed (b : bed R) (c : Z) : bed R :=
    match g with
    | Sand => set_qs_bed b (add_at (A:=A) (b_qs b) 0 c (flux_part (A:=A) P (p_Vp_sed P)))
    | Mud => b
    end.

  (** The walks of all parcels, one after the other, and the volume each still
      carries at its end. *)
  Inductive sed_history : list Z -> bed R -> list (list event) -> bed R -> list R -> Prop :=
  | sh_nil b : sed_history [] b [] b []
  | sh_cons c cs b es b1 V1 hs b' Vs :
      sed_walk (Z.to_nat (p_stepmax P)) 0 c (entry_bed b c) (p_Vp_sed P) es b1 V1 ->
      sed_history cs b1 hs b' Vs ->
      sed_history (c :: cs) b (es :: hs) b' (V1 :: Vs).
End Walks.

(** ** Conditions *)
Section Ready.
  Context (rnd : R -> R) {S : Type} {G : Rng R S} (P : params R).

  (** What sediment routing needs of the domain. *)
  Record sed_ready (st : state R S) : Prop := {
    sd_domain : walk_domain (p_L P) (p_W P) (p_L0 P) (s_cell_type st) (p_inlet P);
    sd_open : forall i j, inb (p_L P) (p_W P) i j ->
      s_cell_type st i j <> LAND -> s_cell_type st i j <> EDGE ->
      exists k, (k < 9)%nat /\ k <> 4%nat /\ at_nb (p_L P) (p_W P) (s_cell_type st) i j k <> LAND;
    sd_stepmax : (1 <= p_stepmax P)%Z
  }.

  (** Nothing the routers divide by is zero. *)
  Record divisors_ok : Prop := {
    dv_dt : p_dt P <> 0;
    dv_dx : p_dx P <> 0;
    dv_area : rnd (p_dx P * p_dx P) <> 0;
    dv_u0 : rnd (npow (p_u0 P) (p_beta P)) <> 0;
    dv_ero_sand : rnd (npow (p_U_ero_sand P) (p_beta P)) <> 0;
    dv_ero_mud : rnd (npow (p_U_ero_mud P) (p_beta P)) <> 0;
    dv_dep_mud : rnd (npow (p_U_dep_mud P) (p_beta P)) <> 0
  }.

  (** Every variate drawn for a direction is positive. *)
  Definition sed_picks (g : grain) (st : state R S) : Prop :=
    forall b i j w s, inb (p_L P) (p_W P) i j ->
      sed_weights (A:=RA rnd) P g st b i j = Ok w ->
      0 < rnd (last (cumsum (A:=RA rnd) (map w D9)) 0 * fst (draw s)).

  (** Physical constants and modifiers in their documented ranges. *)
  Record sed_physics (st : state R S) : Prop := {
    sp_dx : 0 < p_dx P;
    sp_Vp : 0 <= p_Vp_sed P;
    sp_u0 : 0 < p_u0 P;
    sp_beta : 0 <= p_beta P;
    sp_ero_sand : 0 < p_U_ero_sand P;
    sp_ero_mud : 0 < p_U_ero_mud P;
    sp_mod : forall i j, 0 <= s_mod_erosion st i j
  }.
End Ready.

(** Speeds and discharges as water routing leaves them. *)
Record sed_flow {S : Type} (P : params R) (st : state R S) : Prop := {
  fl_umax : 0 <= p_u_max P;
  fl_qw : forall i j, inb (p_L P) (p_W P) i j -> 0 <= s_qw st i j;
  fl_uw : forall i j, inb (p_L P) (p_W P) i j -> 0 <= s_uw st i j <= p_u_max P
}.

(** Some parcel stopped at cell (i, j). *)
Definition touched (hs : list (list event)) (i j : Z) : Prop :=
  exists e, In e (concat hs) /\ ev_i e = i /\ ev_j e = j.

(** ** Claims about a stop *)
Section Claims.
  Context {S : Type} (P : params R) (st : state R S).

  (** Water column at the stop before the change. *)
  Definition column (e : event) : R := s_stage st (ev_i e) (ev_j e) - b_eta (ev_b e) (ev_i e) (ev_j e).
  (** A quarter of it as a volume. *)
  Definition quarter (e : event) : R := Rabs (column e) / 4 * (p_dx P * p_dx P).
  Definition speed (e : event) : R := b_uw (ev_b e) (ev_i e) (ev_j e).
  (** Sand transport capacity of the cell. *)
  Definition capacity (e : event) : R :=
    p_qs0 P * p_f_bedload_router P / npow (p_u0 P) (p_beta P) * npow (speed e) (p_beta P).
  Definition carried_flux (e : event) : R := b_qs (ev_b e) (ev_i e) (ev_j e).
  (** Volume the flow could erode, before the limit. *)
  Definition erodible (U_ero : R) (e : event) : R :=
    s_mod_erosion st (ev_i e) (ev_j e) * p_Vp_sed P
      * (npow (speed e) (p_beta P) - npow U_ero (p_beta P)) / npow U_ero (p_beta P).

  (** At most a quarter of the column; nothing deposited on a bed above water;
      a deposit never reaches the water surface. *)
  Definition limited (e : event) : Prop :=
    Rabs (ev_dV e) <= quarter e /\
    (column e < 0 -> ev_dV e <= 0) /\
    (0 < ev_dV e -> b_eta (ev_b' e) (ev_i e) (ev_j e) <= s_stage st (ev_i e) (ev_j e)).

  (** The bed of the stop changes by the volume put down, no other cell
      changes. *)
  Definition bed_changed (e : event) : Prop :=
    b_eta (ev_b' e) (ev_i e) (ev_j e)
      = b_eta (ev_b e) (ev_i e) (ev_j e) + ev_dV e / (p_dx P * p_dx P) /\
    forall a b, (a, b) <> (ev_i e, ev_j e) -> b_eta (ev_b' e) a b = b_eta (ev_b e) a b.

  (** When sand is deposited or eroded, and how much. *)
  Inductive sand_rule (e : event) : R -> Prop :=
  | sand_deposits : capacity e < carried_flux e -> 0 <= column e ->
      sand_rule e (Rmin (ev_V e) (quarter e))
  | sand_above_water : capacity e < carried_flux e -> column e < 0 -> sand_rule e 0
  | sand_erodes : carried_flux e < capacity e -> p_U_ero_sand P < speed e ->
      sand_rule e (- Rmin (erodible (p_U_ero_sand P) e) (quarter e))
  | sand_passes : carried_flux e <= capacity e ->
      speed e <= p_U_ero_sand P \/ carried_flux e = capacity e -> sand_rule e 0.

  (** Fraction of a mud parcel's load that settles at this speed. *)
  Definition settling (e : event) : R :=
    (npow (p_U_dep_mud P) (p_beta P) - npow (speed e) (p_beta P)) / npow (p_U_dep_mud P) (p_beta P).

  Inductive mud_rule (e : event) : R -> Prop :=
  | mud_erodes : p_U_ero_mud P < speed e ->
      mud_rule e (- Rmin (erodible (p_U_ero_mud P) e) (quarter e))
  | mud_deposits : speed e <= p_U_ero_mud P -> speed e < p_U_dep_mud P -> 0 <= column e ->
      mud_rule e (Rmin (p_lambda P * ev_V e * settling e) (quarter e))
  | mud_above_water : speed e <= p_U_ero_mud P -> speed e < p_U_dep_mud P -> column e < 0 ->
      mud_rule e 0
  | mud_passes : speed e <= p_U_ero_mud P -> p_U_dep_mud P <= speed e -> mud_rule e 0.

  (** Only the record of the parcel's own grain changes, by the volume put
      down when that is positive. *)
  Definition deposit_recorded (g : grain) (e : event) : Prop :=
    let old (f : bed R -> grid R) := f (ev_b e) in
    let upd (f : grid R) : grid R := fun a b =>
      if ((a =? ev_i e) && (b =? ev_j e))%Z then f a b + Rmax 0 (ev_dV e) else f a b in
    match g with
    | Sand => (forall a b, b_sand (ev_b' e) a b = upd (old b_sand) a b)
        /\ b_mud (ev_b' e) = b_mud (ev_b e)
    | Mud => (forall a b, b_mud (ev_b' e) a b = upd (old b_mud) a b)
        /\ b_sand (ev_b' e) = b_sand (ev_b e)
    end.

  (** Where a parcel may step: to a neighbour in the grid that is not land; or
      upwards out of the first row. *)
  Definition legal_step (e : event) : Prop :=
    (neighbour (ev_i0 e) (ev_j0 e) (ev_px e) (ev_py e) /\ inb (p_L P) (p_W P) (ev_px e) (ev_py e)
       /\ ev_i e = ev_px e /\ ev_j e = ev_py e /\ s_cell_type st (ev_i e) (ev_j e) <> LAND) \/
    (ev_i0 e = 0%Z /\ ev_px e = (-1)%Z /\ (0 <= ev_py e < p_W P)%Z /\ (Z.abs (ev_py e - ev_j0 e) <= 1)%Z
       /\ ev_i e = (p_L P - 1)%Z /\ ev_j e = ev_py e).

  Definition escapes (e : event) : Prop := ev_px e = (-1)%Z.
End Claims.

(** ** Diffusion *)
Section Diffusion.
  Context {S : Type} (P : params R) (st : state R S).
  Notation L := (p_L P).
  Notation W := (p_W P).

  (** Cells diffusion may change. *)
  Definition diffusible (i j : Z) : Prop :=
    inb L W i j /\ s_cell_type st i j <> LAND /\ i <> 0%Z.

  (** Elevation that cell (a, b) gives to cell (i, j) in one pass. *)
  Definition exchange (eta : grid R) (i j a b : Z) : R :=
    p_diffusion_multiplier P * (s_qs st i j + s_qs st a b) * (eta a b - eta i j).

  (** Number of the eight neighbours outside the grid. *)
  Definition outside_count (i j : Z) : Z :=
    Z.of_nat (List.length (filter (fun k => negb (Nat.eqb k 4) && negb (inbb L W (nb_row i k) (nb_col j k))) D9)).
  (** Elevation lost through the grid border. *)
  Definition border_loss (eta : grid R) (i j : Z) : R :=
    p_diffusion_multiplier P * s_qs st i j * eta i j * IZR (outside_count i j).

  Definition neighbourb (i j a b : Z) : bool :=
    ((Z.abs (a - i) <=? 1) && (Z.abs (b - j) <=? 1) && negb ((a =? i) && (b =? j)))%Z.

  (** Total received by (i, j) from its neighbours satisfying f. *)
  Definition received (f : Z -> Z -> bool) (eta : grid R) (i j : Z) : R :=
    gsum L W (fun a b => if neighbourb i j a b && f a b then exchange eta i j a b else 0).

  Definition diffusibleb (i j : Z) : bool :=
    (inbb L W i j && negb (s_cell_type st i j =? LAND) && negb (i =? 0))%Z.
End Diffusion.

(** [hs] are the walks of a completed routing call of grain g that turned st
    into st' and left the residual volumes Vs. *)
Definition routed (rnd : R -> R) {S : Type} (P : params R) (g : grain) (st st' : state R S)
    (Vs : list R) (hs : list (list event)) : Prop :=
  exists starts b' s',
    Z.of_nat (List.length starts) = Z.max 0 (num_starts (A:=RA rnd) P g) /\
    Forall (fun c => In c (p_inlet P)) starts /\
    sed_history rnd P g st starts (bed_of (A:=RA rnd) P st) hs b' Vs /\
    st' = set_rng s' (put_bed P b' st).

(** Sediment routing leaves everything else as it was. *)
Definition sed_frame {F S : Type} (st st' : state F S) : Prop :=
  s_stage st' = s_stage st /\ s_qx st' = s_qx st /\ s_qy st' = s_qy st /\ s_qw st' = s_qw st /\
  s_cell_type st' = s_cell_type st /\ s_H_SL st' = s_H_SL st /\ s_time st' = s_time st /\
  s_time_iter st' = s_time_iter st /\ s_eta0 st' = s_eta0 st /\
  s_sand_frac st' = s_sand_frac st /\ s_active_layer st' = s_active_layer st /\
  s_mod_water_weight st' = s_mod_water_weight st /\ s_mod_sed_weight st' = s_mod_sed_weight st /\
  s_mod_erosion st' = s_mod_erosion st /\ s_width st' = s_width st /\
  s_save_time_since_data st' = s_save_time_since_data st /\
  s_save_time_since_checkpoint st' = s_save_time_since_checkpoint st /\
  s_save_iter st' = s_save_iter st /\
  s_qxn st' = s_qxn st /\ s_qyn st' = s_qyn st /\ s_qwn st' = s_qwn st /\
  s_sfc_visit st' = s_sfc_visit st /\ s_sfc_sum st' = s_sfc_sum st /\ s_Hnew st' = s_Hnew st.

(** The flow at the first-row cell points straight into the domain and no
    modifier closes the cells below it. *)
Definition straight_in {S} (st : state R S) (e : event) : Prop :=
  0 < s_qx st 0%Z (ev_j0 e) /\ s_qy st 0%Z (ev_j0 e) = 0 /\
  forall d : Z, (-1 <= d <= 1)%Z -> 0 < s_mod_sed_weight st 1%Z (ev_j0 e + d)%Z.

(** The three cells below are land or dry when the parcel leaves. *)
Definition blocked_below {S} (P : params R) (st : state R S) (e : event) : Prop :=
  forall d : Z, (-1 <= d <= 1)%Z ->
    s_cell_type st 1%Z (ev_j0 e + d)%Z = LAND \/ b_depth (ev_b e) 1%Z (ev_j0 e + d)%Z <= p_dry_depth P.

(** What a parcel of this grain needs to keep a non-negative load. *)
Definition lag_ok (P : params R) (g : grain) : Prop :=
  match g with Sand => True | Mud => 0 <= p_lambda P <= 1 end.

(** The parts of one sediment step: sand, diffusion, mud. *)
Definition sed_parts (rnd : R -> R) {S : Type} {G : Rng R S} (P : params R)
    (st st1 st2 st' : state R S) (Vs1 Vs2 : list R) : Prop :=
  route_all_parcels_res (A:=RA rnd) P Sand (init_sediment_iteration (A:=RA rnd) st) = Ok (st1, Vs1) /\
  st2 = topo_diffusion (A:=RA rnd) P st1 /\
  route_all_parcels_res (A:=RA rnd) P Mud st2 = Ok (st', Vs2).
