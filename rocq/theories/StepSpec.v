(** A whole time step written out as rules over the reals (C64, C65): the
    routes of the water parcels, what a turn of water routing makes of every
    field, and how the parts of a step follow one another. *)
From Coq Require Import ZArith List Bool Reals.
From Verif Require Import Base Params State Water Sed VecLemmas SharedSpec WaterSpec WeightSpec SurfaceSpec
  WaterRules ChanceSpec SedSpec SedRules IterSpec.
Import ListNotations.
Local Open Scope R_scope.

(** ** Flooding of the shore *)
Section Flood.
  Context (P : params R) (depth eta stage : grid R) (i j : Z).

  Definition is_wet (a b : Z) : bool :=
    inbb (p_L P) (p_W P) a b && if Rlt_dec (p_dry_depth P) (depth a b) then true else false.
  Definition wet_at (k : nat) : bool := is_wet (nb_row i k) (nb_col j k).
  (** What direction k offers: the stage of a wet neighbour, else zero. *)
  Definition offered (k : nat) : R := if wet_at k then stage (nb_row i k) (nb_col j k) else 0.
  Definition highest : R :=
    Rmax (offered 0) (Rmax (offered 1) (Rmax (offered 2) (Rmax (offered 3)
      (Rmax (offered 5) (Rmax (offered 6) (Rmax (offered 7) (offered 8))))))).
  (** A dry cell with a wet neighbour takes the highest level offered, when it
      is above its bed. *)
  Definition flooded : R :=
    if is_wet i j then stage i j
    else if existsb wet_at [0; 1; 2; 3; 5; 6; 7; 8]%nat
    then if Rlt_dec (eta i j) highest then highest else stage i j
    else stage i j.
End Flood.

(** ** Routes of the water parcels *)
Section Routes.
  Context {S : Type} {G : Rng R S} (P : params R) (st : state R S).
  Notation L := (p_L P).
  Notation W := (p_W P).

  (** The probabilities w are those of the routing rule. *)
  Definition by_rule (w : Z -> Z -> nat -> R) : Prop :=
    forall i j, inb L W i j ->
    let score := water_score P (s_depth st) (s_stage st) (s_mod_water_weight st) (s_cell_type st) (s_qx st) (s_qy st) i j in
    let ways := wet_inside P (s_depth st) (s_cell_type st) i j in
    (0 < sum9 score -> forall k, (k < 9)%nat -> w i j k = score k / sum9 score) /\
    (sum9 score = 0 -> s_cell_type st i j <> LAND ->
      ((exists k, (k < 9)%nat /\ ways k) -> equal_chances ways (w i j)) /\
      ((forall k, (k < 9)%nat -> ~ ways k) ->
         equal_chances (fun k => at_nb L W (s_cell_type st) i j k <> LAND) (w i j))).

  (** The cell direction k leads to (0: the parcel stays). *)
  Definition aim (p : parcel) (k : nat) : Z :=
    if Nat.eqb k 4 then 0%Z else (cur p + (Z.of_nat k / 3 - 1) * W + (Z.of_nat k mod 3 - 1))%Z.
  (** A parcel about to revisit a cell of its path jumps on. *)
  Definition jumps_on (step : Z) (p p' : parcel) : Prop :=
    (p_L0 P < step)%Z -> revisits P (aim p (dir p')) (walk p) ->
    forall i j, at_cell L W (aim p (dir p')) i j ->
    exists px py, jump_target P i j px py /\ new p' = (px * W + py)%Z.

  Definition step_rule (w : Z -> Z -> nat -> R) (step : Z) (p p' : parcel) : Prop :=
    step_rel (fun x => x) P (s_cell_type st) w (s_stage st) (s_H_SL st) step p p' /\ jumps_on step p p'.

  (** All parcels step together until none is left or the last step; s is the
      stream of variates. *)
  Inductive routes (w : Z -> Z -> nat -> R) : Z -> list parcel -> S -> list (list parcel) -> list parcel -> S -> Prop :=
  | routes_end step ps s : step = p_stepmax P \/ Forall (fun p => cur p = 0%Z) ps -> routes w step ps s [] ps s
  | routes_on step ps ps1 tr ps' s s1 s' : (step < p_stepmax P)%Z -> Exists (fun p => cur p <> 0%Z) ps ->
      turns_drawn P w ps (map dir ps1) s s1 -> Forall2 (step_rule w (step + 1)) ps ps1 ->
      routes w (step + 1) ps1 s1 tr ps' s' -> routes w step ps s (ps1 :: tr) ps' s'.
End Routes.

(** ** A turn of water routing *)
Section Turn.
  Context {S : Type} {G : Rng R S} (P : params R).
  Notation L := (p_L P).
  Notation W := (p_W P).

  (** Counts of the visits of the parcels: direction and discharge. *)
  Record visits (ct : grid Z) (starts : list Z) (tr : list (list parcel)) (vx vy vq : grid R) : Prop := {
    vi_x : forall i j, vx i j = at_start starts (i * W + j)
      + trace_sum (fun a b => credited P ct drow a b (i * W + j)) (start_parcels starts) tr;
    vi_y : forall i j, vy i j = trace_sum (fun a b => credited P ct dcol a b (i * W + j)) (start_parcels starts) tr;
    vi_q : forall i j, vq i j = p_Qp_water P / p_dx P / 2 * (at_start starts (i * W + j)
      + trace_sum (fun a b => credits P ct a b (i * W + j)) (start_parcels starts) tr)
  }.
  (** The discharge along the direction of the visits: component v of (vx, vy)
      scaled to the discharge. *)
  Definition directed (vx vy vq v : R) : R :=
    let r := sqrt (vx * vx + vy * vy) in if Rlt_dec 0 r then vq / r * v else v.
  (** The new value, under-relaxed after the first step. *)
  Definition relax (first : bool) (omega new old : R) : R :=
    if first then new else omega * new + (1 - omega) * old.
  Definition entry (i j : Z) : bool := (i =? 0)%Z && existsb (fun c => c =? j)%Z (p_inlet P).

  Record water_turn (it : Z) (st st' : state R S) : Prop := {
    wt_levels : exists w starts s tr ps vx vy vq surface levels,
      by_rule P st w /\
      Z.of_nat (List.length starts) = p_Np_water P /\ entries (p_inlet P) starts (s_rng st) s /\
      routes P st w 0 (start_parcels starts) s tr ps (s_rng st') /\
      visits (s_cell_type st) starts tr vx vy vq /\
      (** the surface of the water: mean level along the paths, at least the
          sea and the bed *)
      (forall i j, surface i j = Rmax (Rmax (mean_level P st ps i j) (s_H_SL st)) (s_eta st i j)) /\
      (** smoothed, relaxed after the first step *)
      (forall i j, inb L W i j -> levels i j =
         if (0 <? s_time_iter st)%Z then
           (1 - p_omega_sfc P) * s_stage st i j + p_omega_sfc P *
             Nat.iter (Z.to_nat (p_Nsmooth P)) (smoothed L W (p_Csmooth P) (s_cell_type st)) surface i j
         else s_stage st i j) /\
      (** flooded onto the shore, at least the sea *)
      (forall i j, inb L W i j -> s_stage st' i j =
         Rmax (flooded P (s_depth st) (s_eta st) levels i j) (s_H_SL st)) /\
      (** discharge *)
      (let first := negb (0 <? s_time_iter st)%Z in
       let omega := if (it =? 0)%Z then p_omega_flow P else p_omega_flow_iter P in
       forall i j,
         s_qx st' i j = (if entry i j then p_qw0 P
           else relax first omega (directed (vx i j) (vy i j) (vq i j) (vx i j)) (s_qx st i j)) /\
         s_qy st' i j = (if entry i j then 0
           else relax first omega (directed (vx i j) (vy i j) (vq i j) (vy i j)) (s_qy st i j)));
    wt_depth : forall i j, s_depth st' i j = Rmax (s_stage st' i j - s_eta st i j) 0;
    wt_discharge : forall i j, s_qw st' i j = if entry i j then p_qw0 P
      else sqrt (s_qx st' i j * s_qx st' i j + s_qy st' i j * s_qy st' i j);
    wt_speed : forall i j, speed_rule P st' i j;
    wt_frame : water_frame st st'
  }.

  Inductive water_turns : nat -> Z -> state R S -> state R S -> Prop :=
  | no_turn it st : water_turns 0 it st st
  | next_turn n it st st1 st' : water_turn it st st1 -> water_turns n (it + 1) st1 st' ->
      water_turns (Datatypes.S n) it st st'.
End Turn.

(** ** A time step *)
Section Step.
  Context {S : Type} {G : Rng R S} (P : params R).

  (** The bed after subsidence. *)
  Definition subsided (st : state R S) (sinks : Prop) (i j : Z) (b : R) : Prop :=
    (sinks -> b = s_eta st i j - p_sigma P i j) /\ (~ sinks -> b = s_eta st i j).

  (** A step: water turns, sediment, subsidence, levels; then the sand
      fractions, sea level, and clock. *)
  Record time_step (st st' : state R S) : Prop := {
    ts_parts : exists sw s0 s1 s2 sd bed,
      water_turns P (Z.to_nat (p_itermax P)) 0 (set_eta0 (s_eta st) st) sw /\
      cleared sw s0 /\ carried P Sand s0 s1 /\ smeared P s1 s2 /\ carried P Mud s2 sd /\
      (forall i j, subsided sd (subsides P st) i j (bed i j)) /\
      (forall i j, inb (p_L P) (p_W P) i j -> s_stage st' i j =
         Rmax (flooded P (s_depth sd) bed (s_stage sd) i j) (s_H_SL st)) /\
      (forall i j, ~ inlet_cell P i j -> s_eta st' i j = bed i j) /\
      (s_rng st' = s_rng sd /\ s_uw st' = s_uw sd /\ s_ux st' = s_ux sd /\ s_uy st' = s_uy sd /\
       s_qw st' = s_qw sd /\ s_qx st' = s_qx sd /\ s_qy st' = s_qy sd /\ s_qs st' = s_qs sd /\
       s_Vp_dep_sand st' = s_Vp_dep_sand sd /\ s_Vp_dep_mud st' = s_Vp_dep_mud sd);
    ts_end : step_end (fun x => x) P st st';
    ts_fractions : forall i j, inb (p_L P) (p_W P) i j -> fraction_rule P st st' i j
  }.
End Step.
