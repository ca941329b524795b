(** Specification vocabulary for the water properties. *)
From Coq Require Import ZArith List Bool Reals.
From Verif Require Import Base Shared VecLemmas SharedSpec Params State Water.
Import ListNotations.
Local Open Scope R_scope.

(** A probability distribution over the nine directions. *)
Definition distribution9 (w : nat -> R) : Prop :=
  (forall k, (k < 9)%nat -> 0 <= w k) /\ sum9 w = 1.

(** Cell type codes. *)
Definition LAND : Z := (-2)%Z.
Definition EDGE : Z := (-1)%Z.

(** Row and column of the neighbour in direction k (0..8, row-major around the
    cell, 4 is the cell itself). *)
Definition nb_row (i : Z) (k : nat) : Z := (i + Z.of_nat k / 3 - 1)%Z.
Definition nb_col (j : Z) (k : nat) : Z := (j + Z.of_nat k mod 3 - 1)%Z.

(** The value of a field at the neighbour k of (i, j) (the nearest domain cell
    if that neighbour is outside). *)
Definition at_nb {T} (L W : Z) (g : grid T) (i j : Z) (k : nat) : T :=
  nearest L W g (nb_row i k) (nb_col j k).

(** What the walks need of the domain: non-land, non-edge cells do not touch
    the left, right and bottom borders, the last row is edge, land lies in the
    first L0 rows, inlet cells are neither land nor edge. *)
Record walk_domain (L W L0 : Z) (ct : grid Z) (inlet : list Z) : Prop := {
  wd_L0 : (1 <= L0 <= L - 2)%Z;
  wd_W : (3 <= W)%Z;
  wd_interior : forall i j, inb L W i j -> ct i j <> LAND -> ct i j <> EDGE ->
    (i <= L - 2 /\ 1 <= j <= W - 2)%Z;
  wd_last : forall j, (0 <= j < W)%Z -> ct (L - 1)%Z j = EDGE;
  wd_land : forall i j, inb L W i j -> ct i j = LAND -> (i < L0)%Z;
  wd_inlet : forall c, In c inlet -> (0 <= c < W)%Z /\ ct 0%Z c <> LAND /\ ct 0%Z c <> EDGE;
  wd_inlet_ne : inlet <> nil
}.

(** The flat index n denotes cell (i, j). *)
Definition at_cell (L W n i j : Z) : Prop := n = (i * W + j)%Z /\ inb L W i j.

(** A parcel that is still being routed: on a cell that is neither land nor
    edge. *)
Definition active (L W : Z) (ct : grid Z) (n : Z) : Prop :=
  exists i j, at_cell L W n i j /\ ct i j <> LAND /\ ct i j <> EDGE.

(** Number of elements of a list satisfying a test. *)
Definition count {T} (f : T -> bool) (l : list T) : Z :=
  Z.of_nat (List.length (List.filter f l)).
(** Sum of a flat field over cells 0 .. n-1. *)
Definition fsum (n : Z) (q : Z -> R) : R := rsum (List.map q (zrange n)).

(** ** Walks of water parcels *)
Section WalkSpec.
  Local Open Scope Z_scope.
  Context (rnd : R -> R) (P : params R) (ct : grid Z) (w : Z -> Z -> vec R).
  Notation L := (p_L P).
  Notation W := (p_W P).

  (** What one choice of direction does to a parcel standing at n. *)
  Inductive move (n : Z) : nat -> Z -> Prop :=
  | move_retired : n = 0 -> move n 4 0
  | move_stay i j : at_cell L W n i j -> ct i j <> LAND -> ct i j <> EDGE ->
      (0 < w i j 4%nat)%R -> move n 4 0
  | move_step i j k : at_cell L W n i j -> ct i j <> LAND -> ct i j <> EDGE ->
      (k < 9)%nat -> k <> 4%nat -> (0 < w i j k)%R ->
      inb L W (nb_row i k) (nb_col j k) -> ct (nb_row i k) (nb_col j k) <> LAND ->
      move n k (nb_row i k * W + nb_col j k)
  | move_escape j k : at_cell L W n 0 j -> ct 0 j <> LAND -> ct 0 j <> EDGE ->
      (k < 3)%nat -> (0 < w 0 j k)%R -> 0 <= nb_col j k < W ->
      move n k (- W + nb_col j k).

  Definition standing (p : parcel) : Prop := cur p = 0 \/ active L W ct (cur p).

  (** Valid next indices: 0, a non-land cell, or the ghost row above row 0. *)
  Definition next_ok (n : Z) : Prop :=
    n = 0 \/ (exists i j, at_cell L W n i j /\ ct i j <> LAND) \/ (- W <= n < 0).

  (** The new index n revisits the recorded path, outside the land strip. *)
  Definition revisits (n : Z) (path : list Z) : Prop :=
    0 < n /\ p_L0 P * W <= n /\ In n path.

  (** The position and flag of a parcel after the loop correction. *)
  Inductive loop_rel (stage : grid R) (H_SL : R) (n : Z) (path : list Z) : Z -> bool -> Prop :=
  | loop_none : ~ revisits n path -> loop_rel stage H_SL n path n false
  | loop_moved i j px py f : revisits n path -> at_cell L W n i j ->
      p_L0 P <= px <= L - 2 -> 1 <= py <= W - 2 ->
      f = negb (Rltb (Rabs (rnd (stage i j - H_SL))) (rnd (rnd 1 / rnd 10))) ->
      loop_rel stage H_SL n path (px * W + py) f.

  (** Full description of what one step does to one parcel. *)
  Record step_rel (stage : grid R) (H_SL : R) (step : Z) (p p' : parcel) : Prop := {
    sr_dir : (dir p' < 9)%nat;
    sr_standing : standing p';
    sr_target : exists n1, move (cur p) (dir p') n1 /\
      ((step <= p_L0 P /\ new p' = n1 /\ looped p' = false) \/
       (p_L0 P < step /\ loop_rel stage H_SL n1 (walk p) (new p') (looped p')));
    sr_next : next_ok (new p');
    sr_flag : fflag p' = fflag p && negb (looped p');
    sr_record : exists b : bool, cur p' = (if b then 0 else new p') /\
      walk p' = (if looped p' && b then 0 else new p') :: walk p /\
      (new p' < 0 -> b = true) /\
      (forall i j, at_cell L W (new p') i j -> (b = true <-> ct i j = EDGE))
  }.

  (** Successive parcel lists, each obtained from the previous one by one
      step of every parcel. *)
  Inductive steps (stage : grid R) (H_SL : R) : Z -> list parcel -> list (list parcel) -> list parcel -> Prop :=
  | steps_nil step ps : steps stage H_SL step ps [] ps
  | steps_cons step ps ps1 tr ps' : Forall2 (step_rel stage H_SL (step + 1)) ps ps1 ->
      steps stage H_SL (step + 1) ps1 tr ps' -> steps stage H_SL step ps (ps1 :: tr) ps'.

End WalkSpec.

(** ** Discharge budget *)
Section BudgetSpec.
  Local Open Scope Z_scope.
  Context (P : params R).
  Notation L := (p_L P).
  Notation W := (p_W P).

  (** The parcel took a step. *)
  Definition moved (p : parcel) : bool := negb (Nat.eqb (dir p) 4).
  (** The cell a flat index denotes, negative indices counted from the end. *)
  Definition denotes (n m : Z) : bool := wrap (L * W) n =? m.
  (** The flat index denotes an edge cell. *)
  Definition edge_at (ct : grid Z) (n : Z) : bool :=
    let n' := wrap (L * W) n in ct (n' / W) (n' mod W) =? EDGE.
  Definition arrived (ct : grid Z) (p : parcel) : bool := moved p && edge_at ct (new p).

  (** Half fluxes added to cell m by one parcel in one step: one at the cell it
      leaves, one at the cell it steps to, one more at a boundary arrival. *)
  Definition gain (ct : grid Z) (pp : parcel * parcel) (m : Z) : Z :=
    let (p, p') := pp in
    (if moved p' && denotes (cur p) m then 1 else 0)
    + (if moved p' && denotes (cur p + ravel_walk_flat W (dir p')) m then 1 else 0)
    + (if arrived ct p' && denotes (new p') m then 1 else 0).

  (** Discharge added by the steps of a trace, in half fluxes. *)
  Definition trace_gain (ct : grid Z) (tr : list (list parcel)) : Z :=
    fold_right Z.add 0%Z (map (fun ps => 2 * count moved ps + count (arrived ct) ps)%Z tr).

End BudgetSpec.

(** ** Conditions on the state *)
Section ReadySpec.
  Local Open Scope Z_scope.
  Context {S : Type} {G : Rng R S} (rnd : R -> R) (P : params R).
  Notation L := (p_L P).
  Notation W := (p_W P).

  Definition start_parcels (starts : list Z) : list parcel :=
    map (fun n => mkParcel n [n] true 4 0 false) starts.

  (** Conditions under which the routing of water is well defined. *)
  Record water_ready (st : state R S) : Prop := {
    wr_domain : walk_domain L W (p_L0 P) (s_cell_type st) (p_inlet P);
    wr_L0 : 2 <= p_L0 P;
    wr_CTR : 0 <= p_CTR P < W;
    wr_stepmax : 4 <= p_stepmax P;
    wr_width : 1 <= s_width st;
    wr_Np : 0 <= p_Np_water P;
    wr_gamma : (0 <= p_gamma P <= 1)%R
  }.

  (** Every variate drawn for a direction is positive. *)
  Definition positive_picks (st : state R S) (w : Z -> Z -> vec R) : Prop :=
    forall i j s, inb L W i j -> s_cell_type st i j <> LAND ->
     (0 < rnd (last (cumsum (A:=RA rnd) (map (w i j) D9)) 0 * fst (draw s)))%R.

End ReadySpec.

(** Everything water routing must leave alone. *)
Definition water_frame {F S : Type} (st st' : state F S) : Prop :=
  s_eta st' = s_eta st /\ s_eta0 st' = s_eta0 st /\ s_qs st' = s_qs st /\
  s_sand_frac st' = s_sand_frac st /\ s_active_layer st' = s_active_layer st /\
  s_Vp_dep_sand st' = s_Vp_dep_sand st /\ s_Vp_dep_mud st' = s_Vp_dep_mud st /\
  s_mod_water_weight st' = s_mod_water_weight st /\ s_mod_sed_weight st' = s_mod_sed_weight st /\
  s_mod_erosion st' = s_mod_erosion st /\ s_cell_type st' = s_cell_type st /\
  s_H_SL st' = s_H_SL st /\ s_time st' = s_time st /\ s_time_iter st' = s_time_iter st /\
  s_save_time_since_data st' = s_save_time_since_data st /\
  s_save_time_since_checkpoint st' = s_save_time_since_checkpoint st /\
  s_save_iter st' = s_save_iter st.

(** ** Water surface and flow *)
Section SurfaceSpec.
  Context {S : Type} (rnd : R -> R) (P : params R).
  Notation L := (p_L P).
  Notation W := (p_W P).

  (** The cell (i, j) lies on the qualifying path of parcel p, upstream of its
      last recorded cell. *)
  Definition on_path (ct : grid Z) (p : parcel) (i j : Z) : Prop :=
    fflag p = true /\
    exists n rest, filter (fun n => 0 <? n)%Z (walk p) = n :: rest /\
      ct (n / W)%Z (n mod W)%Z = EDGE /\ exists m, In m rest /\ at_cell L W m i j.

  (** Recorded indices are usable: every positive entry is a cell of the grid
      and there is at least one. *)
  Definition walk_usable (p : parcel) : Prop :=
    Forall (fun n => (0 < n)%Z -> (n < L * W)%Z) (walk p) /\ Exists (fun n => (0 < n)%Z) (walk p).

  (** A wet cell. *)
  Definition wet (depth : grid R) (i j : Z) : Prop := p_dry_depth P < depth i j.

  (** A cell that does not touch the grid border. *)
  Definition interior (i j : Z) : Prop := (1 <= i <= L - 2 /\ 1 <= j <= W - 2)%Z.

  (** A neighbour (a, b) of (i, j). *)
  Definition neighbour (i j a b : Z) : Prop :=
    (Z.abs (a - i) <= 1 /\ Z.abs (b - j) <= 1)%Z /\ (a, b) <> (i, j).

  (** The relations a water iteration establishes between stage, depth, bed
      and sea level. *)
  Definition water_levels (st : state R S) : Prop :=
    forall i j, s_H_SL st <= s_stage st i j /\
      s_depth st i j = Rmax (rnd (s_stage st i j - s_eta st i j)) 0.

  Definition speed_ok (st : state R S) : Prop :=
    forall i j, 0 <= s_uw st i j <= p_u_max P /\
      (s_depth st i j <= p_dry_depth P -> s_uw st i j = 0 /\ s_ux st i j = 0 /\ s_uy st i j = 0).

  (** Consistency of discharge, velocity and depth: speed times depth is at
      most the discharge, the velocity vector has the speed as magnitude and
      the direction of the discharge vector, the discharge field is the norm
      of its components, and inlet cells carry the prescribed inflow. *)
  Definition flow_consistent (st : state R S) : Prop :=
    forall i j,
      s_uw st i j * s_depth st i j <= s_qw st i j /\
      s_ux st i j * s_ux st i j + s_uy st i j * s_uy st i j = s_uw st i j * s_uw st i j /\
      (exists c, 0 <= c /\ s_ux st i j = c * s_qx st i j /\ s_uy st i j = c * s_qy st i j) /\
      0 <= s_qw st i j /\
      s_qx st i j * s_qx st i j + s_qy st i j * s_qy st i j = s_qw st i j * s_qw st i j /\
      (i = 0%Z -> In j (p_inlet P) ->
         s_qx st i j = p_qw0 P /\ s_qy st i j = 0 /\ s_qw st i j = p_qw0 P).
End SurfaceSpec.
