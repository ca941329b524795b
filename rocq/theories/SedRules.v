(** The movement of sediment written out as rules over the reals (C63): where
    parcels start, which way they may go, what each move does to every field. *)
From Coq Require Import ZArith List Bool Reals.
From Verif Require Import Base Params State Sed VecLemmas SharedSpec WaterSpec WeightSpec ChanceSpec SedSpec.
Import ListNotations.
Local Open Scope R_scope.

(** 1 at the cell (i, j), 0 elsewhere. *)
Definition here (i j a c : Z) : R := if ((a =? i) && (c =? j))%Z then 1 else 0.
(** f with the value x at (i, j). *)
Definition changed (f : grid R) (i j : Z) (x : R) (f' : grid R) : Prop :=
  f' i j = x /\ forall a c, (a, c) <> (i, j) -> f' a c = f a c.
(** Position x counted from the end when negative. *)
Definition denotes (n x : Z) : Z := if (x <? 0)%Z then (x + n)%Z else x.

Section Rules.
  Context {S : Type} {G : Rng R S} (P : params R) (g : grain) (st : state R S).
  Notation L := (p_L P).
  Notation W := (p_W P).

  (** Depths the rule looks at around (i, j): the field seen by the routers
      carries a border of one cell. *)
  Definition seen (b : bed R) (i j : Z) (k : nat) : R :=
    b_pad_depth b (i + Z.of_nat k / 3)%Z (j + Z.of_nat k mod 3)%Z.
  Definition attraction (b : bed R) (i j : Z) : nat -> R :=
    sed_score P (seen b i j) (at_nb L W (s_mod_sed_weight st) i j) (at_nb L W (s_cell_type st) i j)
      (match g with Sand => p_theta_sand P | Mud => p_theta_mud P end) (s_qx st i j) (s_qy st i j).
  (** Probability of direction k. *)
  Definition chance (b : bed R) (i j : Z) (k : nat) : R :=
    if Rlt_dec 0 (sum9 (attraction b i j)) then share (attraction b i j) k
    else share (sed_aimless (at_nb L W (s_cell_type st) i j)) k.

  (** Flux a parcel of volume V adds at either end of a move. *)
  Definition half_load (V : R) : R := V / (2 * p_dt P * p_dx P).

  (** Everything but the sand flux is as before. *)
  Definition only_flux (b b' : bed R) : Prop :=
    b_eta b' = b_eta b /\ b_depth b' = b_depth b /\ b_pad_depth b' = b_pad_depth b /\
    b_uw b' = b_uw b /\ b_ux b' = b_ux b /\ b_uy b' = b_uy b /\
    b_sand b' = b_sand b /\ b_mud b' = b_mud b.

  (** One move of a parcel carrying V among the fields b, decided by the
      variate u. *)
  Record rule_move (u : R) (b : bed R) (V : R) (e : event) : Prop := {
    rm_from : inb L W (ev_i0 e) (ev_j0 e);
    rm_direction : exists k, chosen 9 (chance b (ev_i0 e) (ev_j0 e)) u k /\
      ev_px e = (ev_i0 e + Z.of_nat k / 3 - 1)%Z /\ ev_py e = (ev_j0 e + Z.of_nat k mod 3 - 1)%Z;
    rm_cell : ev_i e = denotes L (ev_px e) /\ ev_j e = denotes W (ev_py e) /\ inb L W (ev_i e) (ev_j e);
    rm_load : ev_V e = V;
    (** passing sand counts half at the cell left and half at the cell reached *)
    rm_flux : only_flux b (ev_b e) /\ forall a c, b_qs (ev_b e) a c = b_qs b a c +
      match g with
      | Sand => half_load V * (here (ev_i0 e) (ev_j0 e) a c + here (ev_i e) (ev_j e) a c)
      | Mud => 0
      end;
    rm_volume : match g with Sand => sand_rule P st e (ev_dV e) | Mud => mud_rule P st e (ev_dV e) end;
    rm_bed : bed_changed P e;
    rm_record : deposit_recorded g e;
    (** depth and velocity of the cell follow the bed; the discharge does not
        change *)
    rm_depth : let d := Rmax 0 (s_stage st (ev_i e) (ev_j e) - b_eta (ev_b' e) (ev_i e) (ev_j e)) in
      changed (b_depth b) (ev_i e) (ev_j e) d (b_depth (ev_b' e)) /\
      changed (b_pad_depth b) (ev_px e + 1)%Z (ev_py e + 1)%Z d (b_pad_depth (ev_b' e));
    rm_speed : changed (b_uw b) (ev_i e) (ev_j e)
      (let d := b_depth (ev_b' e) (ev_i e) (ev_j e) in
       if Rlt_dec 0 d then Rmin (p_u_max P) (s_qw st (ev_i e) (ev_j e) / d) else b_uw b (ev_i e) (ev_j e))
      (b_uw (ev_b' e));
    rm_direction_of_flow :
      let along (q : grid R) := if Rlt_dec 0 (s_qw st (ev_i e) (ev_j e))
        then b_uw (ev_b' e) (ev_i e) (ev_j e) * q (ev_i e) (ev_j e) / s_qw st (ev_i e) (ev_j e) else 0 in
      changed (b_ux b) (ev_i e) (ev_j e) (along (s_qx st)) (b_ux (ev_b' e)) /\
      changed (b_uy b) (ev_i e) (ev_j e) (along (s_qy st)) (b_uy (ev_b' e));
    rm_flux_kept : b_qs (ev_b' e) = b_qs (ev_b e)
  }.

  (** A journey with n moves left: until an edge cell or the last move.  Every
      move draws one variate. *)
  Inductive journey : nat -> Z -> Z -> bed R -> R -> S -> list event -> bed R -> R -> S -> Prop :=
  | journey_end n i j b V e s : ev_i0 e = i -> ev_j0 e = j -> rule_move (fst (draw s)) b V e ->
      s_cell_type st (ev_i e) (ev_j e) = EDGE \/ n = O ->
      journey (Datatypes.S n) i j b V s [e] (ev_b' e) (V - ev_dV e) (snd (draw s))
  | journey_on n i j b V e es b' V' s s' : ev_i0 e = i -> ev_j0 e = j -> rule_move (fst (draw s)) b V e ->
      s_cell_type st (ev_i e) (ev_j e) <> EDGE -> n <> O ->
      journey n (ev_px e) (ev_py e) (ev_b' e) (V - ev_dV e) (snd (draw s)) es b' V' s' ->
      journey (Datatypes.S n) i j b V s (e :: es) b' V' s'.

  (** A parcel enters the first row at column c, with its half load of flux
      when it is sand. *)
  Definition enters (c : Z) (b b1 : bed R) : Prop :=
    only_flux b b1 /\ forall a d, b_qs b1 a d = b_qs b a d +
      match g with Sand => half_load (p_Vp_sed P) * here 0 c a d | Mud => 0 end.

  Inductive journeys : list Z -> bed R -> S -> list (list event) -> bed R -> list R -> S -> Prop :=
  | journeys_nil b s : journeys [] b s [] b [] s
  | journeys_cons c cs b b0 es b1 V1 hs b' Vs s s1 s' : enters c b b0 ->
      journey (Z.to_nat (p_stepmax P)) 0 c b0 (p_Vp_sed P) s es b1 V1 s1 ->
      journeys cs b1 s1 hs b' Vs s' -> journeys (c :: cs) b s (es :: hs) b' (V1 :: Vs) s'.

  (** The fields at the start; outside the grid the nearest cell's depth is
      seen. *)
  Definition at_outset (b : bed R) : Prop :=
    b_eta b = s_eta st /\ b_depth b = s_depth st /\ b_uw b = s_uw st /\ b_ux b = s_ux st /\
    b_uy b = s_uy st /\ b_qs b = s_qs st /\ b_sand b = s_Vp_dep_sand st /\ b_mud b = s_Vp_dep_mud st /\
    forall i j, (-1 <= i <= L)%Z -> (-1 <= j <= W)%Z ->
      b_pad_depth b (i + 1)%Z (j + 1)%Z = s_depth st (clamp 0 (L - 1) i) (clamp 0 (W - 1) j).

  (** The fields at the end are those of the model. *)
  Definition at_close (b : bed R) (st' : state R S) : Prop :=
    s_eta st' = b_eta b /\ s_depth st' = b_depth b /\ s_uw st' = b_uw b /\ s_ux st' = b_ux b /\
    s_uy st' = b_uy b /\ s_qs st' = b_qs b /\ s_Vp_dep_sand st' = b_sand b /\ s_Vp_dep_mud st' = b_mud b /\
    sed_frame st st'.

  (** How many parcels of the grain: the whole part of its share. *)
  Definition parcel_share : R :=
    IZR (p_Np_sed P) * match g with Sand => p_f_bedload P | Mud => 1 - p_f_bedload P end.
  Definition parcel_count (n : nat) : Prop := INR n <= parcel_share < INR n + 1.
End Rules.

(** ** Ledgers: sums over everything that happened to a cell *)
Section Ledger.
  Context (P : params R) (g : grain).
  Definition over (hs : list (list event)) (f : event -> R) : R := rsum (map f (concat hs)).
  Definition bed_ledger (hs : list (list event)) (a c : Z) : R :=
    over hs (fun e => ev_dV e / (p_dx P * p_dx P) * here (ev_i e) (ev_j e) a c).
  Definition deposit_ledger (hs : list (list event)) (a c : Z) : R :=
    over hs (fun e => Rmax 0 (ev_dV e) * here (ev_i e) (ev_j e) a c).
  Definition flux_ledger (starts : list Z) (hs : list (list event)) (a c : Z) : R :=
    rsum (map (fun s => half_load P (p_Vp_sed P) * here 0 s a c) starts) +
    over hs (fun e => half_load P (ev_V e) * (here (ev_i0 e) (ev_j0 e) a c + here (ev_i e) (ev_j e) a c)).
End Ledger.

(** ** A whole sediment step *)
Section Whole.
  Context {S : Type} {G : Rng R S} (P : params R).

  (** One grain routed by the rules: the entry columns are drawn first, then the
      moves. *)
  Definition carried (g : grain) (st st' : state R S) : Prop :=
    exists starts hs b b' Vs s, at_outset P st b /\ entries (p_inlet P) starts (s_rng st) s /\
      journeys P g st starts b s hs b' Vs (s_rng st') /\ at_close st b' st' /\
      parcel_count P g (List.length starts).

  (** Nothing but the listed fields differs (the routers' own records of the
      bed, flux and deposits are given separately). *)
  Definition cleared (st st0 : state R S) : Prop :=
    sed_frame st st0 /\ s_rng st0 = s_rng st /\ s_eta st0 = s_eta st /\ s_depth st0 = s_depth st /\ s_uw st0 = s_uw st /\
    s_ux st0 = s_ux st /\ s_uy st0 = s_uy st /\
    forall i j, s_qs st0 i j = 0 /\ s_Vp_dep_sand st0 i j = 0 /\ s_Vp_dep_mud st0 i j = 0.

  (** One pass of diffusion turns the bed eta into eta'. *)
  Definition diffusion_pass (st : state R S) (eta eta' : grid R) : Prop :=
    forall i j,
      (diffusible P st i j ->
        eta' i j = eta i j + received P st (fun _ _ => true) eta i j - border_loss P st eta i j) /\
      (inb (p_L P) (p_W P) i j -> ~ diffusible P st i j -> eta' i j = eta i j).
  Inductive diffusion_passes (st : state R S) : nat -> grid R -> grid R -> Prop :=
  | no_pass eta : diffusion_passes st 0 eta eta
  | next_pass n eta eta1 eta' : diffusion_pass st eta eta1 -> diffusion_passes st n eta1 eta' ->
      diffusion_passes st (Datatypes.S n) eta eta'.
  Definition smeared (st st' : state R S) : Prop :=
    sed_frame st st' /\ s_rng st' = s_rng st /\ s_qs st' = s_qs st /\ s_depth st' = s_depth st /\ s_uw st' = s_uw st /\
    s_ux st' = s_ux st /\ s_uy st' = s_uy st /\
    s_Vp_dep_sand st' = s_Vp_dep_sand st /\ s_Vp_dep_mud st' = s_Vp_dep_mud st /\
    diffusion_passes st (Z.to_nat (p_N_crossdiff P)) (s_eta st) (s_eta st').
End Whole.
