(** The sediment account of a run (C79): what enters the domain, what leaves
    it, and what becomes of the volume of the bed. *)
From Coq Require Import ZArith List Bool Reals.
From Verif Require Import Base Params State Water Sed Iter SharedSpec WaterSpec SedSpec ChanceSpec SedRules IterSpec.
Import ListNotations.
Local Open Scope R_scope.

(** Volume of the bed above elevation zero. *)
Definition bed_volume (P : params R) (eta : grid R) : R :=
  p_dx P * p_dx P * gsum (p_L P) (p_W P) eta.

(** One line of the account: volumes moved in one update. *)
Record account : Type := {
  a_fed : R;     (** brought to the inlet by the parcels *)
  a_left : R;    (** still carried by the parcels when their journeys end *)
  a_border : R;  (** diffused out of the grid *)
  a_fixed : R;   (** diffused in from land and the first row, which diffusion does not change *)
  a_sunk : R;    (** lowered by subsidence *)
  a_filled : R   (** bed of the inlet cells reset to the inlet depth *)
}.
Definition net (a : account) : R :=
  a_fed a - a_left a - a_border a + a_fixed a - a_sunk a + a_filled a.

Section Account.
  Context {S : Type} {G : Rng R S} (P : params R).
  Notation L := (p_L P).
  Notation W := (p_W P).
  Notation area := (p_dx P * p_dx P).

  (** All parcels of a grain travel by the rules; [Vs] is what each still
      carries at the end. *)
  Definition carrying (g : grain) (st st' : state R S) (Vs : list R) : Prop :=
    exists starts hs b b' s, at_outset P st b /\ entries (p_inlet P) starts (s_rng st) s /\
      journeys P g st starts b s hs b' Vs (s_rng st') /\ at_close st b' st' /\
      parcel_count P g (List.length starts) /\ List.length Vs = List.length starts.

  (** n passes of diffusion with the heights lost at the border and gained
      from the cells that do not change. *)
  Inductive passes (st : state R S) : nat -> grid R -> grid R -> R -> R -> Prop :=
  | passes_nil eta : passes st 0 eta eta 0 0
  | passes_cons n eta eta1 eta' x y : diffusion_pass P st eta eta1 -> passes st n eta1 eta' x y ->
      passes st (Datatypes.S n) eta eta'
        (gsum L W (fun i j => if diffusibleb P st i j then border_loss P st eta i j else 0) + x)
        (gsum L W (fun i j => if diffusibleb P st i j
           then received P st (fun a b => negb (diffusibleb P st a b)) eta i j else 0) + y).

  (** Lowering of cell (i, j) in an update of st. *)
  Definition sinks (st : state R S) (i j : Z) (x : R) : Prop :=
    (subsides P st -> x = p_sigma P i j) /\ (~ subsides P st -> x = 0).

  (** The account of one update. *)
  Definition accounted (st st' : state R S) (a : account) : Prop :=
    exists sw s0 s1 s2 sd Vs1 Vs2 x y low,
      route_water (A:=RX) P (set_eta0 (s_eta st) st) = Ok sw /\ s_eta sw = s_eta st /\
      cleared sw s0 /\ carrying Sand s0 s1 Vs1 /\ smeared P s1 s2 /\ carrying Mud s2 sd Vs2 /\
      a_fed a = INR (List.length Vs1 + List.length Vs2) * p_Vp_sed P /\
      a_left a = rsum Vs1 + rsum Vs2 /\
      passes s1 (Z.to_nat (p_N_crossdiff P)) (s_eta s1) (s_eta s2) x y /\
      a_border a = area * x /\ a_fixed a = area * y /\
      (forall i j, sinks st i j (low i j)) /\ a_sunk a = bed_volume P low /\
      (forall i j, inlet_cell P i j -> s_eta st' i j = s_stage st' i j - p_h0 P) /\
      (forall i j, ~ inlet_cell P i j -> s_eta st' i j = s_eta sd i j - low i j) /\
      a_filled a = bed_volume P (fun i j => if ((i =? 0)%Z && existsb (fun c => (c =? j)%Z) (p_inlet P))
                                   then s_eta st' i j - (s_eta sd i j - low i j) else 0).

  (** The accounts of successive updates. *)
  Inductive accounts : state R S -> list account -> state R S -> Prop :=
  | accounts_nil st : accounts st [] st
  | accounts_cons st st1 st' a l o : update (A:=RX) P st = Ok (st1, o) -> accounted st st1 a ->
      accounts st1 l st' -> accounts st (a :: l) st'.
End Account.

(** Sum of one column of the accounts. *)
Definition total (f : account -> R) (l : list account) : R := rsum (map f l).

(** The share of sand is a whole number of parcels. *)
Definition whole_shares (P : params R) : Prop := exists z, IZR z = IZR (p_Np_sed P) * p_f_bedload P.

(** Physically sensible constants: lengths, speeds and volumes are not
    negative, mud does not settle faster than it is carried (lag at most 1),
    water is routed at least once. *)
Definition physical {S : Type} (P : params R) (st : state R S) : Prop :=
  sed_physics P st /\ 0 <= p_lambda P <= 1 /\ 0 <= p_u_max P /\ 0 <= p_dry_depth P /\ 0 <= p_qw0 P /\ (1 <= p_itermax P)%Z.
