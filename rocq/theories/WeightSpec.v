(** The routing rule of the model, over the reals: what the probability of
    each of the eight directions is meant to be. *)
From Coq Require Import ZArith List Bool Reals.
From Verif Require Import Base Params VecLemmas WaterSpec.
Local Open Scope R_scope.

(** Row and column step of direction k (0..8, 4 is the cell itself), and the
    distance to the neighbour in cells. *)
Definition drow (k : nat) : R := IZR (Z.of_nat k / 3 - 1).
Definition dcol (k : nat) : R := IZR (Z.of_nat k mod 3 - 1).
Definition ndist (k : nat) : R := sqrt (drow k * drow k + dcol k * dcol k).

(** Downhill slope of the water surface towards a neighbour. *)
Definition slope (stage here : R) (k : nat) : R := Rmax 0 ((here - stage) / ndist k).
(** Component of the flow direction (qx along rows, qy along columns) towards
    a neighbour, per distance. *)
Definition inertia (qx qy : R) (k : nat) : R :=
  Rmax 0 ((qx * (drow k / ndist k) + qy * (dcol k / ndist k)) / ndist k).

(** v restricted to the directions in [ok]. *)
Definition only (ok : nat -> Prop) (dec : forall k, {ok k} + {~ ok k}) (v : nat -> R) (k : nat) : R :=
  if dec k then v k else 0.
(** Share of direction k in the total; nothing when the total is zero. *)
Definition share (v : nat -> R) (k : nat) : R :=
  if Rlt_dec 0 (sum9 v) then v k / sum9 v else 0.

Section Water.
  Context (P : params R) (depth stage mw : grid R) (ct : grid Z) (qx qy : grid R) (i j : Z).
  Local Notation nb g k := (at_nb (p_L P) (p_W P) g i j k).

  (** A neighbour water can be steered to: wet, not land. *)
  Definition wet (k : nat) : Prop := k <> 4%nat /\ p_dry_depth P <= nb depth k /\ nb ct k <> LAND.
  Definition wet_dec (k : nat) : {wet k} + {~ wet k}.
  Proof.
    unfold wet. destruct (Nat.eq_dec k 4); [right; tauto|].
    destruct (Rle_dec (p_dry_depth P) (nb depth k)); [|right; tauto].
    destruct (Z.eq_dec (nb ct k) LAND); [right; tauto|left; tauto].
  Defined.

  Definition sfc_share : nat -> R := share (only wet wet_dec (fun k => slope (nb stage k) (stage i j) k)).
  Definition int_share : nat -> R := share (only wet wet_dec (inertia (qx i j) (qy i j))).
  (** Attractiveness of direction k. *)
  Definition water_score (k : nat) : R :=
    npow (nb depth k * nb mw k) (p_theta_water P) *
    (p_gamma P * sfc_share k + (1 - p_gamma P) * int_share k).

  (** No attractive direction: equal chances. *)
  Definition wet_inside (k : nat) : Prop := wet k /\ (i = 0%Z -> (3 <= k)%nat).
  Definition equal_chances (ok : nat -> Prop) (w : nat -> R) : Prop :=
    exists n : Z, (0 < n)%Z /\ forall k, (k < 9)%nat -> (ok k -> w k = 1 / IZR n) /\ (~ ok k -> w k = 0).
End Water.

Section Sediment.
  Context (P : params R) (depth msw : nat -> R) (ct : nat -> Z) (theta qx qy : R).

  Definition deep (k : nat) : Prop := k <> 4%nat /\ p_dry_depth P < depth k /\ ct k <> LAND.
  Definition deep_dec (k : nat) : {deep k} + {~ deep k}.
  Proof.
    clear msw. unfold deep. destruct (Nat.eq_dec k 4); [right; tauto|].
    destruct (Rlt_dec (p_dry_depth P) (depth k)); [|right; tauto].
    destruct (Z.eq_dec (ct k) LAND); [right; tauto|left; tauto].
  Defined.
  Definition not_land (k : nat) : Prop := k <> 4%nat /\ ct k <> LAND.
  Definition not_land_dec (k : nat) : {not_land k} + {~ not_land k}.
  Proof.
    clear P depth msw. unfold not_land. destruct (Nat.eq_dec k 4); [right; tauto|].
    destruct (Z.eq_dec (ct k) LAND); [right; tauto|left; tauto].
  Defined.

  Definition sed_score : nat -> R :=
    only deep deep_dec (fun k => npow (depth k * msw k) theta * inertia qx qy k).
  (** No attractive direction: by inverse distance. *)
  Definition sed_aimless : nat -> R := only not_land not_land_dec (fun k => 1 / ndist k).
End Sediment.
