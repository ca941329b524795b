(** C75: where sediment goes, and when diffusion only averages. *)
From Coq Require Import ZArith List Bool Reals.
From Verif Require Import Base Params State Sed SharedSpec ChanceSpec SedSpec SedRules.
Import ListNotations.
Local Open Scope R_scope.

(** The cell (i, j) itself or one of its eight neighbours. *)
Definition near (i j a b : Z) : Prop := (Z.abs (a - i) <= 1 /\ Z.abs (b - j) <= 1)%Z.

(** Some parcel with the moves hs ended a move in the cell. *)
Definition reached (hs : list (list event)) (a b : Z) : Prop :=
  Exists (fun e => ev_i e = a /\ ev_j e = b) (concat hs).
(** Some parcel, entering the first row at one of the columns starts, was in
    the cell. *)
Definition passed (starts : list Z) (hs : list (list event)) (a b : Z) : Prop :=
  (a = 0%Z /\ In b starts) \/ Exists (fun e => ev_i0 e = a /\ ev_j0 e = b) (concat hs) \/ reached hs a b.

(** No sand came near the cell and no mud reached it. *)
Definition undisturbed (sand_in : list Z) (sand mud : list (list event)) (i j : Z) : Prop :=
  (forall a b, near i j a b -> ~ passed sand_in sand a b) /\ ~ reached mud i j.

(** One grain carried from st to st' by the rules of C63, the parcels entering at
    the columns starts and making the moves hs. *)
Definition carried_by {S : Type} {G : Rng R S} (P : params R) (g : grain) (st st' : state R S)
    (starts : list Z) (hs : list (list event)) : Prop :=
  exists b b' Vs s, at_outset P st b /\ entries (p_inlet P) starts (s_rng st) s /\
    journeys P g st starts b s hs b' Vs (s_rng st') /\ at_close st b' st' /\
    parcel_count P g (List.length starts).

Section Average.
  Context {S : Type} (P : params R) (st : state R S).

  (** Total weight one pass gives to the surroundings of the cell: neighbours
      in the grid, and the zero level beyond the border. *)
  Definition weight_around (i j : Z) : R :=
    p_diffusion_multiplier P *
    (gsum (p_L P) (p_W P) (fun a b => if neighbourb i j a b then s_qs st i j + s_qs st a b else 0)
     + IZR (outside_count P i j) * s_qs st i j).

  (** The cell keeps a non-negative weight of its own. *)
  Definition gentle (i j : Z) : Prop := weight_around i j <= 1.

  Definition inner (i j : Z) : Prop := (1 <= i < p_L P - 1 /\ 1 <= j < p_W P - 1)%Z.
End Average.
