(** Specification for C89: runs with one kind of sediment. *)
From Coq Require Import ZArith Reals.
From Verif Require Import Base Params State Inputs.
Local Open Scope R_scope.

(** The settings that concern the routing of sand and the diffusion of the bed by moving sand. *)
Definition sand_settings {F : Type} (theta erosion alpha : F) (c : inputs F) : inputs F :=
  seti_coeff_theta_sand theta (seti_coeff_U_ero_sand erosion (seti_alpha alpha c)).
(** The settings that concern the routing of mud. *)
Definition mud_settings {F : Type} (theta deposition erosion lag : F) (c : inputs F) : inputs F :=
  seti_coeff_theta_mud theta (seti_coeff_U_dep_mud deposition (seti_coeff_U_ero_mud erosion (seti_sed_lag lag c))).

(** In the last time step no sand was deposited. *)
Definition no_sand {S : Type} (st : state R S) : Prop := forall i j, s_Vp_dep_sand st i j = 0.
(** In the last time step no mud was deposited. *)
Definition no_mud {S : Type} (st : state R S) : Prop := forall i j, s_Vp_dep_mud st i j = 0.
(** The sand fraction of every cell, at the surface and in the active layer, is one of two values. *)
Definition one_or_other {S : Type} (x y : R) (st : state R S) : Prop := forall i j,
  (s_sand_frac st i j = x \/ s_sand_frac st i j = y) /\ (s_active_layer st i j = x \/ s_active_layer st i j = y).
