(** Specification for C90: settings that switch a process off. *)
From Coq Require Import ZArith Reals.
From Verif Require Import Base Inputs.
Local Open Scope R_scope.

(** Another number of smoothing passes and another weight of a cell's own
    value in each pass. *)
Definition smoothing_settings {F : Type} (passes : Z) (weight : F) (c : inputs F) : inputs F :=
  seti_Nsmooth passes (seti_Csmooth weight c).

(** Smoothing has no effect, before and after the change: a cell's own value
    has all the weight; or there are no passes; or nothing of the new water
    surface is taken over. *)
Definition smoothing_off (passes : Z) (weight : R) (c : inputs R) : Prop :=
  (i_Csmooth c = 1 /\ weight = 1) \/ ((i_Nsmooth c <= 0)%Z /\ (passes <= 0)%Z) \/ i_omega_sfc c = 0.
