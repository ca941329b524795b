(** Specification vocabulary for C01-C05, independent of the model. *)
From Coq Require Import ZArith List Bool Reals String.
From Verif Require Import Base.
Import ListNotations.

(** The integer of [lo, hi] nearest to x. *)
Definition clamp (lo hi x : Z) : Z := Z.max lo (Z.min hi x).

(** Value of an L x W field at the in-domain cell nearest to (i, j). *)
Definition nearest {T} (L W : Z) (arr : grid T) (i j : Z) : T :=
  arr (clamp 0 (L - 1) i) (clamp 0 (W - 1) j).

Local Open Scope R_scope.

(** Sum of a list of reals. *)
Fixpoint rsum (l : list R) : R :=
  match l with [] => 0 | x :: l' => x + rsum l' end.

(** The generator only returns values of [0, 1). *)
Definition uniform_range {S} (G : Rng R S) : Prop :=
  forall s, 0 <= fst (draw s) < 1.

(** Seconds in one unit of scaled time. *)
Definition unit_seconds (u : string) : option R :=
  if String.eqb u "seconds" then Some 1
  else if String.eqb u "days" then Some 86400
  else if String.eqb u "years" then Some (86400 * 365.25)
  else None.
