(** What the header of the output file is meant to say. *)
From Coq Require Import ZArith List Bool String Reals.
From Flocq Require Import Core.
From Verif Require Import Base Dict Params State WaterSpec Inputs Init InitSpec Switches SwitchSpec Header.
Import ListNotations.
Local Open Scope string_scope.

(** A variable of the file has these units, dimensions and contents. *)
Definition has {F} (h : header F) (name units : string) (dims : list string) (v : hvalue F) : Prop :=
  dget name (h_vars h) = Some (mkVar units dims v).

(** Number of cells in row [i] of the domain of a given kind. *)
Definition cells_in_row (ct : grid Z) (W i kind : Z) : nat :=
  List.length (filter (fun j => (ct i j =? kind)%Z) (zrange W)).

(** Exponents of metre and second of the units in use. *)
Definition dimension (units : string) : option (Z * Z) :=
  if String.eqb units "meters" then Some (1, 0)%Z
  else if String.eqb units "meters per second" then Some (1, -1)%Z
  else if String.eqb units "square meters per second" then Some (2, -1)%Z
  else if String.eqb units "cubic meters per second" then Some (3, -1)%Z
  else if String.eqb units "fraction" then Some (0, 0)%Z
  else None.

(** Units of a product. *)
Definition product (a b : option (Z * Z)) : option (Z * Z) :=
  match a, b with Some (m, s), Some (m', s') => Some (m + m', s + s')%Z | _, _ => None end.
