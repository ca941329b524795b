(** C74: cells, the ways to name them, and where they belong in a plot. *)
From Coq Require Import ZArith List Bool.
From Verif Require Import Base Shared SharedSpec Debug.
Import ListNotations.
Local Open Scope Z_scope.

(** A cell of the domain: row and column. *)
Definition cell : Type := (Z * Z)%type.
Definition in_domain (shape : Z * Z) (c : cell) : Prop :=
  0 <= fst c < fst shape /\ 0 <= snd c < snd shape.

(** The plot of a field (imshow) puts column numbers on the horizontal and row
    numbers on the vertical axis. *)
Definition place (c : cell) : point := (snd c, fst c).

(** The number of a cell in row-major order. *)
Definition number (shape : Z * Z) (c : cell) : Z := fst c * snd shape + snd c.

(** Ways to name a cell. *)
Inductive names (shape : Z * Z) : index -> cell -> Prop :=
| by_number c : names shape (Flat (number shape c)) c
| by_pair i j : names shape (Tup [i; j]) (i, j).
