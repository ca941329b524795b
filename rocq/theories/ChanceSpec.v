(** Random choices (C66): which alternative a variate selects, and how the
    stream of variates is used up, one for each choice, in order. *)
From Coq Require Import ZArith List Bool Reals.
From Verif Require Import Base Params State Water VecLemmas SharedSpec WaterSpec.
Import ListNotations.
Local Open Scope R_scope.

(** Total weight of the first n alternatives. *)
Definition upto (v : nat -> R) (n : nat) : R := rsum (map v (seq 0 n)).
(** The variate u selects alternative k of n: laid end to end from 0, the
    weights reach u times their total within that of k. *)
Definition chosen (n : nat) (v : nat -> R) (u : R) (k : nat) : Prop :=
  (k < n)%nat /\ upto v k < u * upto v n <= upto v (Datatypes.S k).

Section Draws.
  Context {S : Type} {G : Rng R S}.

  (** The stream after n variates. *)
  Definition after (n : nat) (s : S) : S := Nat.iter n (fun s => snd (draw s)) s.

  (** Entry columns, each drawn from the inlet with equal weights. *)
  Inductive entries (inlet : list Z) : list Z -> S -> S -> Prop :=
  | entries_nil s : entries inlet [] s s
  | entries_cons k c cs s s' : chosen (List.length inlet) (fun _ => 1) (fst (draw s)) k ->
      nth_error inlet k = Some c -> entries inlet cs (snd (draw s)) s' -> entries inlet (c :: cs) s s'.

  (** Directions of the water parcels: those still under way draw one variate
      each, in order; the others stay and draw none. *)
  Inductive turns_drawn (P : params R) (w : Z -> Z -> nat -> R) : list parcel -> list nat -> S -> S -> Prop :=
  | turns_nil s : turns_drawn P w [] [] s s
  | turns_stay p ps ds s s' : cur p = 0%Z -> turns_drawn P w ps ds s s' -> turns_drawn P w (p :: ps) (4%nat :: ds) s s'
  | turns_pick p ps k ds i j s s' : cur p <> 0%Z -> at_cell (p_L P) (p_W P) (cur p) i j ->
      chosen 9 (w i j) (fst (draw s)) k -> turns_drawn P w ps ds (snd (draw s)) s' ->
      turns_drawn P w (p :: ps) (k :: ds) s s'.
End Draws.

(** Parcels under way, and the choices of direction along a trace. *)
Definition under_way (ps : list parcel) : nat := List.length (filter (fun p => negb (cur p =? 0)%Z) ps).
Fixpoint choices (ps : list parcel) (tr : list (list parcel)) : nat :=
  match tr with [] => 0 | ps1 :: tr' => under_way ps + choices ps1 tr' end.
