(** The free surface the model is meant to compute, over the reals: levels
    along the paths of parcels, their average, smoothing and relaxation; and
    the directions recorded along the paths. *)
From Coq Require Import ZArith List Bool Reals.
From Verif Require Import Base SharedSpec Params State Water WaterSpec WeightSpec.
Import ListNotations.
Local Open Scope R_scope.

Section Path.
  Context {S : Type} (P : params R) (st : state R S).

  (** A cell the sea does not reach: fast or shallow. *)
  Definition onshore (c : Z * Z) : bool :=
    if Rlt_dec (p_u0 P / 2) (s_uw st (fst c) (snd c)) then true
    else if Rlt_dec (s_depth st (fst c) (snd c)) (p_h0 P / 10) then true else false.

  (** Rise of the surface from cell [d] to the cell [c] upstream of it: the
      slope times the distance covered in the direction of the flow. *)
  Definition climb (c d : Z * Z) : R :=
    let (i, j) := c in let (ip, jp) := d in
    if Req_EM_T (s_uw st i j) 0 then 0
    else p_S0 P * ((IZR (ip - i) * s_ux st i j + IZR (jp - j) * s_uy st i j) / s_uw st i j) * p_dx P.

  Definition same_cell (c d : Z * Z) : bool := (fst c =? fst d)%Z && (snd c =? snd d)%Z.

  (** A path counted from its seaward end: [c 0] is at the edge. *)
  Context (c : nat -> Z * Z).
  Definition moved_to (k : nat) : bool := negb (same_cell (c k) (c (k - 1))).
  (** The path passed the shoreline before its k-th cell. *)
  Definition inland (k : nat) : bool := existsb (fun m => moved_to m && onshore (c m)) (seq 1 (k - 1)).
  (** Rise at the k-th cell; the last one again if the parcel did not move. *)
  Fixpoint rise (k : nat) : R :=
    match k with
    | O => 0
    | Datatypes.S k' => if inland k then if moved_to k then climb (c k) (c k') else rise k' else 0
    end.
  (** Level at the k-th cell. *)
  Fixpoint level (k : nat) : R :=
    match k with
    | O => s_H_SL st
    | Datatypes.S k' => level k' + rise k
    end.
End Path.

Section Surface.
  Context {S : Type} (P : params R) (st : state R S).
  Notation W := (p_W P).

  (** Cells of the recorded path of a parcel, seaward end first. *)
  Definition path (p : parcel) : list (Z * Z) :=
    map (fun n => (n / W, n mod W)%Z) (filter (fun n => 0 <? n)%Z (walk p)).
  Definition path_cell (p : parcel) (k : nat) : Z * Z := nth k (path p) (0, 0)%Z.
  (** Only paths that reached the edge of the domain and were not flagged as
      looped count. *)
  Definition qualifies (p : parcel) : bool :=
    fflag p && (s_cell_type st (fst (path_cell p 0)) (snd (path_cell p 0)) =? EDGE)%Z.
  (** Levels the path of [p] gives to the cell. *)
  Definition levels_of (p : parcel) (i j : Z) : list R :=
    if qualifies p then
      map (level P st (path_cell p))
        (filter (fun k => same_cell (path_cell p k) (i, j)) (seq 1 (List.length (path p) - 1)))
    else [].
  Definition levels_at (ps : list parcel) (i j : Z) : list R := flat_map (fun p => levels_of p i j) ps.
  (** Average level, or the present one where no path passes. *)
  Definition mean_level (ps : list parcel) (i j : Z) : R :=
    match levels_at ps i j with
    | [] => s_eta st i j + s_depth st i j
    | l => rsum l / INR (List.length l)
    end.
End Surface.

(** One smoothing pass: a weighted mean with the average of the neighbours
    that are not land. *)
Definition smoothed (L W : Z) (C : R) (ct : grid Z) (H : grid R) : grid R := fun i j =>
  let nbrs := filter (fun k => negb (Nat.eqb k 4) && negb (at_nb L W ct i j k =? LAND)%Z) (seq 0 9) in
  if (ct i j =? EDGE)%Z then H i j else
  match nbrs with
  | [] => H i j
  | _ => C * H i j + (1 - C) * (rsum (map (at_nb L W H i j) nbrs) / INR (List.length nbrs))
  end.

(** Sum over the parcels of a step of a component of the unit vector of their
    direction, at the cells they credit. *)
Definition credited (P : params R) (ct : grid Z) (comp : nat -> R) (ps ps' : list parcel) (m : Z) : R :=
  rsum (map (fun pp => IZR (gain P ct pp m) * (comp (dir (snd pp)) / ndist (dir (snd pp)))) (combine ps ps')).

(** Sum over the successive steps of a trace. *)
Fixpoint trace_sum (f : list parcel -> list parcel -> R) (ps : list parcel) (tr : list (list parcel)) : R :=
  match tr with
  | [] => 0
  | ps1 :: tr' => f ps ps1 + trace_sum f ps1 tr'
  end.
(** Half fluxes credited to cell m in a step. *)
Definition credits (P : params R) (ct : grid Z) (ps ps' : list parcel) (m : Z) : R :=
  IZR (fold_right Z.add 0%Z (map (fun pp => gain P ct pp m) (combine ps ps'))).
(** 1 at the start cells. *)
Definition at_start (starts : list Z) (m : Z) : R := if in_dec Z.eq_dec m starts then 1 else 0.
