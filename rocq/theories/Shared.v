(** Model of /repo/pyDeltaRCM/shared_tools.py *)
From Coq Require Import ZArith List Bool String.
From Verif Require Import Base.
Import ListNotations.
Local Open Scope Z_scope.

(** ** custom_pad — shared_tools.py:337-413 *)

Section Pad.
  Context {T : Type}.
  (** [pad[r0:r1, c0:c1] = src(a, b)]: slice assignment on the padded array. shared_tools.py:361-412. *)
  Definition slice_write (pad : grid T) (r0 r1 c0 c1 : Z) (src : Z -> Z -> T) : grid T :=
    fun a b => if (r0 <=? a) && (a <? r1) && (c0 <=? b) && (b <? c1)
               then src a b else pad a b.

  (** shared_tools.py:393-411.  [d] is the zero of the dtype (line 395).  The
      nine assignments of the code in order; [pad] has L+2 rows and W+2
      columns, so numpy's index -1 is row L+1 / column W+1. *)
  Definition custom_pad (d : T) (L W : Z) (arr : grid T) : grid T :=
    let pad := fun _ _ => d in
    let pad := slice_write pad 1 (L + 1) 1 (W + 1) (fun a b => arr (a - 1) (b - 1)) in
    let pad := slice_write pad 1 (L + 1) 0 1 (fun a _ => arr (a - 1) 0) in
    let pad := slice_write pad 1 (L + 1) (W + 1) (W + 2) (fun a _ => arr (a - 1) (W - 1)) in
    let pad := slice_write pad 0 1 1 (W + 1) (fun _ b => arr 0 (b - 1)) in
    let pad := slice_write pad (L + 1) (L + 2) 1 (W + 1) (fun _ b => arr (L - 1) (b - 1)) in
    let pad := slice_write pad 0 1 0 1 (fun _ _ => arr 0 0) in
    let pad := slice_write pad 0 1 (W + 1) (W + 2) (fun _ _ => arr 0 (W - 1)) in
    let pad := slice_write pad (L + 1) (L + 2) 0 1 (fun _ _ => arr (L - 1) 0) in
    slice_write pad (L + 1) (L + 2) (W + 1) (W + 2) (fun _ _ => arr (L - 1) (W - 1)).
End Pad.

(** ** custom_unravel / custom_ravel — shared_tools.py:243-334 *)

(** shared_tools.py:285-289.  Python's // and % agree with Z's for a positive
    divisor. *)
Definition custom_unravel (i : Z) (shape : Z * Z) : result (Z * Z) :=
  let (L, W) := shape in
  if W * L <? i then Err IndexError
  else Ok (i / W, i mod W).

(** shared_tools.py:330-334 *)
Definition custom_ravel (tup : Z * Z) (shape : Z * Z) : result Z :=
  let (L, W) := shape in
  let (x, y) := tup in
  if (L <? x) || (W <? y) then Err IndexError
  else Ok (x * W + y).

(** ** Translation constants — init_tools.py:352-388 (set_constants) *)

(** init_tools.py:376-378, flattened: iwalk *)
Definition iwalk_flat (k : nat) : Z :=
  nth k [-1; 0; 1; -1; 0; 1; -1; 0; 1] 0.
(** init_tools.py:379-381, flattened: jwalk *)
Definition jwalk_flat (k : nat) : Z :=
  nth k [-1; -1; -1; 0; 0; 0; 1; 1; 1] 0.
(** init_tools.py:388-389: ravel_walk = jwalk * W + iwalk, flattened *)
Definition ravel_walk_flat (W : Z) (k : nat) : Z :=
  jwalk_flat k * W + iwalk_flat k.

Section Shared.
  Context {F : Type} {A : Arith F} {S : Type} {G : Rng F S}.

  (** init_tools.py:364-366, flattened: distances ([sqrt2] at the corners,
      also 1 at the centre). *)
  Definition distances_flat : vec F :=
    fun k => nth k
      [fsqrt (fz 2); fz 1; fsqrt (fz 2);
       fz 1; fz 1; fz 1;
       fsqrt (fz 2); fz 1; fsqrt (fz 2)] (fz 1).
  (** init_tools.py:367-370, flattened: ivec *)
  Definition ivec_flat : vec F :=
    let s := fsqrt (flit 1 2) in
    fun k => nth k
      [fopp s; fz 0; s; fz (-1); fz 0; fz 1; fopp s; fz 0; s] (fz 0).
  (** init_tools.py:371-374, flattened: jvec *)
  Definition jvec_flat : vec F :=
    let s := fsqrt (flit 1 2) in
    fun k => nth k
      [fopp s; fz (-1); fopp s; fz 0; fz 0; fz 0; s; fz 1; s] (fz 0).

  (** ** get_random_uniform — shared_tools.py:107-145: np.random.uniform(0, limit)
      is limit times the next variate of [0,1). *)
  Definition get_random_uniform (limit : F) (s : S) : F * S :=
    let (u, s') := draw s in (fmul limit u, s').

  (** ** random_pick — shared_tools.py:223-240 *)

  (** np.cumsum — shared_tools.py:239 *)
  Fixpoint cumsum_from (acc : F) (l : list F) : list F :=
    match l with
    | [] => []
    | x :: l' => let acc' := fadd acc x in acc' :: cumsum_from acc' l'
    end.
  (** shared_tools.py:239 *)
  Definition cumsum (l : list F) : list F := cumsum_from (fz 0) l.

  (** np.searchsorted(a, v), side='left': number of leading entries below v.
      Equal to numba's bisection whenever [a] is sorted, i.e. whenever the
      weights are non-negative. shared_tools.py:240. *)
  Fixpoint searchsorted (a : list F) (v : F) : nat :=
    match a with
    | [] => O
    | c :: a' => if fltb c v then Datatypes.S (searchsorted a' v) else O
    end.

  (** shared_tools.py:238-240.  [arr[k]] with k past the end is an IndexError
      (in numba: an unchecked read). *)
  Definition random_pick (prob : list F) (s : S) : result (nat * S) :=
    let cumprob := cumsum prob in
    let (v, s') := get_random_uniform (last cumprob (fz 0)) s in
    let k := searchsorted cumprob v in
    if Nat.ltb k (List.length prob) then Ok (k, s') else Err IndexError.

  (** ** get_inlet_weights — shared_tools.py:149-170: np.ones_like(inlet) *)
  Definition get_inlet_weights (inlet : list Z) : list F := map (fun _ => fz 1) inlet.

  (** ** get_start_indices — shared_tools.py:173-205 *)
  Definition norm_weights (w : list F) : list F :=
    let tot := fold_left fadd w (fz 0) in map (fun x => fdiv x tot) w.

  (** shared_tools.py:196-205: the comprehension over the parcels *)
  Fixpoint start_loop (inlet : list Z) (nw : list F) (n : nat) (s : S)
    : result (list Z * S) :=
    match n with
    | O => Ok ([], s)
    | Datatypes.S n' =>
        match random_pick nw s with
        | Err e => Err e
        | Ok (k, s') =>
            match nth_error inlet k with
            | None => Err IndexError
            | Some c =>
                match start_loop inlet nw n' s' with
                | Err e => Err e
                | Ok (l, s'') => Ok (c :: l, s'')
                end
            end
        end
    end.
  (** shared_tools.py:200-205.  [inlet.take] is merged into the drawing loop. *)
  Definition get_start_indices (inlet : list Z) (w : list F) (num_starts : Z) (s : S)
    : result (list Z * S) :=
    start_loop inlet (norm_weights w) (Z.to_nat num_starts) s.

  (** ** get_steps — shared_tools.py:208-220: (dist, istep, jstep, astep) *)
  Definition get_steps (k : nat) : F * Z * Z * bool :=
    let istep := iwalk_flat k in
    let jstep := jwalk_flat k in
    let dist := fsqrt (fz (istep * istep + jstep * jstep)) in
    (dist, istep, jstep, negb (feqb dist (fz 0))).

  (** ** get_weight_sfc_int — shared_tools.py:416-430 *)
  Definition get_weight_sfc (stage : F) (stage_nbrs : vec F) : vec F :=
    fun k => npmax (fz 0) (fdiv (fsub stage (stage_nbrs k)) (distances_flat k)).
  (** shared_tools.py:424-430 *)
  Definition get_weight_int (qx qy : F) : vec F :=
    fun k => npmax (fz 0) (fdiv (fadd (fmul qx (jvec_flat k)) (fmul qy (ivec_flat k)))
                               (distances_flat k)).

  (** ** scale_model_time / _scale_factor — shared_tools.py:522-605 *)

  (** shared_tools.py:14 *)
  Definition sec_in_day : F := fz 86400.
  (** shared_tools.py:15 *)
  Definition day_in_yr : F := flit 36525 100.

  (** shared_tools.py:580-605 *)
  Definition scale_factor (If : F) (units : string) : result F :=
    if String.eqb units "seconds" then Ok (fmul If (fz 1))
    else if String.eqb units "days" then Ok (fmul If sec_in_day)
    else if String.eqb units "years" then Ok (fmul If (fmul sec_in_day day_in_yr))
    else Err ValueError.

  (** shared_tools.py:522-577 *)
  Definition scale_model_time (time If : F) (units : string) : result F :=
    if fleb If (fz 0) || fltb (fz 1) If then Err ValueError
    else do f <- scale_factor If units; Ok (fdiv time f).

  (** preprocessor.py:1193-1236: scale_relative_sea_level_rise_rate (no range
      check on [If]; Python scalar division by zero raises). *)
  Definition scale_relative_sea_level_rise_rate (mmyr If : F) : result F :=
    do f <- scale_factor If "years";
    if feqb f (fz 0) then Err ZeroDivisionError
    else Ok (fmul (fdiv mmyr (fz 1000)) (fdiv (fz 1) f)).
End Shared.
