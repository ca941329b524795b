(** Base definitions shared by every part of the model: Python results, the
    arithmetic the numeric code is written over, 9-vectors (the D8
    neighbourhood plus the centre) and 2-D grids. *)
From Coq Require Import ZArith List Bool Reals Lra Lia FunctionalExtensionality.
From Coq Require Import Floats.SpecFloat.
From Flocq Require Import Core.
Import ListNotations.
Local Open Scope Z_scope.

(** ** Python exceptions as values *)

(** Exceptions the modelled code can raise.  The strings passed to the
    exceptions in /repo are not modelled. Raise statements of /repo, as at shared_tools.py:285, 331, 575. *)
Inductive exn : Type :=
| RuntimeError | ValueError | TypeError | IndexError | KeyError
| AttributeError | ZeroDivisionError | FileExistsError | FileNotFoundError
| UnboundLocalError | OSError | NotImplementedError | OverflowError
| PlainException (** raise Exception(...) — iteration_tools.py:440 *).

(** Outcome of a Python call: a value or a raised exception. As at shared_tools.py:244-289. *)
Inductive result (A : Type) : Type :=
| Ok (a : A)
| Err (e : exn).
Arguments Ok {A} a.
Arguments Err {A} e.

(** a call that raises ends its caller, except within try, as at preprocessor.py:793-811 *)
Definition rbind {A B} (m : result A) (f : A -> result B) : result B :=
  match m with Ok a => f a | Err e => Err e end.

Notation "'do' x <- m ; f" := (rbind m (fun x => f))
  (at level 200, x pattern, m at level 100, f at level 200).

(** ** Arithmetic *)

(** The operations the numeric code of /repo uses: Python/numpy/numba float
    operators (add, sub, mul, true division, abs, the comparison operators),
    np.sqrt, [**], Python's [round] (half to even), [int] (truncation),
    [math.floor] and np.isnan. The arithmetic of water_tools.py, sed_tools.py, shared_tools.py. *)
Class Arith (F : Type) : Type := {
  fz : Z -> F;
  fadd : F -> F -> F;
  fsub : F -> F -> F;
  fmul : F -> F -> F;
  fdiv : F -> F -> F;
  fabs : F -> F;
  fopp : F -> F;
  fltb : F -> F -> bool;
  fleb : F -> F -> bool;
  feqb : F -> F -> bool;
  fsqrt : F -> F;
  fpow : F -> F -> F;
  frint : F -> Z;
  ftrunc : F -> Z;
  ffloor : F -> Z;
  fnan : F -> bool
}.

Section Derived.
  Context {F : Type} {A : Arith F}.
  (** Python max on two floats. As at water_tools.py:558, init_tools.py:418-419. *)
  Definition fmax (x y : F) : F := if fltb x y then y else x.
  (** Python min on two floats. As at init_tools.py:425. *)
  Definition fmin (x y : F) : F := if fltb y x then y else x.
  (** np.maximum, which propagates NaN. As at water_tools.py:336, 339. *)
  Definition npmax (x y : F) : F :=
    if fnan x then x else if fnan y then y else fmax x y.
  (** np.minimum, which propagates NaN. As at water_tools.py:517. *)
  Definition npmin (x y : F) : F :=
    if fnan x then x else if fnan y then y else fmin x y.
  (** A decimal literal n/d; the quotient of two exactly represented integers
      is the correctly rounded literal. As at init_tools.py:425, 439. *)
  Definition flit (n d : Z) : F := fdiv (fz n) (fz d).
End Derived.

Declare Scope fa_scope.
Delimit Scope fa_scope with fa.
Infix "+" := fadd : fa_scope.
Infix "-" := fsub : fa_scope.
Infix "*" := fmul : fa_scope.
Infix "/" := fdiv : fa_scope.
Infix "<?" := fltb : fa_scope.
Infix "<=?" := fleb : fa_scope.
Infix "=?" := feqb : fa_scope.
Infix "**" := fpow (at level 30, right associativity) : fa_scope.

(** *** Real arithmetic with an arbitrary rounding after each operation *)

Definition Rltb (x y : R) : bool := if Rlt_dec x y then true else false.
Definition Rleb (x y : R) : bool := if Rle_dec x y then true else false.
Definition Reqb (x y : R) : bool := if Req_EM_T x y then true else false.

(** Power with numpy's conventions on the domain the code uses (base >= 0,
    exponent >= 0): 0 ** 0 = 1 and 0 ** y = 0 for y > 0.  Coq's [Rpower 0 y]
    is not 0, hence the explicit case.  Negative bases give 0 here; no theorem
    uses them. As at sed_tools.py:781, 960. *)
Definition npow (x y : R) : R :=
  if Req_EM_T x 0 then (if Req_EM_T y 0 then 1 else 0)%R
  else if Rlt_dec 0 x then Rpower x y else 0%R.

(** Real-number instance: every operation is the exact one followed by
    [rnd].  [rnd = fun x => x] is exact arithmetic. *)
Definition RA (rnd : R -> R) : Arith R := {|
  fz := fun z => rnd (IZR z);
  fadd := fun x y => rnd (x + y)%R;
  fsub := fun x y => rnd (x - y)%R;
  fmul := fun x y => rnd (x * y)%R;
  fdiv := fun x y => rnd (x / y)%R;
  fabs := Rabs;
  fopp := Ropp;
  fltb := Rltb;
  fleb := Rleb;
  feqb := Reqb;
  fsqrt := fun x => rnd (sqrt x);
  fpow := fun x y => rnd (npow x y);
  frint := ZnearestE;
  ftrunc := Ztrunc;
  ffloor := Zfloor;
  fnan := fun _ => false
|}.

(** Exact real arithmetic. *)
Definition RX : Arith R := RA (fun x => x).

(** What the "robust" theorems assume of the rounding: it is monotone,
    idempotent and exact on 1/16 and on the integers up to a million.  Every IEEE rounding mode
    has these properties (see [RoundingFlocq.v]). *)
Class Rounding (rnd : R -> R) : Prop := {
  rnd_mono : forall x y, (x <= y)%R -> (rnd x <= rnd y)%R;
  rnd_idem : forall x, rnd (rnd x) = rnd x;
  rnd_small : forall n : Z, (Z.abs n <= 1000000)%Z -> rnd (IZR n) = IZR n;
  rnd_16th : rnd (1 / 16)%R = (1 / 16)%R
}.

Lemma rnd_0 {rnd} {HR : Rounding rnd} : rnd 0%R = 0%R.
Proof. apply (rnd_small 0). lia. Qed.
Lemma rnd_1 {rnd} {HR : Rounding rnd} : rnd 1%R = 1%R.
Proof. apply (rnd_small 1). lia. Qed.
Lemma rnd_opp1 {rnd} {HR : Rounding rnd} : rnd (-1)%R = (-1)%R.
Proof. apply (rnd_small (-1)). lia. Qed.

#[global] Instance Rounding_id : Rounding (fun x => x).
Proof. constructor; auto. Qed.

(** *** Elapsed times, which start at float("inf") (model.py:81, 83) *)
Inductive ext (F : Type) : Type := Inf | Fin (x : F).
Arguments Inf {F}.
Arguments Fin {F} x.
(** model.py:81-83, 149-215 *)
Definition ext_add {F} {A : Arith F} (e : ext F) (d : F) : ext F :=
  match e with Inf => Inf | Fin x => Fin (fadd x d) end.
(** e >= d for a d that is not NaN. iteration_tools.py:147, 166. *)
Definition ext_geb {F} {A : Arith F} (e : ext F) (d : F) : bool :=
  match e with Inf => negb (fnan d) | Fin x => fleb d x end.

(** *** IEEE binary64, executable (standard library SpecFloat) *)

Definition sfloat := spec_float.
Definition sf_prec : Z := 53.
Definition sf_emax : Z := 1024.

Definition sf_of_Z (z : Z) : sfloat := binary_normalize sf_prec sf_emax z 0 false.

(** floor of m * 2^e — as at sed_tools.py:96-162 *)
Definition sf_floor (x : sfloat) : Z :=
  match x with
  | S754_finite s m e =>
      let z := if s then Z.neg m else Z.pos m in
      if 0 <=? e then z * 2 ^ e else z / 2 ^ (- e)
  | _ => 0
  end.

(** truncation towards zero (Python int()) — as at init_tools.py:306-307, 450 *)
Definition sf_trunc (x : sfloat) : Z :=
  match x with
  | S754_finite s m e =>
      let a := if 0 <=? e then Z.pos m * 2 ^ e else Z.pos m / 2 ^ (- e) in
      if s then - a else a
  | _ => 0
  end.

(** round half to even (Python round, np.round) — as at init_tools.py:306-307, 418-419 *)
Definition sf_rint (x : sfloat) : Z :=
  match x with
  | S754_finite s m e =>
      let z := if s then Z.neg m else Z.pos m in
      if 0 <=? e then z * 2 ^ e
      else
        let d := 2 ^ (- e) in
        let q := z / d in
        let r2 := 2 * (z mod d) in
        if r2 <? d then q
        else if d <? r2 then q + 1
        else if Z.even q then q else q + 1
  | _ => 0
  end.

Fixpoint sf_pow_nat (x : sfloat) (n : nat) : sfloat :=
  match n with
  | O => sf_of_Z 1
  | S O => x
  | S n' => SFmul sf_prec sf_emax (sf_pow_nat x n') x
  end.

(** Power: only non-negative integer exponents below 64 are executable;
    anything else is NaN.  (libm's pow may differ in the last bit from the
    repeated product.) *)
Definition sf_pow (x y : sfloat) : sfloat :=
  let n := sf_trunc y in
  if SFeqb (sf_of_Z n) y && (0 <=? n) && (n <? 64)
  then sf_pow_nat x (Z.to_nat n) else S754_nan.

#[global] Instance F64 : Arith sfloat := {|
  fz := sf_of_Z;
  fadd := SFadd sf_prec sf_emax;
  fsub := SFsub sf_prec sf_emax;
  fmul := SFmul sf_prec sf_emax;
  fdiv := SFdiv sf_prec sf_emax;
  fabs := SFabs;
  fopp := SFopp;
  fltb := SFltb;
  fleb := SFleb;
  feqb := SFeqb;
  fsqrt := SFsqrt sf_prec sf_emax;
  fpow := sf_pow;
  frint := sf_rint;
  ftrunc := sf_trunc;
  ffloor := sf_floor;
  fnan := fun x => match x with S754_nan => true | _ => false end
|}.

(** ** 9-vectors: index 0..8 in row-major order of the 3x3 neighbourhood *)

(** water_tools.py:615-712 *)
Definition vec (F : Type) := nat -> F.

(** the directions, init_tools.py:334-390 *)
Definition D9 : list nat := seq 0 9.

(** Memoisation for execution only; see [vmemo_id]. *)
Definition vmemo {F} (v : vec F) : vec F :=
  let l := map v D9 in
  fun k => match nth_error l k with Some x => x | None => v k end.

Lemma vmemo_id {F} (v : vec F) : vmemo v = v.
Proof.
  apply functional_extensionality; intro k. unfold vmemo, D9.
  do 9 (destruct k as [|k]; [reflexivity|]).
  cbn. destruct k; reflexivity.
Qed.

Section Vec.
  Context {F : Type} {A : Arith F}.
  (** np.sum over a 9-vector: sequential accumulation from 0 (numba). As at water_tools.py:615-712. *)
  Definition vsum (v : vec F) : F :=
    fold_left (fun acc k => fadd acc (v k)) D9 (fz 0).
  (** np.any(np.isnan(v)) — as at water_tools.py:615-712 *)
  Definition vanynan (v : vec F) : bool := existsb (fun k => fnan (v k)) D9.
  (** np.sum of a boolean 9-vector — as at water_tools.py:615-712 *)
  Definition vcount (b : vec bool) : Z :=
    fold_left (fun acc k => if b k then acc + 1 else acc) D9 0.
  (** v[mask] = x — as at water_tools.py:615-712 *)
  Definition vset (v : vec F) (mask : vec bool) (x : F) : vec F :=
    fun k => if mask k then x else v k.
  (** the centre of the neighbourhood, water_tools.py:615-712 *)
  Definition isctr : vec bool := fun k => Nat.eqb k 4.
End Vec.

(** ** Grids *)

(** the arrays of init_tools.py:495-525 *)
Definition grid (F : Type) := Z -> Z -> F.

(** numpy index normalisation for an axis of length [n] (negative indices
    count from the end). As at water_tools.py:786-866. *)
Definition wrap (n i : Z) : Z := if i <? 0 then i + n else i.

(** Point update. As at water_tools.py:558. *)
Definition gset {F} (g : grid F) (i j : Z) (x : F) : grid F :=
  fun a b => if (a =? i) && (b =? j) then x else g a b.

(** Integer range 0 .. n-1 — range(n), as at water_tools.py:751 *)
Definition zrange (n : Z) : list Z := map Z.of_nat (seq 0 (Z.to_nat n)).

(** All cells of an L x W grid in row-major order. The loops of water_tools.py:751-752. *)
Definition cells (L W : Z) : list (Z * Z) :=
  flat_map (fun i => map (fun j => (i, j)) (zrange W)) (zrange L).

(** Memoisation for execution only; see [gmemo_id]. *)
Definition gmemo {F} (L W : Z) (g : grid F) : grid F :=
  let rows := map (fun i => map (fun j => g i j) (zrange W)) (zrange L) in
  fun i j =>
    if (0 <=? i) && (0 <=? j) then
      match nth_error rows (Z.to_nat i) with
      | Some row => match nth_error row (Z.to_nat j) with
                    | Some x => x
                    | None => g i j
                    end
      | None => g i j
      end
    else g i j.

Lemma zrange_nth_error n k :
  nth_error (zrange n) k = if Nat.ltb k (Z.to_nat n) then Some (Z.of_nat k) else None.
Proof.
  unfold zrange. destruct (Nat.ltb_spec k (Z.to_nat n)) as [H|H].
  - erewrite map_nth_error; [reflexivity|].
    rewrite (nth_error_nth' _ O); [|rewrite seq_length; lia].
    rewrite seq_nth; auto.
  - apply nth_error_None. rewrite map_length, seq_length. lia.
Qed.

Lemma gmemo_id {F} L W (g : grid F) : gmemo L W g = g.
Proof.
  apply functional_extensionality; intro i.
  apply functional_extensionality; intro j.
  unfold gmemo.
  destruct ((0 <=? i) && (0 <=? j)) eqn:E; [|reflexivity].
  apply andb_prop in E as [Ei Ej].
  apply Z.leb_le in Ei, Ej.
  destruct (nth_error (map _ (zrange L)) (Z.to_nat i)) as [row|] eqn:Er; [|reflexivity].
  destruct (nth_error row (Z.to_nat j)) as [x|] eqn:Ex; [|reflexivity].
  rewrite nth_error_map in Er. rewrite zrange_nth_error in Er.
  destruct (Nat.ltb _ _); [|discriminate]. cbn in Er.
  rewrite Z2Nat.id in Er by assumption.
  inversion Er; subst row; clear Er.
  rewrite nth_error_map, zrange_nth_error in Ex.
  destruct (Nat.ltb _ _); [|discriminate]. cbn in Ex.
  rewrite Z2Nat.id in Ex by assumption. congruence.
Qed.

(** Cell membership of the domain. init_tools.py:306-307. *)
Definition inb (L W i j : Z) : Prop := 0 <= i < L /\ 0 <= j < W.
(** init_tools.py:306-307 *)
Definition inbb (L W i j : Z) : bool := (0 <=? i) && (i <? L) && (0 <=? j) && (j <? W).

Lemma inbb_spec L W i j : inbb L W i j = true <-> inb L W i j.
Proof.
  unfold inbb, inb. rewrite !andb_true_iff, !Z.leb_le, !Z.ltb_lt. lia.
Qed.

Lemma zrange_In n i : In i (zrange n) <-> 0 <= i < n.
Proof.
  unfold zrange. rewrite in_map_iff. split.
  - intros (k & <- & Hk). apply in_seq in Hk. lia.
  - intros H. exists (Z.to_nat i). split; [lia|]. apply in_seq. lia.
Qed.

Lemma cells_In L W i j : In (i, j) (cells L W) <-> inb L W i j.
Proof.
  unfold cells, inb. rewrite in_flat_map. split.
  - intros (a & Ha & Hb). apply in_map_iff in Hb as (b & E & Hb).
    inversion E; subst. rewrite zrange_In in *. lia.
  - intros [Hi Hj]. exists i. split; [apply zrange_In; lia|].
    apply in_map_iff. exists j. split; [reflexivity|apply zrange_In; lia].
Qed.

(** 3x3 window of a padded grid [g] around padded cell (i+1, j+1), i.e.
    [g[i:i+3, j:j+3].ravel()]. water_tools.py:752-776. *)
Definition window {F} (g : grid F) (i j : Z) : vec F :=
  fun k => g (i + Z.of_nat k / 3) (j + Z.of_nat k mod 3).

(** ** Random generator *)

(** The numba/numpy generator state is opaque: [draw] produces the next
    uniform variate of [0,1) and the next state; [seed_rng] is np.random.seed. shared_tools.py:20-146. *)
Class Rng (F S : Type) : Type := {
  draw : S -> F * S;
  seed_rng : Z -> S
}.
