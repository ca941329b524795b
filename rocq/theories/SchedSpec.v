(** What parallel scheduling is meant to do. *)
From Coq Require Import ZArith List Bool Arith.
From Verif Require Import Base Config Jobs JobsSpec Sched.
Import ListNotations.

(** A job that has been started and has not given its slot back. *)
Definition active (s : stage) : bool :=
  match s with Absent | Exited => false | _ => true end.
(** The number of active jobs among the first [n]. *)
Definition jobs_active (n : nat) (y : system) : nat :=
  List.length (filter (fun i => active (y_stage y i)) (seq 0 n)).

(** The codes put on the queue by job [i], in order. *)
Definition codes_of (i : nat) (q : list (nat * code)) : list code :=
  map snd (filter (fun c => Nat.eqb (fst c) i) q).

(** What a job is to report: that it started; then how its run ended, and how
    finalizing ended, except that an error which is not caught ends the job. *)
Inductive reports (f : fate) : list code -> Prop :=
| reports_ok : f_run f = None -> f_finalize f = None -> reports f [(0, 0); (1, 0); (2, 0)]%Z
| reports_failed e : f_run f = Some e -> catchable e -> f_finalize f = None -> reports f [(0, 0); (1, 1); (2, 0)]%Z
| reports_ok_failed e : f_run f = None -> f_finalize f = Some e -> catchable e -> reports f [(0, 0); (1, 0); (2, 1)]%Z
| reports_failed_failed e e' : f_run f = Some e -> catchable e -> f_finalize f = Some e' -> catchable e' ->
    reports f [(0, 0); (1, 1); (2, 1)]%Z
| reports_died e : f_run f = Some e -> ~ catchable e -> reports f [(0, 0)]%Z
| reports_ok_died e : f_run f = None -> f_finalize f = Some e -> ~ catchable e -> reports f [(0, 0); (1, 0)]%Z
| reports_failed_died e e' : f_run f = Some e -> catchable e -> f_finalize f = Some e' -> ~ catchable e' ->
    reports f [(0, 0); (1, 1)]%Z.

(** No further step is possible. *)
Definition stopped (n : nat) (fates : nat -> fate) (y : system) : Prop := forall y', ~ step n fates y y'.

(** ** Mode *)
(** How jobs are run: one after the other, or in parallel with [k] slots. *)
Inductive mode {F : Type} (linux : bool) (cpus jobs : Z) : option (value F) -> option Z -> Prop :=
| serial_default : mode linux cpus jobs None None
| serial_false : mode linux cpus jobs (Some (VBool false)) None
| parallel_true : linux = true -> mode linux cpus jobs (Some (VBool true)) (Some (Z.min (Z.max 1 (cpus - 1)) jobs))
| parallel_number z : linux = true -> (1 <= z)%Z -> mode linux cpus jobs (Some (VInt z)) (Some (Z.min z jobs)).
