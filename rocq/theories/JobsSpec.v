(** What running jobs is meant to do. *)
From Coq Require Import ZArith List Bool String Reals.
From Verif Require Import Base Dict Config Params State Inputs Init InitSpec Jobs.
Import ListNotations.
Local Open Scope string_scope.
Local Open Scope R_scope.

(** ** Durations *)

(** A value that is a number, and which; true and false count as 1 and 0. *)
Inductive numeric : value R -> R -> Prop :=
| numeric_int z : numeric (VInt z) (IZR z)
| numeric_float x : numeric (VFloat x) x
| numeric_true : numeric (VBool true) 1
| numeric_false : numeric (VBool false) 0.

(** The intermittency factor of a configuration, 1 if not given. *)
Inductive intermittency (c : dict (value R)) : R -> Prop :=
| factor_given v x : dget "If" c = Some v -> numeric v x -> intermittency c x
| factor_default : dget "If" c = None -> intermittency c 1.

(** A configuration asks for [D] seconds of model time, when one step takes
    [dt]: timesteps come first, then time, then years. *)
Inductive asks (c : dict (value R)) (dt : R) : R -> Prop :=
| asks_timesteps v n If :
    intermittency c If -> dget "timesteps" c = Some v -> numeric v n -> asks c dt (n * dt)
| asks_time v t If :
    intermittency c If -> dget "timesteps" c = None -> dget "time" c = Some v -> numeric v t -> asks c dt (t * If)
| asks_years v t If :
    intermittency c If -> dget "timesteps" c = None -> dget "time" c = None ->
    dget "time_years" c = Some v -> numeric v t -> asks c dt (t * If * 86400 * (365 + 1 / 4)).

(** [k] is the least number of steps of [dt] that lead from [t] to [T] or
    beyond. *)
Definition least_reaching (t dt T : R) (k : nat) : Prop :=
  T <= t + INR k * dt /\ forall i, (i < k)%nat -> t + INR i * dt < T.

(** ** Seeds *)

Section Streams.
  Context {F : Type} {A : Arith F} {S : Type} {G : Rng F S} {N : Type} {GN : NpRng N}.

  (** A job's file gives its seed. *)
  Definition seed_given (f : file F) (z : Z) : Prop :=
    exists inp, configure [] f [] = Ok inp /\ i_seed inp = Some z.

  (** A job by itself, in a process whose generators are in state [nb] and
      [np]. *)
  Definition alone (fc : file F * dict (value F)) (nb : S) (np : N) (r : ran F S) : Prop :=
    serial [fc] nb np [r].
End Streams.

(** ** Failures *)

(** The errors a job catches. *)
Definition catchable (e : exn) : Prop := e = RuntimeError \/ e = ValueError.

(** A run of a job that reached its end time, or that failed with an error
    which was caught: the codes it reports, and the model is finalized. *)
Definition completed {F S} (r : ran F S) : Prop :=
  r_codes r = [(1, 0); (2, 0)]%Z /\ r_raised r = None /\ m_finalized (r_model r) = true.
Definition failed_cleanly {F S} (r : ran F S) : Prop :=
  r_codes r = [(1, 1); (2, 0)]%Z /\ r_raised r = None /\ m_finalized (r_model r) = true.
(** A run that ended with an error which was not caught. *)
Definition aborted {F S} (r : ran F S) (e : exn) : Prop :=
  r_codes r = [] /\ r_raised r = Some e /\ m_finalized (r_model r) = false.

(** ** Files *)
Section Files.
  Context {F : Type}.
  (** The user's file as the model reads it, and what it says about a key. *)
  Definition own_file (user : option (dict (value F))) : file F :=
    match user with Some f => Mapping f | None => NoFile end.
  Definition given (user : option (dict (value F))) (k : string) : option (value F) :=
    match user with Some f => dget k f | None => None end.
End Files.
