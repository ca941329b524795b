(** Model of parallel jobs: preprocessor.py:552-631 (run_jobs) and 862-928
    (_ParallelJob.run).  The main process and the jobs' processes take turns
    in any order.  A put on the queue is one step; the construction of a job,
    its run and its finalization are steps with a given outcome (Jobs.v says
    what they compute). *)
From Coq Require Import ZArith List Bool Arith String.
From Verif Require Import Base Config Jobs.
Import ListNotations.

(** ** Mode: preprocessor.py:552-590 *)
Section Mode.
  Context {F : Type} {A : Arith F}.

  (** Python truth of a value. preprocessor.py:552-590. *)
  Definition truthy (v : value F) : bool :=
    match v with
    | VNone => false
    | VBool b => b
    | VInt z => negb (z =? 0)%Z
    | VFloat x => negb (feqb x (fz 0))
    | VStr s => negb (String.eqb s ""%string)
    | VList l => match l with [] => false | _ => true end
    | VDict d => match d with [] => false | _ => true end
    end.

  (** preprocessor.py:552-586: [None] is one job after the other, [Some k] is
      parallel with [k] slots; multiprocessing.Semaphore refuses a negative
      number. *)
  Definition run_mode (flag : option (value F)) (linux : bool) (cpus jobs : Z) : result (option Z) :=
    let flag := match flag with Some v => v | None => VBool false end in
    if truthy flag then
      if negb linux then Err NotImplementedError else
      do k <- match flag with
              | VBool true => Ok (if (cpus - 1 =? 0)%Z then 1 else cpus - 1)%Z
              | VInt z => Ok z
              | _ => Err ValueError
              end;
      let k := Z.min k jobs in
      if (k <? 0)%Z then Err ValueError else Ok (Some k)
    else match flag with VBool false => Ok None | _ => Err ValueError end.
End Mode.

(** ** Processes *)

(** What happens to a job: its construction in the main process (610-613),
    its run (869-885) and its finalization (888-890) in its own. *)
Record fate : Type := mkFate { f_construct : option exn; f_run : option exn; f_finalize : option exn }.

(** The stages of a job's process — preprocessor.py:862-905 *)
Inductive stage : Type := Absent | Started | Running | Finalizing | Releasing | Exited.

(** The main process: waiting for a slot for job [i] (592), about to
    construct and start job [i] with the slot taken (594-613), waiting for job
    [i] to exit (616-617), finished, or ended by an exception. *)
Inductive main : Type := Waiting (i : nat) | Starting (i : nat) | Joining (i : nat) | Done | Raised (e : exn).

(** A system: the main process, the free slots, the jobs, the codes put on
    the queue so far. preprocessor.py:552-650. *)
Record system : Type := mkSystem {
  y_main : main; y_free : nat; y_stage : nat -> stage; y_queue : list (nat * code) }.

(** preprocessor.py:869-929 *)
Definition at_stage (i : nat) (s : stage) (f : nat -> stage) : nat -> stage :=
  fun k => if Nat.eqb k i then s else f k.

(** The code of a stage, and where the job goes from there —
    preprocessor.py:877-885, 893-903 *)
Definition run_code (x : option exn) : list code :=
  match x with None => [(1, 0)%Z] | Some e => if caught e then [(1, 1)%Z] else [] end.
(** preprocessor.py:877-903 *)
Definition after_run (x : option exn) : stage :=
  match x with None => Finalizing | Some e => if caught e then Finalizing else Releasing end.
(** preprocessor.py:905-929 *)
Definition finalize_code (x : option exn) : list code :=
  match x with None => [(2, 0)%Z] | Some e => if caught e then [(2, 1)%Z] else [] end.

(** preprocessor.py:869-929 *)
Definition tag (i : nat) (l : list code) : list (nat * code) := map (fun c => (i, c)) l.

Section Steps.
  (** The number of jobs and what happens to each. *)
  Context (n : nat) (fates : nat -> fate).

  (** preprocessor.py:580-650, 869-929 *)
  Inductive step : system -> system -> Prop :=
  (* preprocessor.py:592 *)
  | acquire i free st q : i < n ->
      step (mkSystem (Waiting i) (S free) st q) (mkSystem (Starting i) free st q)
  (* preprocessor.py:594-613 *)
  | start i free st q : f_construct (fates i) = None ->
      step (mkSystem (Starting i) free st q) (mkSystem (Waiting (S i)) free (at_stage i Started st) q)
  | start_fails i free st q e : f_construct (fates i) = Some e ->
      step (mkSystem (Starting i) free st q) (mkSystem (Raised e) free st q)
  (* preprocessor.py:616 *)
  | all_started free st q :
      step (mkSystem (Waiting n) free st q) (mkSystem (Joining 0) free st q)
  (* preprocessor.py:617 *)
  | join i free st q : i < n -> st i = Exited ->
      step (mkSystem (Joining i) free st q) (mkSystem (Joining (S i)) free st q)
  (* preprocessor.py:619-631 *)
  | all_joined free st q :
      step (mkSystem (Joining n) free st q) (mkSystem Done free st q)
  (* preprocessor.py:863 *)
  | begin m i free st q : i < n -> st i = Started ->
      step (mkSystem m free st q) (mkSystem m free (at_stage i Running st) (q ++ tag i [(0, 0)%Z]))
  (* preprocessor.py:866-885 *)
  | run m i free st q : i < n -> st i = Running ->
      step (mkSystem m free st q)
           (mkSystem m free (at_stage i (after_run (f_run (fates i))) st) (q ++ tag i (run_code (f_run (fates i)))))
  (* preprocessor.py:887-903 *)
  | finalize m i free st q : i < n -> st i = Finalizing ->
      step (mkSystem m free st q)
           (mkSystem m free (at_stage i Releasing st) (q ++ tag i (finalize_code (f_finalize (fates i)))))
  (* preprocessor.py:905-907 *)
  | release m i free st q : i < n -> st i = Releasing ->
      step (mkSystem m free st q) (mkSystem m (S free) (at_stage i Exited st) q).

  (** A schedule: any number of steps. preprocessor.py:580-650, 869-929. *)
  Inductive schedule : nat -> system -> system -> Prop :=
  | schedule_nil s : schedule 0 s s
  | schedule_cons k s s1 s2 : step s s1 -> schedule k s1 s2 -> schedule (S k) s s2.
End Steps.

(** preprocessor.py:586-590: the start, with [k] slots. *)
Definition initial (k : nat) : system := mkSystem (Waiting 0) k (fun _ => Absent) [].
