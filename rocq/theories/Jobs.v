(** Model of the jobs of the preprocessor: preprocessor.py:534-670
    (run_jobs, without the schedule of parallel jobs, which is in Sched.v),
    673-760 (_BaseJob), 763-836 (_SerialJob), 839-928 (_ParallelJob). *)
From Coq Require Import ZArith List Bool String.
From Verif Require Import Base Dict Config Shared Params State Water Sed Iter Inputs Init Session Expand.
Import ListNotations.
Local Open Scope Z_scope.
Local Open Scope string_scope.

Section Jobs.
  Context {F : Type} {A : Arith F} {S : Type} {G : Rng F S}.
  Notation value := (value F).
  Notation cfg := (dict value).

  (** ** End time: preprocessor.py:712-747 *)

  (** A number in arithmetic with a float: bool counts as int. preprocessor.py:712-747. *)
  Definition number (v : value) : result F :=
    match v with
    | VInt z => Ok (fz z)
    | VFloat x => Ok x
    | VBool b => Ok (fz (if b then 1 else 0))
    | _ => Err TypeError
    end.
  (** float(v); numbers given as text are not modelled. preprocessor.py:712-747. *)
  Definition to_float (v : value) : result F :=
    match v with VStr _ => Err ValueError | _ => number v end.

  (** preprocessor.py:713-747 *)
  Definition job_end_time (c : cfg) (now dt : F) : result F :=
    do fIf <- match dget "If" c with Some v => to_float v | None => Ok (fz 1) end;
    match dget "timesteps" c with
    | Some v => do n <- number v; Ok (fadd now (fmul n dt))
    | None =>
        match dget "time" c with
        | Some v => do t <- number v; Ok (fadd now (fmul t fIf))
        | None =>
            match dget "time_years" c with
            | Some v => do t <- number v;
                        Ok (fadd now (fmul (fmul (fmul t fIf) (fz 86400)) (flit 36525 100)))
            | None => Err ValueError
            end
        end
    end.

  (** ** Jobs *)

  (** A job with its model — preprocessor.py:706-747 *)
  Record job : Type := mkJob { j_model : model (F:=F) S; j_end : F }.

  (** preprocessor.py:710, with a file that does not ask to resume. *)
  Definition make_job {N} {GN : NpRng N} (f : file F) (c : cfg) (nb : S) (np : N)
    : result (job * list (output F S) * N) :=
    do inp <- configure [] f [];
    do (mo, np) <- new_model inp nb np;
    let (m, o) := mo : model (F:=F) S * list (output F S) in
    do t <- job_end_time c (s_time (m_st m)) (p_dt (m_P m));
    Ok (mkJob m t, o, np).

  (** What a job reads: its file, and its configuration updated with the file
      (preprocessor.py:591-602, 637-649).  A user file that was not given is
      read as an empty mapping. *)
  Definition job_input (user : option cfg) (d : disk F) (c : cfg) (jf : job_file) : result (file F * cfg) :=
    match jf with
    | UserFile =>
        match user with
        | None => Ok (NoFile, dupdate c [])
        | Some f => Ok (Mapping f, dupdate c f)
        end
    | JobFile dir =>
        match dget dir (d_jobs d) with
        | Some f => Ok (Mapping f, dupdate c f)
        | None => Err FileNotFoundError
        end
    end.

  (** The model uses the process's generator. shared_tools.py:19-54. *)
  Definition use_rng (g : S) (m : model (F:=F) S) : model S :=
    mkModel (m_in m) (m_P m) (set_rng g (m_st m)) (m_finalized m).

  (** How a loop over updates ends. preprocessor.py:800-836. *)
  Inductive ending : Type := Finished | Failed (e : exn).

  (** preprocessor.py:795-796, 873-874: [while time < end: update()], started
      with generator state [g]: the number of updates made, what they wrote,
      how it ended, and the generator and model afterwards.  A failing update
      leaves the generator and the fields in some state. *)
  Inductive loop (t_end : F) : S -> model (F:=F) S -> nat -> list (output F S) -> ending -> S -> model (F:=F) S -> Prop :=
  | loop_end g m : fltb (s_time (m_st m)) t_end = false -> loop t_end g m 0 [] Finished g m
  | loop_step g m m1 o n os r g' m' :
      fltb (s_time (m_st m)) t_end = true -> model_update (use_rng g m) = Ok (m1, o) ->
      loop t_end (s_rng (m_st m1)) m1 n os r g' m' ->
      loop t_end g m (Datatypes.S n) (o ++ os)%list r g' m'
  | loop_fail g m e g' st :
      fltb (s_time (m_st m)) t_end = true -> model_update (use_rng g m) = Err e ->
      loop t_end g m 0 [] (Failed e) g' (mkModel (m_in m) (m_P m) st (m_finalized m)).

  (** except (RuntimeError, ValueError) — preprocessor.py:799, 816, 877, 893 *)
  Definition caught (e : exn) : bool :=
    match e with RuntimeError | ValueError => true | _ => false end.

  (** A reported (stage, code) — preprocessor.py:800-835, 861, 877-903 *)
  Definition code : Type := (Z * Z)%type.

  (** The finalizing stage — preprocessor.py:811-835, 887-903: the codes, and
      the exception that escapes, if any. *)
  Definition finalize_stage (m : model (F:=F) S) : list code * option exn * model (F:=F) S :=
    match model_finalize m with
    | Ok m' => ([(2, 0)], None, m')
    | Err e => if caught e then ([(2, 1)], None, m) else ([], Some e, m)
    end.

  (** preprocessor.py:786-836 (_SerialJob.run), with the codes it logs. *)
  Record ran : Type := mkRan {
    r_updates : nat; r_output : list (output F S); r_codes : list code;
    r_raised : option exn; r_model : model (F:=F) S }.

  (** preprocessor.py:786-836 *)
  Inductive run_job : S -> job -> ran -> S -> Prop :=
  | run_finished g j n o g' m cs x m' :
      loop (j_end j) g (j_model j) n o Finished g' m -> finalize_stage m = (cs, x, m') ->
      run_job g j (mkRan n o ((1, 0) :: cs) x m') g'
  | run_caught g j n o e g' m cs x m' :
      loop (j_end j) g (j_model j) n o (Failed e) g' m -> caught e = true -> finalize_stage m = (cs, x, m') ->
      run_job g j (mkRan n o ((1, 1) :: cs) x m') g'
  | run_escaped g j n o e g' m :
      loop (j_end j) g (j_model j) n o (Failed e) g' m -> caught e = false ->
      run_job g j (mkRan n o [] (Some e) m) g'.

  (** preprocessor.py:636-649: all serial jobs are constructed before the
      first one runs.  The generator after a construction is the one the new
      model was seeded with. *)
  Fixpoint make_jobs {N} {GN : NpRng N} (l : list (file F * cfg)) (nb : S) (np : N)
    : result (list job * list (output F S) * S * N) :=
    match l with
    | [] => Ok ([], [], nb, np)
    | (f, c) :: l' =>
        do (jo, np) <- make_job f c nb np;
        let (j, o) := jo : job * list (output F S) in
        do (r, np) <- make_jobs l' (s_rng (m_st (j_model j))) np;
        let '(js, os, nb) := r : list job * list (output F S) * S in
        Ok (j :: js, (o ++ os)%list, nb, np)
    end.

  (** preprocessor.py:651-655: one job after the other, until an exception
      escapes. *)
  Inductive run_jobs : S -> list job -> list ran -> Prop :=
  | jobs_done g : run_jobs g [] []
  | jobs_next g j js r g' rs :
      run_job g j r g' -> r_raised r = None -> run_jobs g' js rs -> run_jobs g (j :: js) (r :: rs)
  | jobs_stop g j js r g' e :
      run_job g j r g' -> r_raised r = Some e -> run_jobs g (j :: js) [r].

  (** preprocessor.py:633-655: the serial branch of run_jobs. *)
  Definition serial {N} {GN : NpRng N} (l : list (file F * cfg)) (nb : S) (np : N) (rs : list ran) : Prop :=
    exists js o nb' np', make_jobs l nb np = Ok (js, o, nb', np') /\ run_jobs nb' js rs.

  (** preprocessor.py:583-614, 862-905: a parallel job is constructed by the
      main process and then runs in a copy of it made directly afterwards.
      The new process writes the initial output itself; the order of writing
      it is not modelled. *)
  Inductive parallel {N} {GN : NpRng N} : list (file F * cfg) -> S -> N -> list ran -> Prop :=
  | parallel_nil nb np : parallel [] nb np []
  | parallel_cons f c l nb np j o np' r g' rs :
      make_job f c nb np = Ok (j, o, np') -> run_job (s_rng (m_st (j_model j))) j r g' ->
      parallel l (s_rng (m_st (j_model j))) np' rs -> parallel ((f, c) :: l) nb np (r :: rs).
End Jobs.
Arguments job F S : clear implicits.
Arguments ran F S : clear implicits.
Arguments mkJob {F S}. Arguments j_model {F S}. Arguments j_end {F S}.
Arguments mkRan {F S}. Arguments r_updates {F S}. Arguments r_output {F S}. Arguments r_codes {F S}.
Arguments r_raised {F S}. Arguments r_model {F S}.
