(** Model of jobs that resume from checkpoints. *)
From Coq Require Import ZArith List Bool String.
From Verif Require Import Base Dict Config Params State Water Iter Inputs Init Session Expand Jobs Files.
Import ListNotations.

Section Resumed.
  Context {F : Type} {A : Arith F} {S : Type} {G : Rng F S} {N : Type} {GN : NpRng N}.

  (** preprocessor.py:684-747 with a file that asks to resume: the model loads
      the checkpoint (model.py:129-132) and the job ends at the time of the
      checkpoint plus the duration.  [missing] is as in Session.load_checkpoint. *)
  Definition make_resumed (f : Config.file F) (c : dict (value F)) (ck : checkpoint F S) (missing : bool) (nb : S) (np : N)
    : result (job F S * N) :=
    do inp <- configure [] f [];
    do (m, np) <- resume inp ck missing nb np;
    do t <- job_end_time c (s_time (m_st m)) (p_dt (m_P m));
    Ok (mkJob m t, np).

  (** preprocessor.py:763-836, 633-655: a single serial job. *)
  Definition serial_resumed (f : Config.file F) (c : dict (value F)) (ck : checkpoint F S) (missing : bool) (nb : S) (np : N) (r : ran F S) : Prop :=
    exists j np' g', make_resumed f c ck missing nb np = Ok (j, np') /\ run_job (s_rng (m_st (j_model j))) j r g'.

  (** preprocessor.py:854-887: a parallel job is made with deferred output, so
      that the output file is not looked at (init_tools.py:914); in the new
      process the checkpoint is loaded again. *)
  Definition parallel_resumed (f : Config.file F) (c : dict (value F)) (ck : checkpoint F S) (missing : bool) (nb : S) (np : N) (r : ran F S) : Prop :=
    exists j np' st g', make_resumed f c ck false nb np = Ok (j, np') /\
      Session.load_checkpoint ck missing (m_st (j_model j)) = Ok st /\
      let m := mkModel (m_in (j_model j)) (m_P (j_model j)) st (m_finalized (j_model j)) in
      run_job (s_rng st) (mkJob m (j_end j)) r g'.
End Resumed.

Section JobFiles.
  Context {U V C : Type} (no_units : U).

  (** model.py:129-143: the files a constructor touches. *)
  Definition construct_files (resuming saving clobber defer : bool) (new first : dataset U V) (mid : list (Files.file (dataset U V)))
      (ckp : option C) (midc : list (Files.file C)) (f : folder U V C) : program U V C :=
    if resuming then Files.load_checkpoint no_units saving clobber defer new mid f
    else new_run saving clobber defer new first mid ckp midc f.

  (** preprocessor.py:789-790 and 877-899: the files touched until the first
      update of a job.  A parallel job is constructed with deferred output and
      its process does the rest. *)
  Definition job_start_files (parallel resuming saving clobber : bool) (new first : dataset U V) (mid : list (Files.file (dataset U V)))
      (ckp : option C) (midc : list (Files.file C)) (f : folder U V C) : program U V C :=
    let p := construct_files resuming saving clobber parallel new first mid ckp midc f in
    if parallel then then_ p (construct_files resuming saving clobber false new first mid ckp midc (finished p f)) else p.
End JobFiles.
