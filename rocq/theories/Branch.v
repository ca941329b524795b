(** Model of runs on disk: folders, each with an output file and a checkpoint,
    and the processes that make a model, run it and are stopped — model.py:
    99-143, 184-215, 1067-1074, init_tools.py:633-668, 839-997.  Folders are
    compared by name; a relative and an absolute path to one folder are taken
    as different. *)
From Coq Require Import ZArith List Bool String.
From Verif Require Import Base Dict Config Params State Iter Inputs Init Session Switches Records.
Import ListNotations.
Local Open Scope string_scope.

Section Branch.
  Context {F : Type} {A : Arith F} {S N : Type} {G : Rng F S} {GN : NpRng N}.
  Context (store : F -> F).

  (** pyDeltaRCM_output.nc and checkpoint.npz of a folder — init_tools.py:652-668,
      iteration_tools.py:463. *)
  Record place : Type := mkPlace { out_file : option (ncfile F); saved : option (checkpoint F S) }.
  (** All folders. init_tools.py:29-35. *)
  Definition folders : Type := string -> place.
  (** Only the folder [own] changes: every path is joined to self.prefix —
      init_tools.py:652, 917, iteration_tools.py:463. *)
  Definition put (own : string) (p : place) (d : folders) : folders :=
    fun s => if String.eqb s own then p else d s.

  (** model.py:1067-1074 and 127: the folder that the checkpoint is read from,
      and whether the model resumes.  Other types are refused before
      (default.yml:136-138). *)
  Definition resume_checkpoint (own : string) (v : value F) : string * bool :=
    match v with
    | VStr s => (s, true)
    | VBool b => (own, b)
    | _ => (own, false)
    end.

  (** The checkpoint is replaced each time — iteration_tools.py:442-493. *)
  Fixpoint last_saved (o : list (output F S)) (old : option (checkpoint F S)) : option (checkpoint F S) :=
    match o with
    | [] => old
    | Record_ _ _ _ :: o' => last_saved o' old
    | Checkpoint c :: o' => last_saved o' (Some c)
    end.
  (** What a model writes, put into its folder; a missing output file was made
      before (init_tools.py:918-930, 664-668). iteration_tools.py:232-324, 442-493. *)
  Definition written (w : writer) (inp : inputs F) (P : params F) (o : list (output F S)) (p : place) : result place :=
    do f <- write_all store w inp P o (match out_file p with Some f => f | None => [] end);
    Ok (mkPlace (Some f) (last_saved o (saved p))).

  (** model.py:99-143: a model that saves grids or metadata, with out_dir
      [own], resume_checkpoint [v] and clobber_netcdf off; with what it writes
      at once. *)
  Definition start (own : string) (v : value F) (c : inputs F) (nb : S) (np : N) (d : folders)
    : result (model (F:=F) S * list (output F S) * N) :=
    let (src, resuming) := resume_checkpoint own v in
    if resuming then
      match saved (d src) with
      | None => Err FileNotFoundError
      | Some ck =>
          do (m, np) <- resume c ck (match out_file (d own) with None => true | Some _ => false end) nb np;
          Ok (m, [], np)
      end
    else
      match out_file (d own) with
      | Some _ => Err FileExistsError
      | None => new_model c nb np
      end.

  (** A process makes a model and completes [n] updates.  It may have been
      stopped, so that not all of what was to be written reached the disk:
      [lost] did not.  model.py:99-143, 184-215. *)
  Inductive session (w : writer) (c : inputs F) (own : string) (v : value F) (nb : S) (np : N) (n : nat) (d : folders)
    : state F S -> list (output F S) -> folders -> Prop :=
  | Session m o0 np' st o reached lost p :
      start own v c nb np d = Ok (m, o0, np') -> updates (m_P m) n (m_st m) = Ok (st, o) ->
      (o0 ++ o = reached ++ lost)%list -> written w (m_in m) (m_P m) reached (d own) = Ok p ->
      session w c own v nb np n d st lost (put own p d).
End Branch.
Arguments place F S : clear implicits.
Arguments mkPlace {F S}. Arguments out_file {F S}. Arguments saved {F S}.
Arguments folders F S : clear implicits.
