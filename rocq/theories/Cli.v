(** Model of the command line: preprocessor.py:931-1075 (PreprocessorCLI) and
    1148-1165 (preprocessor_wrapper), the dry run (preprocessor.py:179-180,
    541-542) and the intermittency factor given as text (preprocessor.py:
    715-718).  Recognising options in the words of the command line is
    argparse's work and not modelled, nor are --help and --version. *)
From Coq Require Import ZArith List Bool String.
From Verif Require Import Base Dict Config Expand Jobs Sched.
Import ListNotations.
Local Open Scope string_scope.

(** The options given.  [o_parallel] is None without the option, Some None
    when it has no number — preprocessor.py:988-1046 *)
Record options : Type := mkOptions {
  o_config : option string; o_timesteps : option string; o_time : option string;
  o_time_years : option string; o_If : option string; o_dryrun : bool; o_parallel : option (option Z) }.

Section Cli.
  Context {F : Type} {A : Arith F}.
  Notation value := (value F).
  Notation cfg := (dict value).
  (** int() and float() of a text; None is a ValueError. *)
  Context (int_of : string -> option Z) (float_of : string -> option F).

  (** preprocessor.py:1053-1064: a text converted, if given. *)
  Definition converted {T} (f : string -> option T) (wrap : T -> value) (key : string) (o : option string)
    : result cfg :=
    match o with
    | None => Ok []
    | Some s => match f s with Some x => Ok [(key, wrap x)] | None => Err ValueError end
    end.

  (** preprocessor.py:1048-1075: the arguments in the order of the parser's
      definition; options not given are left out, except for config and
      dryrun. *)
  Definition process_arguments (o : options) : result cfg :=
    do n <- converted int_of VInt "timesteps" (o_timesteps o);
    do t <- converted float_of VFloat "time" (o_time o);
    do y <- converted float_of VFloat "time_years" (o_time_years o);
    Ok ([("config", match o_config o with Some p => VStr p | None => VNone end)] ++ n ++ t ++ y ++
        match o_If o with Some s => [("If", VStr s)] | None => [] end ++
        [("dryrun", VBool (o_dryrun o))] ++
        match o_parallel o with
        | None => []
        | Some None => [("parallel", VBool true)]
        | Some (Some k) => [("parallel", VInt k)]
        end)%list.

  (** preprocessor.py:951-980 (PreprocessorCLI.__init__).  [open p] is what
      the loader makes of the file at [p]. *)
  Definition preprocessor_cli (seeds : nat -> Z) (reload : value -> value) (open : string -> result cfg)
      (o : options) (d : disk F) : io (F:=F) (plan F) :=
    match process_arguments o with
    | Err e => (d, Err e)
    | Ok args =>
        match match o_config o with None => Ok [] | Some p => open p end with
        | Err e => (d, Err e)
        | Ok f => construct_file_list seeds reload (merged (Some f) args) d
        end
    end.

  (** preprocessor.py:179-180, 541-542: whether run_jobs returns at once.  The
      flag is read before the configuration is expanded. *)
  Definition dry (c : cfg) : bool :=
    match dget "dryrun" c with Some v => truthy v | None => false end.

  (** preprocessor.py:715-718: float() of the intermittency factor, which may
      be a text. *)
  Definition with_factor (c : cfg) : result cfg :=
    match dget "If" c with
    | Some (VStr s) => match float_of s with Some x => Ok (dset "If" (VFloat x) c) | None => Err ValueError end
    | _ => Ok c
    end.
  (** preprocessor.py:713-747 *)
  Definition cli_end_time (c : cfg) (now dt : F) : result F :=
    do c <- with_factor c; job_end_time c now dt.
End Cli.
