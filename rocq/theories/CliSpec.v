(** What the command line is meant to do. *)
From Coq Require Import ZArith List Bool String Reals.
From Verif Require Import Base Dict Config Cli.
Import ListNotations.
Local Open Scope string_scope.

Section CliSpec.
  Context {F : Type} (int_of : string -> option Z) (float_of : string -> option F).

  (** A command line says [v] about the setting [k]: what each option stands
      for.  The path of the file and whether to make a dry run are always
      said. *)
  Inductive says (o : options) : string -> value F -> Prop :=
  | says_file p : o_config o = Some p -> says o "config" (VStr p)
  | says_no_file : o_config o = None -> says o "config" VNone
  | says_timesteps s n : o_timesteps o = Some s -> int_of s = Some n -> says o "timesteps" (VInt n)
  | says_time s x : o_time o = Some s -> float_of s = Some x -> says o "time" (VFloat x)
  | says_time_years s x : o_time_years o = Some s -> float_of s = Some x -> says o "time_years" (VFloat x)
  | says_factor s : o_If o = Some s -> says o "If" (VStr s)
  | says_dryrun : says o "dryrun" (VBool (o_dryrun o))
  | says_parallel : o_parallel o = Some None -> says o "parallel" (VBool true)
  | says_processes k : o_parallel o = Some (Some k) -> says o "parallel" (VInt k).

  (** Every duration given is a number. *)
  Definition numbers (o : options) : Prop :=
    (forall s, o_timesteps o = Some s -> int_of s <> None) /\
    (forall s, o_time o = Some s -> float_of s <> None) /\
    (forall s, o_time_years o = Some s -> float_of s <> None).
End CliSpec.

(** The duration asked for by the options alone, when one step takes [dt]:
    timesteps first, then time, then years; the factor, 1 if not given,
    applies to the latter two. *)
Inductive option_duration (int_of : string -> option Z) (float_of : string -> option R) (o : options) (dt : R) : R -> Prop :=
| by_timesteps s n : o_timesteps o = Some s -> int_of s = Some n ->
    (forall f, o_If o = Some f -> float_of f <> None) ->
    option_duration int_of float_of o dt (IZR n * dt)
| by_time s t x : o_timesteps o = None -> o_time o = Some s -> float_of s = Some t ->
    match o_If o with Some f => float_of f = Some x | None => x = 1%R end ->
    option_duration int_of float_of o dt (t * x)
| by_years s t x : o_timesteps o = None -> o_time o = None -> o_time_years o = Some s -> float_of s = Some t ->
    match o_If o with Some f => float_of f = Some x | None => x = 1%R end ->
    option_duration int_of float_of o dt (t * x * 86400 * (365 + 1 / 4)).
