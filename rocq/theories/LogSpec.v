(** What is meant by the statements about the log. *)
From Coq Require Import ZArith List Bool String.
From Verif Require Import Base Config Iter Log Text.
Import ListNotations.
Local Open Scope string_scope.

(** [l] is obtained from [l'] by leaving lines out. *)
Inductive leaves_out {T : Type} : list T -> list T -> Prop :=
| lo_nil : leaves_out [] []
| lo_keep : forall x l l', leaves_out l l' -> leaves_out (x :: l) (x :: l')
| lo_drop : forall x l l', leaves_out l l' -> leaves_out l (x :: l').

(** The lines of a kind, in order. *)
Section Lines.
  Context {F : Type}.
  (** The lines in the log file. *)
  Definition in_file (e : entry F) : list (message F) :=
    match e with ToFile m => [m] | ToScreen _ => [] end.
  (** The lines on the screen. *)
  Definition on_screen (e : entry F) : list (message F) :=
    match e with ToFile _ => [] | ToScreen m => [m] end.
  (** Times and time steps reported in the file. *)
  Definition time_in_file (e : entry F) : list (F * Z) :=
    match e with ToFile (TimeIs t n) => [(t, n)] | _ => [] end.
  (** Configuration variables reported in the file. *)
  Definition config_in_file (e : entry F) : list (string * value F) :=
    match e with ToFile (ConfigIs k v) => [(k, v)] | _ => [] end.
  (** Warnings in the file. *)
  Definition warning_in_file (e : entry F) : list string :=
    match e with ToFile (Caution t) => [t] | _ => [] end.
  (** Notes that start with a given text. *)
  Definition note_in_file (start : string) (e : entry F) : list string :=
    match e with ToFile (Note t) => if String.prefix start t then [t] else [] | _ => [] end.
  (** The notes with a given text. *)
  Definition exactly_in_file (text : string) (e : entry F) : list string :=
    match e with ToFile (Note t) => if String.eqb text t then [t] else [] | _ => [] end.

  Definition lines_of {T} (kind : entry F -> list T) (l : list (entry F)) : list T := flat_map kind l.
End Lines.

(** The records and checkpoints among what is written. *)
Definition record_indices {F S} (o : list (output F S)) : list Z :=
  flat_map (fun x => match x with Record_ i _ _ => [i] | Checkpoint _ => [] end) o.
Definition checkpoints_in {F S} (o : list (output F S)) : list (checkpoint F S) :=
  flat_map (fun x => match x with Record_ _ _ _ => [] | Checkpoint c => [c] end) o.
