(** What the files of a run are meant to survive. *)
From Coq Require Import List.
From Verif Require Import Base Files.
Import ListNotations.

Section FilesSpec.
  Context {U V C : Type}.

  (** A complete file with the data [v]. *)
  Definition has_data (v : V) (x : option (file (dataset U V))) : Prop :=
    exists u, x = Some (Whole (mkDataset u v)).
  (** The data [v] is in one of the two output files. *)
  Definition data_kept (v : V) (f : folder U V C) : Prop := has_data v (fo_out f) \/ has_data v (fo_old f).
  (** A checkpoint can be read. *)
  Definition checkpoint_readable (f : folder U V C) : Prop := exists c, fo_ckp f = Some (Whole c).

  (** Files that are being written are not complete. *)
  Definition unfinished {T} (mid : list (file T)) : Prop := forall x, In x mid -> forall t, x <> Whole t.
End FilesSpec.
