(** Model of the files of a run: the output file, its backup while resuming
    and the checkpoint — init_tools.py:633-757 (init_output_file), 839-997
    (load_checkpoint), iteration_tools.py:442-493 (save_the_checkpoint),
    model.py:129-143.  The contents of the files are kept abstract; figures
    and log files are not modelled.  A crash stops the process between two
    operations. *)
From Coq Require Import List Bool.
From Verif Require Import Base.
Import ListNotations.

Section Files.
  (** [U] units of the variables, [V] everything else in an output file, [C]
      contents of a checkpoint. *)
  Context {U V C : Type} (no_units : U).

  (** An output file: init_tools.py:664-757 writes units, 959-985 copies
      without them. *)
  Record dataset : Type := mkDataset { ds_units : U; ds_data : V }.
  (** init_tools.py:936-997 *)
  Definition copy (d : dataset) : dataset := mkDataset no_units (ds_data d).

  (** A file: complete; readable but written in part; unreadable. init_tools.py:839-997. *)
  Inductive file (T : Type) : Type := Whole (t : T) | Part (t : T) | Torn.
  Arguments Whole {T}. Arguments Part {T}. Arguments Torn {T}.

  (** The folder: pyDeltaRCM_output.nc, old_pyDeltaRCM_output.nc (init_tools.py:947)
      and checkpoint.npz. *)
  Record folder : Type := mkFolder {
    fo_out : option (file dataset); fo_old : option (file dataset); fo_ckp : option (file C) }.

  (** Operations on the folder. init_tools.py:633-757, 936-997. *)
  Definition put_out (x : option (file dataset)) (f : folder) : folder := mkFolder x (fo_old f) (fo_ckp f).
  (** init_tools.py:936-997 *)
  Definition put_old (x : option (file dataset)) (f : folder) : folder := mkFolder (fo_out f) x (fo_ckp f).
  (** iteration_tools.py:442-493 *)
  Definition put_ckp (x : option (file C)) (f : folder) : folder := mkFolder (fo_out f) (fo_old f) x.
  (** os.rename replaces an existing target — init_tools.py:948 *)
  Definition rename (f : folder) : folder := mkFolder None (fo_out f) (fo_ckp f).

  (** A program: the operations in order, and how it ends. init_tools.py:839-997. *)
  Definition program : Type := list (folder -> folder) * option exn.
  (** init_tools.py:839-997 *)
  Definition run_ops (ops : list (folder -> folder)) (f : folder) : folder := fold_left (fun f op => op f) ops f.
  (** A crash after [k] operations. init_tools.py:839-997. *)
  Definition crash_after (k : nat) (p : program) (f : folder) : folder := run_ops (firstn k (fst p)) f.
  (** init_tools.py:839-997 *)
  Definition finished (p : program) (f : folder) : folder := run_ops (fst p) f.

  (** init_tools.py:633-757; [saving] is whether grids or metadata are saved
      (651), [new] the file's first contents, [mid] what the file goes through
      while it is written. *)
  Definition init_output_file (saving clobber : bool) (new : dataset) (mid : list (file dataset)) (f : folder) : program :=
    if negb saving then ([], None) else
    match fo_out f with
    | Some _ =>
        if clobber then
          ((put_out None :: put_out (Some Torn) :: map (fun x => put_out (Some x)) mid) ++ [put_out (Some (Whole new))], None)
        else ([], Some FileExistsError)
    | None => ((put_out (Some Torn) :: map (fun x => put_out (Some x)) mid) ++ [put_out (Some (Whole new))], None)
    end.

  (** iteration_tools.py:442-493: the archive is written in place. *)
  Definition save_the_checkpoint (c : C) (mid : list (file C)) : program :=
    ((put_ckp (Some Torn) :: map (fun x => put_ckp (Some x)) mid) ++ [put_ckp (Some (Whole c))], None).

  (** One program after the other. init_tools.py:839-997. *)
  Definition then_ (p q : program) : program :=
    match snd p with None => (fst p ++ fst q, snd q) | Some e => (fst p, Some e) end.

  (** init_tools.py:839-997 (load_checkpoint), followed by nothing; [new] is the
      output file made if there is none (912-930), [mid] what the copy passes
      through. *)
  Definition load_checkpoint (saving clobber defer : bool) (new : dataset) (mid : list (file dataset)) (f : folder) : program :=
    match fo_ckp f with
    | None => ([], Some FileNotFoundError)
    | Some (Whole _) =>
        if saving && negb defer then
          match fo_out f with
          | None => init_output_file saving clobber new mid f
          | Some Torn => ([], Some RuntimeError)
          | Some (Whole d) | Some (Part d) =>
              ((rename :: put_out (Some Torn) :: map (fun x => put_out (Some x)) mid) ++
               [put_out (Some (Whole (copy d))); put_old None], None)
          end
        else ([], None)
    | Some _ => ([], Some PlainException)
    end.

  (** model.py:129-143: a model that does not resume writes the initial
      output, as configured; [first] is the file with the first record. *)
  Definition new_run (saving clobber defer : bool) (new first : dataset) (mid : list (file dataset))
      (ckp : option C) (midc : list (file C)) (f : folder) : program :=
    if defer then ([], None) else
    then_ (init_output_file saving clobber new mid f)
          (then_ (if saving then [put_out (Some (Whole first))] else [], None)
                 (match ckp with Some c => save_the_checkpoint c midc | None => ([], None) end)).
End Files.
Arguments dataset U V : clear implicits.
Arguments mkDataset {U V}. Arguments ds_units {U V}. Arguments ds_data {U V}.
Arguments Whole {T}. Arguments Part {T}. Arguments Torn {T}.
Arguments folder U V C : clear implicits.
Arguments mkFolder {U V C}. Arguments fo_out {U V C}. Arguments fo_old {U V C}. Arguments fo_ckp {U V C}.
Arguments program U V C : clear implicits.
