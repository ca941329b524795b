(** Running all jobs of a preprocessor. *)
From Coq Require Import ZArith List Bool String.
From Verif Require Import Base Dict Config Params State Water Iter Inputs Init Expand Jobs.
Import ListNotations.

Section RunAll.
  Context {F : Type}.
  Notation cfg := (dict (value F)).

  (** preprocessor.py:583-602, 637-649: what each job reads, in order.  In the
      code the file of a job is read directly before its model is made; making
      models does not change job files. *)
  Definition job_inputs (user : option cfg) (d : disk F) (p : plan F) : result (list (file F * cfg)) :=
    mapM (fun cf => job_input user d (fst cf) (snd cf)) (combine (pl_configs p) (pl_files p)).
End RunAll.
