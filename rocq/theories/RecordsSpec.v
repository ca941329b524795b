(** What the output file is meant to hold. *)
From Coq Require Import ZArith List Bool String.
From Verif Require Import Base Dict Params State Iter Inputs Init InitSpec Switches SwitchSpec Records.
Import ListNotations.
Local Open Scope string_scope.

Section RecordsSpec.
  Context {F : Type} {S : Type} (store : F -> F).

  (** The variables a grid switch stands for, and the field each one shows. *)
  Definition grd_fields (g : grd) : list (string * (state F S -> grid F)) :=
    match g with
    | GEta => [("eta", s_eta)] | GStage => [("stage", s_stage)] | GDepth => [("depth", s_depth)]
    | GDischarge => [("discharge", s_qw)] | GVelocity => [("velocity", s_uw)]
    | GSedflux => [("sedflux", s_qs)] | GSandfrac => [("sandfrac", s_sand_frac)]
    | GDischargeXY => [("discharge_x", s_qx); ("discharge_y", s_qy)]
    | GVelocityXY => [("velocity_x", s_ux); ("velocity_y", s_uy)]
    end.

  (** An entry of the file shows a state of a run with configuration [c]: its
      time; exactly the grids switched on, each once; sea level, and the
      configured sand share, concentration and inlet speed. *)
  Record shows (on : switch -> bool) (c : inputs F) (st : state F S) (e : entry F) : Prop := {
    sh_time : e_time e = store (s_time st);
    sh_grids : forall name x, In (name, x) (e_grids e) <->
      exists g fld, on (Grd g) = true /\ In (name, fld) (grd_fields g) /\ x = fun i j => store (fld st i j);
    sh_once : NoDup (dkeys (e_grids e));
    sh_meta : e_meta e = [("H_SL", store (s_H_SL st)); ("f_bedload", store (i_f_bedload c));
                          ("C0_percent", store (i_C0_percent c)); ("u0", store (i_u0 c))]
  }.

  (** Increasing numbers up to [n], the first one zero. *)
  Fixpoint increasing (l : list nat) : Prop :=
    match l with
    | a :: (b :: _) as r => (a < b)%nat /\ increasing r
    | _ => True
    end.
End RecordsSpec.

(** Indices that a file has no record for, or that are past its end, read as
    absent. *)
Definition entry_at {F} (f : ncfile F) (k : nat) : option (entry F) := nth k f None.
