(** What the output switches are meant to do. *)
From Coq Require Import ZArith NArith List Bool String.
From Verif Require Import Base Dict Switches.
Import ListNotations.
Local Open Scope string_scope.

(** Output (name, field shown) each switch stands for. *)
Definition fig_output (f : fig) : string * string :=
  match f with
  | FEta => ("eta", "eta") | FStage => ("stage", "stage") | FDepth => ("depth", "depth")
  | FDischarge => ("discharge", "qw") | FVelocity => ("velocity", "uw")
  | FSedflux => ("sedflux", "qs") | FSandfrac => ("sandfrac", "sand_frac")
  end.
Definition grd_outputs (g : grd) : list (string * string) :=
  match g with
  | GEta => [("eta", "eta")] | GStage => [("stage", "stage")] | GDepth => [("depth", "depth")]
  | GDischarge => [("discharge", "qw")] | GVelocity => [("velocity", "uw")]
  | GSedflux => [("sedflux", "qs")] | GSandfrac => [("sandfrac", "sand_frac")]
  | GDischargeXY => [("discharge_x", "qx"); ("discharge_y", "qy")]
  | GVelocityXY => [("velocity_x", "ux"); ("velocity_y", "uy")]
  end.

Definition same_switch (s t : switch) : bool :=
  match s, t with Fig f, Fig g => fig_beq f g | Grd f, Grd g => grd_beq f g | _, _ => false end.
(** Value of a switch after a sequence of assignments (first one first);
    [start] before. *)
Definition current (start : switch -> bool) (l : list (switch * bool)) (s : switch) : bool :=
  fold_left (fun v e => if same_switch (fst e) s then snd e else v) l (start s).
Definition all_off (s : switch) : bool := false.

(** The velocity figure is never switched off while it is on. *)
Definition velocity_kept (start : switch -> bool) (l : list (switch * bool)) : Prop :=
  forall l1 l2, l = (l1 ++ (Fig FVelocity, false) :: l2)%list -> current start l1 (Fig FVelocity) = false.

(** Exactly the figures and grids that are on are selected, each once. *)
Record selects (x : selection) (on : switch -> bool) : Prop := {
  se_figs : forall k a, In (k, a) (fig_list x) <-> exists f, on (Fig f) = true /\ fig_output f = (k, a);
  se_vars : forall k a, In (k, a) (var_list x) <-> exists g, on (Grd g) = true /\ In (k, a) (grd_outputs g);
  se_figs_once : NoDup (dkeys (fig_list x));
  se_vars_once : NoDup (dkeys (var_list x));
  se_fig_on : forall f, fig_on x f = on (Fig f);
  se_grd_on : forall g, grd_on x g = on (Grd g)
}.

(** Some grid is saved. *)
Definition any_grid (on : switch -> bool) : Prop := exists g, on (Grd g) = true.

(** Metadata are saved: asked for, or some grid is saved. *)
Definition metas_on (on : switch -> bool) (save_metadata : bool) : Prop := save_metadata = true \/ any_grid on.

(** One assignment per switch. *)
Definition configured (on : switch -> bool) : list (switch * bool) := map (fun s => (s, on s)) switch_order.
