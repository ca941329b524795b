(** Output switches: C44, C58. *)
From Coq Require Import ZArith NArith List Bool String.
From Verif Require Import Base Dict Text Switches SwitchSpec SwitchProofs.
Import ListNotations.
Local Open Scope string_scope.

(** C44.  After any sequence of assignments that never switches the velocity
    figure off while it is on, exactly the switches that are on are selected,
    whatever was selected before. *)
Theorem C44_selection_follows_switches : forall l start x, selects x start -> velocity_kept start l ->
  exists x', assign_all l x = Ok x' /\ selects x' (current start l).
Proof. exact assign_all_ok. Qed.
Print Assumptions C44_selection_follows_switches.

(** Non-trivial case: a grid on, off and on again, and a figure on. *)
Example C44_sequence : list (switch * bool) :=
  [(Grd GEta, true); (Fig FVelocity, true); (Grd GEta, false); (Grd GVelocityXY, true); (Grd GEta, true)].
Example C44_sequence_kept : velocity_kept all_off C44_sequence.
Proof.
  intros l1 l2 E. apply current_notin. intros I. unfold C44_sequence in E.
  assert (D : In (Fig FVelocity, false) [(Grd GEta, true); (Fig FVelocity, true); (Grd GEta, false);
            (Grd GVelocityXY, true); (Grd GEta, true)]).
  { rewrite E. apply in_or_app. right. left. reflexivity. }
  cbn in D. intuition discriminate.
Qed.
Example C44_sequence_result : exists x, assign_all C44_sequence no_selection = Ok x /\
  fig_list x = [("velocity", "uw")] /\
  var_list x = [("velocity_x", "ux"); ("velocity_y", "uy"); ("eta", "eta")].
Proof. eexists. repeat split. Qed.

(** Nothing is selected before the first assignment. *)
Theorem C44_starts_empty : selects no_selection all_off.
Proof. exact no_selection_selects. Qed.
Print Assumptions C44_starts_empty.

(** Switching the velocity figure off while it is on raises KeyError, or
    drops the sediment-flux figure instead and keeps the velocity figure. *)
Theorem C44_velocity_figure_refuted : forall x on, selects x on -> on (Fig FVelocity) = true ->
  (on (Fig FSedflux) = false -> assign_switch (Fig FVelocity) false x = Err KeyError) /\
  (on (Fig FSedflux) = true -> exists x', assign_switch (Fig FVelocity) false x = Ok x' /\
     In ("velocity", "uw") (fig_list x') /\ ~ In "sedflux" (dkeys (fig_list x')) /\
     fig_on x' FVelocity = false /\ fig_on x' FSedflux = true).
Proof. exact velocity_off. Qed.
Print Assumptions C44_velocity_figure_refuted.

Example C44_velocity_case : exists x, selects x (current all_off [(Fig FVelocity, true)]) /\
  current all_off [(Fig FVelocity, true)] (Fig FVelocity) = true.
Proof.
  destruct (assign_all_ok [(Fig FVelocity, true)] all_off no_selection no_selection_selects) as [x [_ H]].
  - intros l1 l2 E. destruct l1 as [|e [|? l1]]; cbn in E; discriminate.
  - exists x. split; [exact H|reflexivity].
Qed.

(** Construction assigns every switch once; it never fails and selects
    exactly the switches configured on. *)
Theorem C44_construction : forall on, exists x, assign_all (configured on) no_selection = Ok x /\ selects x on.
Proof. exact configured_ok. Qed.
Print Assumptions C44_construction.

(** Every record of a model whose switches have not changed since it was
    built holds exactly the grids and figures switched on; it has a time and
    the time-varying metadata exactly when some grid or the metadata switch
    is on. *)
Theorem C44_records : forall x on md ts, selects x on ->
  exists r, save_grids_and_figs (open_writer x md ts) = Ok r /\
    sv_figs r = fig_list x /\ sv_grids r = var_list x /\
    (sv_time r = true <-> metas_on on md) /\
    ((metas_on on md -> sv_meta r = ["H_SL"; "f_bedload"; "C0_percent"; "u0"]) /\
     (~ metas_on on md -> sv_meta r = [])).
Proof. exact record_ok. Qed.
Print Assumptions C44_records.

(** A grid switched on after construction: the next record fails when some
    grid was on at construction and is silently without grids otherwise. *)
Theorem C44_late_grid_refuted : forall x on md ts g w', selects x on -> on (Grd g) = false ->
  writer_assign (Grd g) true (open_writer x md ts) = Ok w' ->
  (any_grid on -> save_grids_and_figs w' = Err PlainException) /\
  (~ any_grid on -> exists r, save_grids_and_figs w' = Ok r /\ sv_grids r = []).
Proof. exact late_grid. Qed.
Print Assumptions C44_late_grid_refuted.

Example C44_late_grid_case : exists x w', assign_all (configured (fun s => same_switch s (Grd GEta))) no_selection = Ok x /\
  selects x (fun s => same_switch s (Grd GEta)) /\
  writer_assign (Grd GDepth) true (open_writer x true false) = Ok w' /\
  save_grids_and_figs w' = Err PlainException.
Proof.
  destruct (configured_ok (fun s => same_switch s (Grd GEta))) as [x [E H]].
  exists x. eexists. split; [exact E|]. split; [exact H|]. split; [reflexivity|].
  refine (proj1 (late_grid x _ true false GDepth _ H eq_refl eq_refl) _). exists GEta. reflexivity.
Qed.

(** C58.  With sequential figures no figure file is written twice: the file
    determines the variable and the record. *)
Theorem C58_sequential_figures_distinct : forall f g n m,
  figure_file true (fst (fig_output f)) n = figure_file true (fst (fig_output g)) m -> f = g /\ n = m.
Proof. exact figure_file_inj. Qed.
Print Assumptions C58_sequential_figures_distinct.

(** Otherwise there is one file per variable, whatever the record. *)
Theorem C58_latest_figures : forall f g n m,
  figure_file false (fst (fig_output f)) n = figure_file false (fst (fig_output g)) m <-> f = g.
Proof. exact figure_latest. Qed.
Print Assumptions C58_latest_figures.

Example C58_names : figure_file true "eta" 12 = "eta_00012.png" /\ figure_file true "eta" 1234567 = "eta_1234567.png" /\
  figure_file false "eta" 12 = "eta_latest.png".
Proof. repeat split. Qed.
