(** C73: what is saved, printed, and where, does not change the run. *)
From Coq Require Import Reals ZArith List Bool String Lia Lra.
From Verif Require Import Base RLemmas Shared Params State Water Sed Iter IterSpec
  Inputs Init InitSpec InitProofs Dict Config ConfigSpec ConfigProofs Examples QuietSpec QuietProofs Props_Init.
Import ListNotations.
Local Open Scope string_scope.

(** C73. In any arithmetic and for any generator: from states that differ in
    the output counters only, updates under constants that differ in the
    output settings only raise the same exceptions and give the same fields,
    clock, sea level and generator. *)
Theorem C73_updates_unchanged :
  forall {F} {A : Arith F} {S} {G : Rng F S} (P P' : params F) (st st' : state F S) (n : nat),
  same_constants P P' -> same_but_counters st st' ->
  same_outcome same_state (updates P n st) (updates P' n st').
Proof. intros. apply updates_quiet; assumption. Qed.
Print Assumptions C73_updates_unchanged.

(** C73. New models of configurations that differ in output settings only are
    the same but for those settings and the counters; the same exceptions are
    raised and the same number of seeds is drawn. *)
Theorem C73_new_models_unchanged :
  forall {F} {A : Arith F} {S N} {G : Rng F S} {GN : NpRng N} (c c' : inputs F) (nb : S) (np : N),
  same_inputs c c' ->
  same_outcome (fun r r' => same_model (fst (fst r)) (fst (fst r')) /\ snd r = snd r')
    (new_model (G:=G) c nb np) (new_model (G:=G) c' nb np).
Proof. intros. apply new_model_quiet; assumption. Qed.
Print Assumptions C73_new_models_unchanged.

(** C73. Configurations, from a file, keyword arguments or both, that give
    every parameter not concerned with output the same value: after any number
    of updates the runs are in the same state. *)
Theorem C73_output_settings_do_not_change_the_run :
  forall {F} {A : Arith F} {S N} {G : Rng F S} {GN : NpRng N} (custom : dict (declaration F))
    (f f' : file F) (kw kw' : dict (value F)) (c c' : inputs F) (nb : S) (np : N) (n : nat),
  is_dict custom -> readable f -> readable f' -> is_dict kw -> is_dict kw' ->
  differ_in_output_only f f' kw kw' ->
  configure custom f kw = Ok c -> configure custom f' kw' = Ok c' ->
  same_outcome same_state (run_model (G:=G) c nb np n) (run_model (G:=G) c' nb np n).
Proof.
  intros F A S N G GN custom f f' kw kw' c c' nb np n DC R1 R2 K1 K2 H E1 E2. apply run_quiet.
  exact (configure_quiet custom f f' kw kw' c c' DC R1 R2 K1 K2 H E1 E2).
Qed.
Print Assumptions C73_output_settings_do_not_change_the_run.

(** C73. What one run writes, however often it writes, are records and
    checkpoints of states that the other run goes through. *)
Theorem C73_outputs_show_the_same_run :
  forall {F} {A : Arith F} {S N} {G : Rng F S} {GN : NpRng N} (c c' : inputs F) (nb : S) (np : N) (n : nat)
    (st : state F S) o x,
  same_inputs c c' -> run_model (G:=G) c nb np n = Ok (st, o) -> In x o ->
  exists u y oy, (u <= n)%nat /\ run_model (G:=G) c' nb np u = Ok (y, oy) /\ shows x y.
Proof.
  intros F A S N G GN c c' nb np n st o x H E Hx.
  destruct (run_show _ _ _ _ _ _ _ E Hx) as (u & y & oy & Hu & Ey & Hs).
  pose proof (run_quiet c c' nb np u H) as K. rewrite Ey in K.
  destruct (run_model (G:=G) c' nb np u) as [[y' oy']|e] eqn:E'; [|contradiction]. 
  exists u, y', oy'. split; [exact Hu|]. split; [exact E'|exact (shows_same _ _ _ Hs K)].
Qed.
Print Assumptions C73_outputs_show_the_same_run.

(** Non-vacuity: the same file, once as is and once with keyword arguments that
    save more often, elsewhere, with checkpoints and more output. *)
Definition quiet_kw : dict (value R) :=
  [("save_dt", VInt 3600); ("checkpoint_dt", VInt 7200); ("save_checkpoint", VBool true);
   ("out_dir", VStr "elsewhere"); ("verbose", VInt 2); ("save_eta_grids", VBool true)].
Definition quiet_file : file R := Mapping [("Length", VInt 600); ("Width", VInt 700); ("seed", VInt 3); ("save_dt", VInt 50000)].

Example C73_hypotheses : exists c c',
  readable quiet_file /\ is_dict quiet_kw /\ is_dict (V:=value R) [] /\
  differ_in_output_only quiet_file quiet_file [] quiet_kw /\
  configure (A:=RX) [] quiet_file [] = Ok c /\ configure (A:=RX) [] quiet_file quiet_kw = Ok c' /\
  same_inputs c c' /\ i_save_dt c = IZR 50000 /\ i_save_dt c' = IZR 3600 /\ i_checkpoint_dt c = None /\
  i_checkpoint_dt c' = Some (IZR 7200) /\ i_Length c' = IZR 600.
Proof.
  eexists _, _. split; [|split; [|split; [|split; [|split; [reflexivity|split; [reflexivity|]]]]]].
  1-3: unfold readable, quiet_file, is_dict; cbn; repeat constructor; cbn; intuition discriminate.
  - intros k Hk. unfold given, quiet_kw. cbn [dget].
    repeat match goal with |- context [String.eqb k ?s] =>
      destruct (String.eqb_spec k s) as [->|_]; [exfalso; apply Hk; cbn; tauto|] end. reflexivity.
  - repeat split.
Qed.
