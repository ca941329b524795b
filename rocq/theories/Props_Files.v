(** Properties C37 and, for the files of a model, C53. *)
From Coq Require Import List Bool Lia.
From Verif Require Import Base Files FilesSpec FilesProofs.
Import ListNotations.

(** ** C37: resuming *)

(** Whatever the crash point of a resume, the saved data are in one of the
    two output files. *)
Theorem C37_data_survive_a_crash_while_resuming :
  forall U V C (no_units : U) saving clobber defer new mid (f : folder U V C) v k,
  has_data v (fo_out f) ->
  data_kept v (crash_after k (load_checkpoint no_units saving clobber defer new mid f) f).
Proof. exact @resume_keeps. Qed.
Print Assumptions C37_data_survive_a_crash_while_resuming.

(** A completed resume leaves the data in place, without the units of the
    variables and without a backup; the checkpoint is as before. *)
Theorem C37_completed_resume :
  forall U V C (no_units : U) clobber new mid (f : folder U V C) u v c,
  fo_ckp f = Some (Whole c) -> fo_out f = Some (Whole (mkDataset u v)) ->
  let p := load_checkpoint no_units true clobber false new mid f in
  snd p = None /\
  finished p f = mkFolder (Some (Whole (mkDataset no_units v))) None (Some (Whole c)).
Proof. exact @resume_done. Qed.
Print Assumptions C37_completed_resume.

(** Nothing is touched when the checkpoint cannot be read or the output file
    cannot be opened. *)
Theorem C37_unreadable_files_are_left_alone :
  forall U V C (no_units : U) saving clobber defer new mid (f : folder U V C),
  ~ checkpoint_readable f \/ saving = true /\ defer = false /\ fo_out f = Some Torn ->
  exists e, load_checkpoint no_units saving clobber defer new mid f = ([], Some e).
Proof. exact @resume_refused. Qed.
Print Assumptions C37_unreadable_files_are_left_alone.

(** But resuming again after a crash can destroy the saved data: the copy in
    progress replaces the backup. *)
Theorem C37_resuming_twice_refuted :
  exists (f : folder bool (list nat) nat) v k mid,
  has_data v (fo_out f) /\ checkpoint_readable f /\ unfinished mid /\
  let f1 := crash_after k (load_checkpoint false true false false (mkDataset true []) mid f) f in
  let p2 := load_checkpoint false true false false (mkDataset true []) [] f1 in
  snd p2 = None /\ ~ data_kept v (finished p2 f1).
Proof.
  exists (mkFolder (Some (Whole (mkDataset true [1; 2; 3]))) None (Some (Whole 7))), [1; 2; 3], 3,
    [Part (mkDataset false [1])].
  split; [exists true; reflexivity|]. split; [exists 7; reflexivity|]. split.
  - intros x [<-|[]] t. discriminate.
  - cbn. split; [reflexivity|]. intros [[u H]|[u H]]; cbn in H; discriminate.
Qed.
Print Assumptions C37_resuming_twice_refuted.

(** So can a crash right after the renaming, followed by two resumes. *)
Theorem C37_resuming_three_times_refuted :
  exists (f : folder bool (list nat) nat) v,
  has_data v (fo_out f) /\ checkpoint_readable f /\
  let resume f := load_checkpoint false true false false (mkDataset true []) [] f in
  let f1 := crash_after 1 (resume f) f in
  let f2 := finished (resume f1) f1 in
  let f3 := finished (resume f2) f2 in
  data_kept v f1 /\ data_kept v f2 /\ snd (resume f1) = None /\ snd (resume f2) = None /\ ~ data_kept v f3.
Proof.
  exists (mkFolder (Some (Whole (mkDataset true [1; 2; 3]))) None (Some (Whole 7))), [1; 2; 3].
  split; [exists true; reflexivity|]. split; [exists 7; reflexivity|]. cbn.
  split; [right; exists true; reflexivity|]. split; [right; exists true; reflexivity|].
  split; [reflexivity|]. split; [reflexivity|]. intros [[u H]|[u H]]; cbn in H; discriminate.
Qed.
Print Assumptions C37_resuming_three_times_refuted.

(** ** C37: checkpoints *)

(** Writing a checkpoint touches nothing else; before the first operation the
    former checkpoint is there and after the last one the new one is. *)
Theorem C37_checkpoint_crash_points :
  forall U V C c mid (f : folder U V C) k,
  let p := save_the_checkpoint c mid in
  let f' := crash_after k p f in
  fo_out f' = fo_out f /\ fo_old f' = fo_old f /\
  (k = 0 -> f' = f) /\ (length (fst p) <= k -> fo_ckp f' = Some (Whole c)) /\
  (unfinished mid -> 0 < k < length (fst p) -> ~ checkpoint_readable f').
Proof. exact @checkpoint_points. Qed.
Print Assumptions C37_checkpoint_crash_points.

(** So a crash can leave no readable checkpoint though there was one, and the
    run cannot be resumed. *)
Theorem C37_a_readable_checkpoint_remains_refuted :
  forall U V C (no_units : U) c (f : folder U V C), checkpoint_readable f ->
  let f' := crash_after 1 (save_the_checkpoint c []) f in
  ~ checkpoint_readable f' /\
  forall saving clobber defer new mid, exists e,
    load_checkpoint no_units saving clobber defer new mid f' = ([], Some e).
Proof.
  intros U V C no_units c f _. cbn. split; [intros [c' H]; discriminate|].
  intros saving clobber defer new mid. eexists. reflexivity.
Qed.
Print Assumptions C37_a_readable_checkpoint_remains_refuted.

Example C37_case :
  let f := mkFolder (Some (Whole (mkDataset true [1; 2; 3]))) (Some Torn) (Some (Whole 7)) in
  has_data [1; 2; 3] (fo_out f) /\ checkpoint_readable f.
Proof. split; [exists true|exists 7]; reflexivity. Qed.

(** ** C53: the output file of a new run *)

(** Without the switch, a new run that saves output fails if there is an
    output file, and touches nothing. *)
Theorem C53_existing_output_refused :
  forall U V C new first mid ckp midc (f : folder U V C) x,
  fo_out f = Some x ->
  new_run true false false new first mid ckp midc f = ([], Some FileExistsError).
Proof. exact @new_run_refused. Qed.
Print Assumptions C53_existing_output_refused.

(** With it, or if there is none, the run has an output file of its own; a
    backup is not touched, and neither is anything if nothing is saved. *)
Theorem C53_output_created :
  forall U V C clobber new first mid ckp midc (f : folder U V C),
  clobber = true \/ fo_out f = None ->
  let p := new_run true clobber false new first mid ckp midc f in
  snd p = None /\ fo_out (finished p f) = Some (Whole first) /\ fo_old (finished p f) = fo_old f.
Proof. exact @new_run_creates. Qed.
Print Assumptions C53_output_created.

Theorem C53_nothing_saved_nothing_touched :
  forall U V C clobber defer new first mid midc (f : folder U V C),
  new_run false clobber defer new first mid None midc f = ([], None).
Proof. intros. destruct defer; reflexivity. Qed.
Print Assumptions C53_nothing_saved_nothing_touched.

(** An existing checkpoint is replaced without asking by a new run that saves
    checkpoints but no output. *)
Theorem C53_existing_checkpoint_kept_refuted :
  forall U V C new first mid c midc (f : folder U V C) c0,
  fo_ckp f = Some (Whole c0) ->
  let p := new_run false false false new first mid (Some c) midc f in
  snd p = None /\ fo_ckp (finished p f) = Some (Whole c).
Proof.
  intros U V C new first mid c midc f c0 H. cbn. split; [reflexivity|].
  apply (checkpoint_done (U:=U) (V:=V)).
Qed.
Print Assumptions C53_existing_checkpoint_kept_refuted.

Example C53_case :
  let f := mkFolder (Some (Whole (mkDataset true [1; 2; 3]))) None (Some (Whole 7)) in
  new_run true false false (mkDataset true []) (mkDataset true [0]) [] (Some 8) [] f = ([], Some FileExistsError) /\
  finished (new_run true true false (mkDataset true []) (mkDataset true [0]) [] (Some 8) [] f) f =
    mkFolder (Some (Whole (mkDataset true [0]))) None (Some (Whole 8)).
Proof. split; reflexivity. Qed.
