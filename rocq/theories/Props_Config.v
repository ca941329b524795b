(** Properties C39, C40 (reading a configuration). *)
From Coq Require Import ZArith List Bool String Reals Lra Lia.
From Verif Require Import Base RLemmas Shared SharedSpec Params State Water WaterSpec Iter IterSpec
  Dict Inputs Init InitSpec InitProofs Examples Config ConfigSpec ConfigProofs.
Import ListNotations.
Local Open Scope Z_scope.
Local Open Scope string_scope.

(** ** C39 *)
(** Reading succeeds exactly when every given value is well typed.  The
    result has exactly the declared parameters (the library's in order, then
    the new ones of the subclass), each with the keyword value, else the
    file's, else the default; the keys reported as unused are the given ones
    that are neither parameters nor run controls. *)
Theorem C39_resolution :
  forall (F : Type) (A : Arith F) (custom : dict (declaration F)) (f : file F) (kw : dict (value F)),
    is_dict custom -> readable f -> is_dict kw ->
    (well_typed default_table custom f kw <->
     exists c unused, import_files default_table custom f kw = Ok (c, unused)) /\
    (~ well_typed default_table custom f kw -> import_files default_table custom f kw = Err TypeError) /\
    forall c unused, import_files default_table custom f kw = Ok (c, unused) ->
      (dkeys c = dkeys default_table ++ filter (fun k => negb (dmem k default_table)) (dkeys custom))%list /\
      (forall k, dget k c = option_map
         (fun d => match given f kw k with Some v => v | None => snd d end)
         (declared default_table custom k)) /\
      (forall k, In k unused <->
         given f kw k <> None /\ declared default_table custom k = None /\
         ~ In k ["timesteps"; "time"; "time_years"; "config"; "dryrun"; "parallel"]).
Proof.
  intros F A custom f kw DC RF DK.
  destruct (import_cases default_table custom f kw default_table_dict DC RF DK)
    as [[W [c [u [E [K [V U]]]]]]|[W E]].
  - split; [split; [intros _; eauto|intros _; exact W]|]. split; [contradiction|].
    intros c' u' E'. rewrite E in E'. injection E' as <- <-. auto.
  - split; [split; [contradiction|intros (c & u & E'); congruence]|]. split; [auto|].
    intros c u E'. congruence.
Qed.
Print Assumptions C39_resolution.

(** Keys that are not parameters have no influence on the configuration. *)
Theorem C39_unknown_keys_have_no_effect :
  forall (F : Type) (A : Arith F) (custom : dict (declaration F)) (f f' : file F) (kw kw' : dict (value F)),
    is_dict custom -> readable f -> readable f' -> is_dict kw -> is_dict kw' ->
    (forall k, declared default_table custom k <> None -> given f kw k = given f' kw' k) ->
    rbind (import_files default_table custom f kw) (fun r => Ok (fst r))
    = rbind (import_files default_table custom f' kw') (fun r => Ok (fst r)).
Proof. intros F A custom f f' kw kw'. exact (import_same default_table custom f f' kw kw' default_table_dict). Qed.
Print Assumptions C39_unknown_keys_have_no_effect.

(** Every numeric attribute of the model receives the resolved value of the
    parameter of the same name. *)
Theorem C39_attributes :
  forall (F : Type) (A : Arith F) (custom : dict (declaration F)) (f : file F) (kw : dict (value F)) c unused,
    is_dict custom -> readable f -> is_dict kw ->
    import_files default_table custom f kw = Ok (c, unused) ->
    exists inp, configure custom f kw = Ok inp /\
      forall k w, In (k, w) (attributes inp) -> exists v, dget k c = Some v /\ same_value v w.
Proof.
  intros F A custom f kw c unused DC RF DK E.
  destruct (inputs_of_Ok c (import_sound custom f kw c unused DC RF DK E)) as [inp [I H]].
  exists inp. split; [unfold configure; rewrite E; exact I|].
  intros k w HI. rewrite Forall_forall in H. exact (H (k, w) HI).
Qed.
Print Assumptions C39_attributes.

(** Without a file and without arguments the model has the documented
    defaults, is accepted, and runs for any number of steps. *)
Theorem C39_defaults_run :
  configure (A:=RX) [] NoFile [] = Ok documented_defaults /\ accepted documented_defaults /\
  forall (S N : Type) (G : Rng R S) (GN : NpRng N) (nb : S) (np : N) (n : nat),
    uniform_range G -> (forall s : S, 0 < fst (draw s))%R ->
    exists st o, run_model (A:=RX) documented_defaults nb np n = Ok (st, o).
Proof.
  split; [reflexivity|].
  assert (R : runnable documented_defaults).
  2:{ split; [exact (ru_accepted _ R)|]. intros S N G GN nb np n HG HP.
      exact (runnable_runs _ nb np n R HG HP). }
  constructor; cbn; try lra; try lia; try (intros ? [=]); try (repeat split; lra).
  constructor; cbn; try lra; try lia; try (intros ? [=]); try (repeat split; lra).
Qed.
Print Assumptions C39_defaults_run.

(** A file with an unknown key and a custom parameter; the keyword argument
    overrides the file. *)
Definition ex_custom : dict (declaration R) :=
  [("vegetation", ([TBool], VBool false)); ("dx", ([TInt], VInt 3))].
Definition ex_file : file R :=
  Mapping [("Length", VInt 400); ("colour", VStr "red"); ("seed", VInt 7); ("timesteps", VInt 10)].
Definition ex_kw : dict (value R) := [("Length", VFloat 600%R); ("vegetation", VBool true)].
Lemma ex_dicts : is_dict ex_custom /\ readable ex_file /\ is_dict ex_kw.
Proof.
  repeat split; unfold is_dict, dkeys; cbn;
    repeat (apply NoDup_cons; [cbn; intuition discriminate|]); apply NoDup_nil.
Qed.
Example C39_example :
  exists c, import_files (default_table (A:=RX)) ex_custom ex_file ex_kw = Ok (c, ["colour"]) /\
    dget "Length" c = Some (VFloat 600%R) /\ dget "seed" c = Some (VInt 7) /\
    dget "vegetation" c = Some (VBool true) /\ dget "dx" c = Some (VFloat (IZR 50)) /\
    dget "colour" c = None /\ dget "timesteps" c = None.
Proof. eexists. split; [reflexivity|]. repeat split; reflexivity. Qed.
Example C39_unknown_keys_hypotheses : forall k,
  declared (default_table (A:=RX)) ex_custom k <> None ->
  given ex_file ex_kw k = given (Mapping [("seed", VInt 7)]) ex_kw k.
Proof.
  intros k D. unfold given. destruct (dget k ex_kw) eqn:E; [reflexivity|]. cbn in E |- *.
  destruct (String.eqb_spec k "Length") as [->|N1]; [discriminate|].
  destruct (String.eqb_spec k "colour") as [->|N2]; [exfalso; apply D; reflexivity|].
  destruct (String.eqb_spec k "seed") as [->|N3]; [reflexivity|].
  destruct (String.eqb_spec k "timesteps") as [->|N4]; [exfalso; apply D; reflexivity|reflexivity].
Qed.

(** ** C40 *)
(** One ill-typed value is enough for a TypeError, whatever else is given;
    a single well-typed value is accepted. *)
Theorem C40_accepted_types :
  forall (F : Type) (A : Arith F) (k : string) (types : list ty) (default v : value F),
    dget k default_table = Some (types, default) ->
    (right_type v types -> exists c u, import_files default_table [] NoFile [(k, v)] = Ok (c, u) /\
       dget k c = Some v) /\
    (~ right_type v types -> forall custom f kw, is_dict custom -> readable f -> is_dict kw ->
       given f kw k = Some v -> import_files default_table custom f kw = Err TypeError).
Proof.
  intros F A k types default v D. split.
  - intros T.
    assert (K : is_dict [(k, v)]) by (unfold is_dict; cbn; repeat constructor; intros []).
    assert (D0 : is_dict (@nil (string * declaration F))) by constructor.
    assert (R0 : readable (@NoFile F)) by exact I.
    destruct (import_cases default_table [] NoFile [(k, v)] default_table_dict D0 R0 K)
      as [[W [c [u [E [_ [V _]]]]]]|[W E]].
    + exists c, u. split; [exact E|]. rewrite V. unfold declared, given. rewrite D. cbn.
      rewrite String.eqb_refl. reflexivity.
    + exfalso. apply W. intros k' d' v' D' G'. unfold given in G'. cbn in G'.
      destruct (String.eqb_spec k' k) as [->|N]; [|discriminate]. injection G' as <-.
      unfold declared in D'. rewrite D in D'. injection D' as <-. exact T.
  - intros T custom f kw DC RF DK G.
    destruct (import_cases default_table custom f kw default_table_dict DC RF DK)
      as [[W _]|[_ E]]; [|exact E].
    exfalso. apply T. apply (W k (types, default) v); [|exact G]. unfold declared. rewrite D. reflexivity.
Qed.
Print Assumptions C40_accepted_types.

(** An explicit null is rejected for every parameter, declared as allowing
    None or not. *)
Theorem C40_null_always_rejected :
  forall (F : Type) (A : Arith F) (custom : dict (declaration F)) (f : file F) (kw : dict (value F)) (k : string),
    is_dict custom -> readable f -> is_dict kw ->
    In k (dkeys (default_table (F:=F))) -> given f kw k = Some VNone ->
    import_files default_table custom f kw = Err TypeError.
Proof.
  intros F A custom f kw k DC RF DK HK G. apply key_dget in HK. destruct HK as [[types d] D].
  refine (proj2 (C40_accepted_types F A k types d VNone D) _ custom f kw DC RF DK G).
  intros H; inversion H.
Qed.
Print Assumptions C40_null_always_rejected.

(** Five parameters are declared as allowing None, so a declared-legal value
    is refused. *)
Theorem C40_declared_null_refuted :
  forall (F : Type) (A : Arith F) (k : string) (types : list ty) (default : value F),
    dget k default_table = Some (types, default) ->
    (In TNone types <-> In k ["seed"; "hb"; "active_layer_thickness"; "checkpoint_dt"; "stepmax"]).
Proof.
  intros F A k types default D. apply dget_In in D. unfold default_table in D.
  repeat (destruct D as [D|D]; [injection D as <- <- <-; cbn; intuition discriminate|]). contradiction D.
Qed.
Print Assumptions C40_declared_null_refuted.

(** Types are exact: a boolean is no number, a number no switch, and where
    only integers are declared a float is refused. *)
Theorem C40_types_are_exact :
  forall (F : Type) (types : list ty) (b : bool) (z : Z) (x : F),
    (right_type (F:=F) (VBool b) types <-> In TBool types) /\
    (right_type (F:=F) (VInt z) types <-> In TInt types) /\
    (right_type (VFloat x) types <-> In TFloat types).
Proof.
  intros F types b z x. repeat split; intros H; try (inversion H; assumption); constructor; assumption.
Qed.
Print Assumptions C40_types_are_exact.

(** A file that holds nothing is not an empty configuration. *)
Theorem C40_empty_file_rejected :
  forall (F : Type) (A : Arith F) (custom : dict (declaration F)) (kw : dict (value F)),
    exists e, import_files default_table custom EmptyFile kw = Err e.
Proof. intros F A custom kw. destruct kw; eexists; reflexivity. Qed.
Print Assumptions C40_empty_file_rejected.

Example C40_save_dt : (* a float interval, a boolean count, a null seed *)
  import_files (default_table (A:=RX)) [] NoFile [("save_dt", VFloat (86400 / 7)%R)] = Err TypeError /\
  import_files (default_table (A:=RX)) [] NoFile [("Np_water", VBool true)] = Err TypeError /\
  import_files (default_table (A:=RX)) [] (Mapping [("seed", VNone)]) [("Length", VInt 600)] = Err TypeError /\
  exists c, import_files (default_table (A:=RX)) [] (Mapping [("Length", VInt 600)]) [] = Ok (c, []) /\
    dget "Length" c = Some (VInt 600).
Proof. repeat split; try reflexivity. eexists. split; reflexivity. Qed.
