(** Property C71: the command line. *)
From Coq Require Import ZArith List Bool String Reals Lra Lia.
From Verif Require Import Base RLemmas Dict Config Expand ExpandSpec ExpandCor Jobs JobsSpec JobsProofs JobsInput Sched
  Cli CliSpec CliProofs Props_Jobs.
Import ListNotations.
Local Open Scope string_scope.

(** ** C71 *)

(** A command line is refused with a ValueError, and nothing is changed on
    disk, when a duration on it is not a number; otherwise its arguments are
    exactly what its options say. *)
Theorem C71_options :
  forall F int_of (float_of : string -> option F) o,
    match process_arguments int_of float_of o with
    | Ok args => numbers int_of float_of o /\ forall k v, dget k args = Some v <-> says int_of float_of o k v
    | Err e => e = ValueError /\ ~ numbers int_of float_of o /\
        forall seeds reload open d, preprocessor_cli int_of float_of seeds reload open o d = (d, Err ValueError)
    end.
Proof.
  intros F int_of float_of o. destruct (process_arguments int_of float_of o) as [args|e] eqn:E.
  - destruct (arguments_get int_of float_of o args E) as (H1 & _ & H2). auto.
  - pose proof (arguments_error int_of float_of o e E). subst e. split; [reflexivity|]. split.
    + intros HN. destruct (arguments_ok int_of float_of o HN) as [args Ea]. congruence.
    + intros seeds reload open d. unfold preprocessor_cli. rewrite E. reflexivity.
Qed.
Print Assumptions C71_options.

(** The jobs are those the Python interface makes for the same file and the
    arguments that the options say. *)
Theorem C71_same_as_python :
  forall F int_of (float_of : string -> option F) seeds reload open o d p f args,
    o_config o = Some p -> open p = Ok f -> process_arguments int_of float_of o = Ok args ->
    preprocessor_cli int_of float_of seeds reload open o d = preprocessor seeds reload (Some f) args d.
Proof.
  intros F int_of float_of seeds reload open o d p f args Ec Eo Ea. apply cli_as_python; [exact Ea|].
  rewrite Ec. exact Eo.
Qed.
Print Assumptions C71_same_as_python.

(** With several jobs, every job has what the options say, whatever the file
    says. *)
Theorem C71_options_reach_every_job :
  forall F int_of (float_of : string -> option F) seeds reload open o d d' pl,
    (forall p f, open p = Ok f -> well_formed f /\ ~ In "set" (dkeys f)) ->
    preprocessor_cli int_of float_of seeds reload open o d = (d', Ok pl) ->
    forall j k v, In j (pl_configs pl) -> says int_of float_of o k v -> dget k j = Some v.
Proof.
  intros F int_of float_of seeds reload open o d d' pl Hopen H j k v Hj Hs.
  destruct (cli_inv _ _ _ _ _ _ _ _ _ H) as (args & f & Ea & Ef & Hp).
  destruct (arguments_get int_of float_of o args Ea) as (_ & Wa & Hg).
  assert (Hf : well_formed f /\ ~ In "set" (dkeys f)).
  { destruct (o_config o) as [p|]; [exact (Hopen p f Ef)|]. injection Ef as <-. split; [constructor|intros []]. }
  refine (C49_arguments_reach_every_job F seeds reload (Some f) args d d' pl _ Wa _ Hp j k v Hj _ _ _ _).
  - intros f' E. injection E as <-. apply Hf.
  - intros Hset. apply key_dget in Hset as [w Hw].
    rewrite merged_get in Hw; [|intros f' E; injection E as <-; apply Hf|exact Wa].
    destruct (dget "set" args) as [u|] eqn:Eu; [apply Hg in Eu; inversion Eu|].
    apply Hf. eapply dget_key, Hw.
  - intros ->. inversion Hs.
  - intros ->. inversion Hs.
  - intros ->. inversion Hs.
  - apply Hg, Hs.
Qed.
Print Assumptions C71_options_reach_every_job.

(** Only the option makes a dry run: what the file says about it has no
    effect on the command line. *)
Theorem C71_dry_run_is_the_option :
  forall F (A : Arith F) int_of (float_of : string -> option F) o args (f : dict (value F)),
    process_arguments int_of float_of o = Ok args -> well_formed f ->
    dry (merged (Some f) args) = o_dryrun o.
Proof.
  intros F A int_of float_of o args f Ea Wf. destruct (arguments_get int_of float_of o args Ea) as (_ & Wa & Hg).
  unfold dry. rewrite merged_get; [|intros f' E; injection E as <-; exact Wf|exact Wa].
  rewrite (proj2 (Hg "dryrun" (VBool (o_dryrun o)))) by constructor. reflexivity.
Qed.
Print Assumptions C71_dry_run_is_the_option.

(** So a file that asks for a dry run, and gets one from the Python
    interface, is run from the command line. *)
Theorem C71_dry_run_of_the_file_refuted :
  ~ (forall F (A : Arith F) int_of (float_of : string -> option F) o args (f : dict (value F)),
       process_arguments int_of float_of o = Ok args -> well_formed f ->
       dry (merged (Some f) []) = true -> dry (merged (Some f) args) = true).
Proof.
  intros H.
  specialize (H R RX (fun _ => None) (fun _ => None) (mkOptions (Some "f.yml") None None None None false None)
    [("config", VStr "f.yml"); ("dryrun", VBool false)] [("timesteps", VInt 3); ("dryrun", VBool true)] eq_refl).
  assert (W : well_formed [("timesteps", VInt 3 : value R); ("dryrun", VBool true)]).
  { repeat constructor; cbn; intuition discriminate. }
  specialize (H W eq_refl). discriminate H.
Qed.
Print Assumptions C71_dry_run_of_the_file_refuted.

(** ** Duration *)
(** Without a file, the one job runs for the duration the options ask for:
    timesteps, else time, else years, the latter two times the factor. *)
Theorem C71_duration_without_file :
  forall int_of (float_of : string -> option R) seeds reload open o d d' pl now dt,
    o_config o = None ->
    preprocessor_cli int_of float_of seeds reload open o d = (d', Ok pl) ->
    exists c, pl_configs pl = [c] /\ pl_files pl = [UserFile] /\
      forall T, cli_end_time (A:=RX) float_of c now dt = Ok T <->
        exists D, option_duration int_of float_of o dt D /\ T = (now + D)%R.
Proof.
  intros int_of float_of seeds reload open o d d' pl now dt Ec H.
  destruct (cli_inv _ _ _ _ _ _ _ _ _ H) as (args & f & Ea & Ef & Hp). rewrite Ec in Ef. injection Ef as <-.
  destruct (arguments_get int_of float_of o args Ea) as (HN & Wa & Hg).
  assert (Hm : forall k, dget k (merged (Some []) args) = dget k args).
  { intros k. rewrite merged_get; [|intros f' E; injection E as <-; constructor|exact Wa]. destruct (dget k args); reflexivity. }
  assert (Habs : forall k, ~ (exists v, says int_of float_of o k v) -> dget k (merged (Some []) args) = None).
  { intros k Hk. rewrite Hm. destruct (dget k args) as [v|] eqn:E; [|reflexivity]. exfalso. apply Hk. exists v. apply Hg, E. }
  assert (Hpl : pl = mkPlan (merged (Some []) args) [merged (Some []) args] [UserFile] None).
  { assert (Hq : construct_file_list seeds reload (merged (Some []) args) d = (d', Ok pl)) by exact Hp.
    clear Hp. rename Hq into Hp. unfold construct_file_list, prelim_config_parsing, dmem in Hp.
    rewrite (Habs "set"), (Habs "matrix"), (Habs "ensemble") in Hp by (intros [v Hv]; inversion Hv).
    cbn in Hp. injection Hp as _ <-. reflexivity. }
  exists (merged (Some []) args). subst pl. split; [reflexivity|]. split; [reflexivity|].
  clear H Hp.
  assert (Gts : dget "timesteps" (merged (Some []) args)
     = match o_timesteps o with Some s => match int_of s with Some n => Some (VInt n) | None => None end | None => None end).
  { rewrite Hm. destruct (o_timesteps o) as [s|] eqn:E.
    - destruct (int_of s) as [n|] eqn:En; [apply Hg; econstructor; eauto|exfalso; apply (proj1 HN s E En)].
    - rewrite <- Hm. apply Habs. intros [v Hv]. inversion Hv; congruence. }
  assert (Gt : dget "time" (merged (Some []) args)
     = match o_time o with Some s => match float_of s with Some n => Some (VFloat n) | None => None end | None => None end).
  { rewrite Hm. destruct (o_time o) as [s|] eqn:E.
    - destruct (float_of s) as [n|] eqn:En; [apply Hg; econstructor; eauto|exfalso; apply (proj1 (proj2 HN) s E En)].
    - rewrite <- Hm. apply Habs. intros [v Hv]. inversion Hv; congruence. }
  assert (Gy : dget "time_years" (merged (Some []) args)
     = match o_time_years o with Some s => match float_of s with Some n => Some (VFloat n) | None => None end | None => None end).
  { rewrite Hm. destruct (o_time_years o) as [s|] eqn:E.
    - destruct (float_of s) as [n|] eqn:En; [apply Hg; econstructor; eauto|exfalso; apply (proj2 (proj2 HN) s E En)].
    - rewrite <- Hm. apply Habs. intros [v Hv]. inversion Hv; congruence. }
  assert (Gf : dget "If" (merged (Some []) args) = match o_If o with Some s => Some (VStr s) | None => None end).
  { rewrite Hm. destruct (o_If o) as [s|] eqn:E; [apply Hg; econstructor; eauto|].
    rewrite <- Hm. apply Habs. intros [v Hv]. inversion Hv; congruence. }
  destruct HN as (N1 & N2 & N3).
  revert Gts Gt Gy Gf. generalize (merged (Some []) args). intros c Gts Gt Gy Gf T.
  assert (Hplain : cli_end_time (A:=RX) float_of c now dt =
     match o_If o with
     | Some s => match float_of s with Some x => job_end_time (A:=RX) (dset "If" (VFloat x) c) now dt | None => Err ValueError end
     | None => job_end_time (A:=RX) c now dt
     end).
  { unfold cli_end_time, with_factor. rewrite Gf. destruct (o_If o) as [s|]; [|reflexivity]. destruct (float_of s); reflexivity. }
  rewrite Hplain. clear Hplain. unfold job_end_time. change RX with (RA (fun x => x)).
  split.
  - intros H.
    destruct (o_If o) as [fs|] eqn:Ei; [destruct (float_of fs) as [x|] eqn:Ex; [|discriminate]; rewrite !dget_dset in H; cbn [String.eqb Ascii.eqb Bool.eqb] in H|rewrite Gf in H];
    cbn [rbind to_float number] in H; rewrite Gts, Gt, Gy in H;
    (destruct (o_timesteps o) as [s|] eqn:Es;
      [destruct (int_of s) as [n|] eqn:En; [|destruct (N1 s eq_refl En)]; cbn [rbind number] in H; injection H as <-;
       eexists; split; [eapply by_timesteps; [exact Es|exact En|intros f Hf; congruence]|cbn; ring]|]);
    (destruct (o_time o) as [s|] eqn:Et;
      [destruct (float_of s) as [t|] eqn:En; [|destruct (N2 s eq_refl En)]; cbn [rbind number] in H; injection H as <-;
       eexists; split; [eapply by_time; [exact Es|exact Et|exact En|rewrite Ei; try exact Ex; reflexivity]|cbn; ring]|]);
    (destruct (o_time_years o) as [s|] eqn:Ey;
      [destruct (float_of s) as [t|] eqn:En; [|destruct (N3 s eq_refl En)]; cbn [rbind number] in H; injection H as <-;
       eexists; split; [eapply by_years; [exact Es|exact Et|exact Ey|exact En|rewrite Ei; try exact Ex; reflexivity]|cbn; field]|discriminate]).
  - intros (D & HD & ->). inversion HD as [s n Es En Hf|s t x Es Et En Hf|s t x Es Et Ey En Hf]; subst.
    + rewrite Es, En in Gts.
      destruct (o_If o) as [fs|] eqn:Ei.
      * destruct (float_of fs) as [x|] eqn:Ex; [|destruct (Hf fs eq_refl Ex)]. rewrite !dget_dset. cbn [String.eqb Ascii.eqb Bool.eqb].
        cbn [rbind to_float number]. rewrite Gts. cbn. reflexivity.
      * rewrite Gf, Gts. cbn. reflexivity.
    + rewrite Es in Gts. rewrite Et, En in Gt.
      destruct (o_If o) as [fs|] eqn:Ei.
      * rewrite Hf. rewrite !dget_dset. cbn [String.eqb Ascii.eqb Bool.eqb].
        cbn [rbind to_float number]. rewrite Gts, Gt. cbn. reflexivity.
      * subst x. rewrite Gf, Gts, Gt. cbn. reflexivity.
    + rewrite Es in Gts. rewrite Et in Gt. rewrite Ey, En in Gy.
      destruct (o_If o) as [fs|] eqn:Ei.
      * rewrite Hf. rewrite !dget_dset. cbn [String.eqb Ascii.eqb Bool.eqb].
        cbn [rbind to_float number]. rewrite Gts, Gt, Gy. cbn. do 2 f_equal. field.
      * subst x. rewrite Gf, Gts, Gt, Gy. cbn. do 2 f_equal. field.
Qed.
Print Assumptions C71_duration_without_file.

(** A number of time steps, wherever it comes from, decides: a duration in
    seconds or years given as an option has no effect on it. *)
Theorem C71_timesteps_decide :
  forall (float_of : string -> option R) (c : dict (value R)) now dt v n T,
    dget "timesteps" c = Some v -> numeric v n ->
    cli_end_time (A:=RX) float_of c now dt = Ok T -> T = (now + n * dt)%R.
Proof. exact cli_end_time_by_timesteps. Qed.
Print Assumptions C71_timesteps_decide.

(** The help text says that a time on the command line overrides time steps
    there and in the file.  It does not: two jobs whose file asks for 3 time
    steps, a command line that asks for 1000 seconds and 7 steps or for 1000
    seconds alone. *)
Definition ex_float (s : string) : option R := if String.eqb s "1000" then Some 1000%R else None.
Definition ex_int (s : string) : option Z := if String.eqb s "7" then Some 7%Z else None.
Definition ex_two : dict (value R) :=
  [("out_dir", VStr "out"); ("timesteps", VInt 3); ("matrix", VDict [("h0", VList [VInt 4; VInt 5])])].
Definition ex_open (p : string) : result (dict (value R)) := if String.eqb p "f.yml" then Ok ex_two else Err FileNotFoundError.
Definition ex_options (steps : option string) : options := mkOptions (Some "f.yml") steps (Some "1000") None None false None.
Theorem C71_time_overrides_refuted :
  forall steps n, (steps, n) = (None, 3%Z) \/ (steps, n) = (Some "7", 7%Z) ->
  exists d pl, preprocessor_cli ex_int ex_float (fun _ => 0%Z) (fun v => v) ex_open (ex_options steps) (mkDisk [] []) = (d, Ok pl) /\
    List.length (pl_configs pl) = 2%nat /\
    forall c, In c (pl_configs pl) -> dget "time" c = Some (VFloat 1000%R) /\
      forall now dt T, cli_end_time (A:=RX) ex_float c now dt = Ok T -> T = (now + IZR n * dt)%R.
Proof.
  intros steps n Hc.
  destruct Hc as [E|E]; injection E as -> ->;
  (do 2 eexists; split; [vm_compute; reflexivity|]; split; [reflexivity|];
   intros c Hc; cbn in Hc; destruct Hc as [<-|[<-|[]]];
   (split; [reflexivity|]; intros now dt T HT; refine (cli_end_time_by_timesteps _ _ _ _ (VInt _) _ T _ (numeric_int _) HT); reflexivity)).
Qed.
Print Assumptions C71_time_overrides_refuted.

(** ** Cases *)
Example C71_case :
  process_arguments ex_int ex_float (mkOptions (Some "f.yml") (Some "7") None (Some "1000") (Some "0.5") true (Some None))
  = Ok [("config", VStr "f.yml"); ("timesteps", VInt 7); ("time_years", VFloat 1000%R); ("If", VStr "0.5");
        ("dryrun", VBool true); ("parallel", VBool true)] /\
  process_arguments ex_int ex_float (mkOptions None (Some "seven") None None None false None) = Err ValueError.
Proof. split; reflexivity. Qed.
Example C71_file_case : well_formed ex_two /\ ~ In "set" (dkeys ex_two) /\ ex_open "f.yml" = Ok ex_two.
Proof. split; [repeat constructor; cbn; intuition discriminate|]. split; [cbn; intuition discriminate|reflexivity]. Qed.
Example C71_without_file_case :
  exists pl, preprocessor_cli ex_int ex_float (fun _ => 0%Z) (fun v => v) ex_open
    (mkOptions None None (Some "1000") None (Some "1000") false None) (mkDisk [] []) = (mkDisk [] [], Ok pl) /\
    option_duration ex_int ex_float (mkOptions None None (Some "1000") None (Some "1000") false None) 5 (1000 * 1000).
Proof.
  eexists. split; [vm_compute; reflexivity|]. eapply by_time; reflexivity.
Qed.
