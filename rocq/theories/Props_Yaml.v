(** Property C69: the text of job configuration files. *)
From Coq Require Import ZArith NArith List Bool String Ascii.
From Verif Require Import Base Dict Text Config Expand ExpandSpec ExpandProofs ExpandRuns ExpandCor Regex YamlText YamlSpec YamlProofs
  Props_Expand.
Import ListNotations.
Local Open Scope string_scope.

(** ** C69 *)
(** The text that the preprocessor writes for a configuration loads as that
    configuration: None, truth values, integers, floats and plain texts come
    back as they were, under their keys, and nothing else appears.  [fstr] and
    [float_of] are Python's str and PyYAML's construct_yaml_float. *)
Theorem C69_config_reads_back :
  forall (F : Type) (fstr : F -> string) (float_of : string -> F) (c : dict (value F)),
    c <> [] -> NoDup (dkeys c) ->
    Forall (fun kv => good_key (fst kv) /\ readable fstr float_of (snd kv)) c ->
    exists t, config_text fstr c = Ok t /\ load_text float_of t = Ok (Mapping c).
Proof.
  intros F fstr float_of c Hne Hnd H. destruct (file_back fstr float_of c H) as (t & E & L). exists t. split; [exact E|].
  rewrite L, dupdate_fresh by (auto; intros k []). cbn [List.app]. destruct c; [congruence|reflexivity].
Qed.
Print Assumptions C69_config_reads_back.

(** A job file is opened for appending (a resumed set of jobs writes to it
    again): the loaded configuration is the first one updated by the second. *)
Theorem C69_written_twice :
  forall (F : Type) (fstr : F -> string) (float_of : string -> F) (a b : dict (value F)),
    NoDup (dkeys a) ->
    Forall (fun kv => good_key (fst kv) /\ readable fstr float_of (snd kv)) (a ++ b)%list -> (a ++ b)%list <> [] ->
    exists ta tb, config_text fstr a = Ok ta /\ config_text fstr b = Ok tb /\
      load_text float_of (ta ++ tb) = Ok (Mapping (dupdate a b)).
Proof.
  intros F fstr float_of a b Hnd H Hne. pose proof (file_back fstr float_of (a ++ b)%list H) as (t & E & L).
  apply Forall_app in H as [Ha Hb].
  destruct (config_back fstr float_of a Ha) as (ta & Ea & _). destruct (config_back fstr float_of b Hb) as (tb & Eb & _).
  exists ta, tb. split; [exact Ea|]. split; [exact Eb|].
  rewrite config_text_app, Ea, Eb in E. cbn [rbind] in E. injection E as <-. rewrite L.
  unfold dupdate. rewrite fold_left_app. fold (dupdate (@nil (string * value F)) a).
  rewrite dupdate_fresh by (auto; intros k []). cbn [List.app].
  fold (dupdate a b). destruct (dupdate a b) as [|x l] eqn:Ed; [|reflexivity].
  exfalso. revert Ed. apply dupdate_some. destruct a; [right; exact Hne|left; discriminate].
Qed.
Print Assumptions C69_written_twice.

(** Numbers in decimal or scientific notation are read as floats, with or
    without a sign in the exponent. *)
Theorem C69_scientific_notation :
  forall (F : Type) (float_of : string -> F) k s, good_key k -> decimal_text s ->
    load_text float_of (k ++ ": " ++ s ++ newline) = Ok (Mapping [(k, VFloat (float_of s))]).
Proof.
  intros F float_of k s Hk Hs. destruct (decimal_read float_of s Hs) as [Ht Hv].
  unfold load_text. assert (E : k ++ ": " ++ s ++ newline = (k ++ ": " ++ s) ++ newline ++ "") by (rewrite !append_assoc; reflexivity).
  rewrite E, lines_app.
  - cbn [load_lines]. rewrite (load_line_back float_of k s _ Hk Ht Hv). reflexivity.
  - rewrite !all_app, (proj1 Ht). assert (all_chars printable k = true) as ->; [|reflexivity].
    destruct Hk as (_ & Hk & _). revert Hk. apply all_impl. apply char_fact. vm_compute. reflexivity.
Qed.
Print Assumptions C69_scientific_notation.

Example C69_scientific_case : decimal_text "1e5" /\ decimal_text "-3.0E-07" /\ decimal_text "5." /\ good_key "coeff_U_dep_mud".
Proof.
  split; [|split; [|split]].
  - exists "", "1", "", "e5". repeat split; auto; try discriminate; [|intros [_ H]; discriminate].
    right. exists "e", "", "5". repeat split; auto. discriminate.
  - exists "-", "3", ".0", "E-07". repeat split; auto; try discriminate; [| |intros [_ H]; discriminate].
    + right. exists "0". auto.
    + right. exists "E", "-", "07". repeat split; auto. discriminate.
  - exists "", "5", ".", "". repeat split; auto; try discriminate; [|intros [H _]; discriminate].
    right. exists "". auto.
  - split; [eexists _, _; split; [reflexivity|reflexivity]|]. split; [reflexivity|].
    intros (r & t & Hin & M). apply matches_ok in M. cbn [resolvers In] in Hin.
    repeat destruct Hin as [Hin|Hin]; try contradiction; injection Hin as <- <-; vm_compute in M; discriminate.
Qed.

(** All the parameter names of the model can be keys of a job file. *)
Theorem C69_parameter_names : forall F (A : Arith F) k, In k (dkeys (default_table (F:=F))) -> good_key k.
Proof.
  intros F A k H.
  assert (K : forall l, forallb (fun k => match k with String c _ => letter c | "" => false end &&
      all_chars (fun c => letter c || is_digit c || Ascii.eqb c "_") k &&
      forallb (fun rt => negb (matches (fst rt) k)) resolvers) l = true -> In k l -> good_key k).
  { intros l Hl Hk. rewrite forallb_forall in Hl. specialize (Hl k Hk). apply andb_prop in Hl as [Hl H3].
    apply andb_prop in Hl as [H1 H2]. split; [destruct k; [discriminate|eauto]|]. split; [exact H2|].
    intros (r & t & Hin & M). rewrite forallb_forall in H3. specialize (H3 _ Hin). cbn [fst] in H3.
    apply matches_ok in M. rewrite M in H3. discriminate. }
  revert H. apply K. vm_compute. reflexivity.
Qed.
Print Assumptions C69_parameter_names.

(** The folder of every job comes back, for every output folder whose name
    YAML can take on a line. *)
Theorem C69_job_folder_reads_back :
  forall (F : Type) (fstr : F -> string) (float_of : string -> F) root i, folder_text root ->
    readable fstr float_of (VStr (join root (job_id i))).
Proof. intros F fstr float_of root i H. exact (job_folder root i H). Qed.
Print Assumptions C69_job_folder_reads_back.

Example C69_folder_case : folder_text "/home/user/my runs (2)/delta-1:a".
Proof.
  split; [reflexivity|eexists _, _; split; [reflexivity|split; [discriminate|reflexivity]]|..].
  - intros a b E. assert (P : pair_in ":" " " "/home/user/my runs (2)/delta-1:a" = true) by (apply pair_in_ok; exists a, b; exact E).
    discriminate P.
  - intros a b E. assert (P : pair_in " " "#" "/home/user/my runs (2)/delta-1:a" = true) by (apply pair_in_ok; exists a, b; exact E).
    discriminate P.
Qed.

(** Together with C46: loading the file of a job gives the job's
    configuration, when its values are of the kinds above.  [reload] is any
    account of what becomes of a value that agrees with the text. *)
Theorem C69_job_files_hold_the_jobs :
  forall (F : Type) (fstr : F -> string) (float_of : string -> F) seeds reload (c : dict (value F)) d d' p,
  (forall v t w, value_text fstr v = Ok t -> load_value float_of (" " ++ t) = Ok w -> reload v = w) ->
  well_formed c -> disk_ok d -> ~ asks_resume c -> multi_job c ->
  construct_file_list seeds reload c d = (d', Ok p) ->
  forall i j, nth_error (pl_configs p) i = Some j ->
    Forall (fun kv => readable fstr float_of (snd kv)) j ->
    exists f file, nth_error (pl_files p) i = Some (JobFile f) /\ dget "out_dir" j = Some (VStr f) /\
      dget f (d_jobs d') = Some file /\ forall k, dget k file = dget k j.
Proof.
  intros F fstr float_of seeds reload c d d' p Hr W D R M E i j Hj Hv.
  destruct (C46_job_files F seeds reload c d d' p W D R M E) as (dirs & Ef & _ & _ & Hlen & H).
  destruct (nth_error dirs i) as [f|] eqn:Ed.
  2:{ exfalso. apply nth_error_None in Ed. assert (nth_error (pl_configs p) i <> None) as K by congruence.
      apply nth_error_Some in K. rewrite <- Hlen in K. apply (proj1 (Nat.le_ngt _ _)) in Ed. contradiction. }
  destruct (H i f j Ed Hj) as (Ho & file & Hf & Hk). exists f, file.
  split; [rewrite Ef, nth_error_map, Ed; reflexivity|]. split; [exact Ho|]. split; [exact Hf|].
  intros k. rewrite Hk. destruct (dget k j) as [v|] eqn:Ev; [|reflexivity]. cbn [option_map]. f_equal.
  apply dget_In in Ev. rewrite Forall_forall in Hv. specialize (Hv _ Ev). cbn [snd] in Hv.
  destruct (value_back fstr float_of v Hv) as (t & Et & Ht & Hb). apply (Hr v t v Et). apply load_token; assumption.
Qed.
Print Assumptions C69_job_files_hold_the_jobs.

(** Non-trivial case, with floats shown by their text. *)
Definition some_config : dict (value string) :=
  [("out_dir", VStr "runs/job_004"); ("seed", VInt (-12)); ("f_bedload", VFloat "0.25"); ("coeff_U_dep_mud", VFloat "1e-05");
   ("save_eta_grids", VBool true); ("resume_checkpoint", VBool false); ("hydro", VNone)].
Example C69_some_config_text : config_text (fun x => x) some_config = Ok
"out_dir: runs/job_004
seed: -12
f_bedload: 0.25
coeff_U_dep_mud: 1e-05
save_eta_grids: True
resume_checkpoint: False
hydro: null
".
Proof. vm_compute. reflexivity. Qed.
Example C69_some_config_back :
  (do t <- config_text (fun x => x) some_config; load_text (fun x => x) t) = Ok (Mapping some_config).
Proof. vm_compute. reflexivity. Qed.
Example C69_some_config_meets_hypotheses : NoDup (dkeys some_config) /\ some_config <> [] /\
  Forall (fun kv => readable (fun x => x) (fun x => x) (snd kv)) some_config.
Proof.
  split; [|split; [discriminate|]].
  - unfold dkeys, some_config. cbn [map fst]. repeat constructor; cbn; intuition discriminate.
  - unfold some_config. repeat (apply Forall_cons; [cbn [snd readable]; try exact I|]); [..|apply Forall_nil].
    + apply (job_folder "runs" 4). split; [reflexivity|eexists _, _; split; [reflexivity|split; [discriminate|reflexivity]]|..];
        intros a b K.
      * assert (P : pair_in ":" " " "runs" = true) by (apply pair_in_ok; exists a, b; exact K). discriminate P.
      * assert (P : pair_in " " "#" "runs" = true) by (apply pair_in_ok; exists a, b; exact K). discriminate P.
    + split; [|reflexivity]. exists "", "0", ".25", "". repeat split; auto; try discriminate; [|intros [H _]; discriminate].
      right. exists "25". repeat split; auto. discriminate.
    + split; [|reflexivity]. exists "", "1", "", "e-05". repeat split; auto; try discriminate; [|intros [_ H]; discriminate].
      right. exists "-", "05". repeat split; auto. discriminate.
Qed.

(** Texts outside these conditions do not come back: the rest of a folder name
    after " #" is lost, a text that looks like a number or a truth value
    becomes one, a text with ": " spoils the whole file, and an infinite float
    becomes a text. *)
Theorem C69_other_texts_refuted :
  forall (F : Type) (fstr : F -> string) (float_of : string -> F),
    let back v := (do t <- config_text fstr [("out_dir", v)]; load_text float_of t) in
    back (VStr "run #2/job_000") = Ok (Mapping [("out_dir", VStr "run")]) /\
    back (VStr "1e5") = Ok (Mapping [("out_dir", VFloat (float_of "1e5"))]) /\
    back (VStr "2021") = Ok (Mapping [("out_dir", VInt 2021)]) /\
    back (VStr "no") = Ok (Mapping [("out_dir", VBool false)]) /\
    back (VStr "run: 2/job_000") = Err PlainException /\
    forall x, fstr x = "inf" -> back (VFloat x) = Ok (Mapping [("out_dir", VStr "inf")]).
Proof.
  intros F fstr float_of back. subst back. do 5 (split; [vm_compute; reflexivity|]).
  intros x Hx. cbn [config_text value_text rbind]. rewrite Hx. vm_compute. reflexivity.
Qed.
Print Assumptions C69_other_texts_refuted.

(** C69_job_files_hold_the_jobs applies to the matrix of C46: its first job,
    with whole numbers shown as Python shows floats. *)
Definition z_text (z : Z) : string := pyint z ++ ".0".
Definition z_of (s : string) : Z := read_digits 10 0 (substring 0 (String.length s - 2) s).
Definition reread (v : value Z) : value Z :=
  match value_text z_text v with
  | Ok t => match load_value z_of (" " ++ t) with Ok w => w | Err _ => v end
  | Err _ => v
  end.
Example C69_reread_agrees : forall v t w,
  value_text z_text v = Ok t -> load_value z_of (" " ++ t) = Ok w -> reread v = w.
Proof. intros v t w H1 H2. unfold reread. rewrite H1, H2. reflexivity. Qed.
Example C69_first_job : exists j,
  option_map (fun p => nth_error (pl_configs p) 0) (plan_of (construct_file_list some_seeds reread ex_matrix empty_disk)) = Some (Some j) /\
  Forall (fun kv => readable z_text z_of (snd kv)) j.
Proof.
  eexists. split; [vm_compute; reflexivity|].
  repeat (apply Forall_cons; [cbn [snd readable]; try exact I|]); [..|apply Forall_nil].
  - apply (job_folder "runs" 0). split; [reflexivity|eexists _, _; split; [reflexivity|split; [discriminate|reflexivity]]|..];
      intros a b K.
    + assert (P : pair_in ":" " " "runs" = true) by (apply pair_in_ok; exists a, b; exact K). discriminate P.
    + assert (P : pair_in " " "#" "runs" = true) by (apply pair_in_ok; exists a, b; exact K). discriminate P.
  - split; [|vm_compute; reflexivity]. exists "", "1", ".0", "". repeat split; auto; try discriminate; [|intros [H _]; discriminate].
    right. exists "0". repeat split; auto. discriminate.
Qed.
