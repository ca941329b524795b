(** Property C80: from a configuration of several jobs to the output of each. *)
From Coq Require Import ZArith List Bool String Ascii Reals Lra Lia.
From Verif Require Import Base RLemmas Dict Config ConfigProofs Params State Water Shared SharedSpec WaterSpec Iter IterSpec RunProofs WalkProofs WaterCor
  Examples Inputs Init InitSpec InitProofs Text Expand ExpandSpec Jobs JobsSpec JobsProofs Switches SwitchSpec SwitchProofs Session SessionSpec ResumeProofs SessionProofs AttrProofs Records RecordsSpec RecordsProofs
  YamlText YamlSpec YamlProofs RunAll RunAllSpec RunAllProofs Props_Init Props_Expand Props_Yaml Props_Jobs.
Import ListNotations.
Local Open Scope string_scope.

(** ** C80 *)
(** When the preprocessor accepts a configuration of several jobs, and the
    configuration of each job is complete (its values give a model that runs,
    a seed and a duration) and can be written to a file and read back: running
    the jobs in parallel from the written files finishes all of them; every
    job did what its own configuration says, whatever the state of the random
    generators; and there is no other outcome. *)
Theorem C80_jobs_do_what_they_say :
  forall S N (G : Rng R S) (GN : NpRng N) fstr float_of seeds reload (c : dict (value R)) d d' p user nb np,
  (forall v t w, value_text fstr v = Ok t -> load_value float_of (" " ++ t) = Ok w -> reload v = w) ->
  well_formed c -> disk_ok d -> ~ asks_resume c -> multi_job c ->
  construct_file_list seeds reload c d = (d', Ok p) ->
  uniform_range G -> (forall s : S, 0 < fst (draw s))%R ->
  Forall (fun j => complete_config j /\ Forall (fun kv => YamlSpec.readable fstr float_of (snd kv)) j) (pl_configs p) ->
  exists l rs, job_inputs user d' p = Ok l /\ parallel (A:=RX) l nb np rs /\
    Forall2 (did (GN:=GN)) (pl_configs p) rs /\
    forall rs', parallel (A:=RX) l nb np rs' -> rs' = rs.
Proof.
  intros S N G GN fstr float_of seeds reload c d d' p user nb np Hre W D Rs M E HG Hu HC. change RX with (RA (fun x => x)) in *.
  pose proof (C46_job_files R seeds reload c d d' p W D Rs M E) as (dirs & Ef & _ & _ & Hlen & _).
  assert (Hjob : forall i j jf, nth_error (pl_configs p) i = Some j -> nth_error (pl_files p) i = Some jf ->
    exists fc, job_input user d' j jf = Ok fc /\ (exists z, seed_given (A:=RA (fun x => x)) (fst fc) z) /\
      exists r, alone (A:=RA (fun x => x)) (GN:=GN) fc nb np r /\ did (GN:=GN) j r /\
        forall r', alone (A:=RA (fun x => x)) (GN:=GN) fc nb np r' -> r' = r).
  { intros i j jf Hj Hjf. rewrite Forall_forall in HC. destruct (HC j (nth_error_In _ _ Hj)) as [Hcj Hrj].
    destruct (C69_job_files_hold_the_jobs R fstr float_of seeds reload c d d' p Hre W D Rs M E i j Hj Hrj) as (f & file & Hf & _ & Hd & Hk).
    rewrite Hf in Hjf. injection Hjf as <-. destruct (job_dicts seeds reload c d d' p W D Rs M E i f j file Hf Hj Hd) as [Nj Nf].
    exists (Mapping file, dupdate j file). unfold job_input. rewrite Hd. split; [reflexivity|].
    assert (Ec : forall k, dget k (dupdate j file) = dget k j).
    { intros k. rewrite dget_dupdate by exact Nf. rewrite Hk. destruct (dget k j); reflexivity. }
    destruct (job_did (GN:=GN) j file (dupdate j file) Nj Nf Hk Ec HG Hu Hcj) as (z & Hz & H). split; [exists z; exact Hz|].
    exact (H nb np). }
  destruct (Forall2_combine (fun j jf fc => job_input user d' j jf = Ok fc /\ (exists z, seed_given (A:=RA (fun x => x)) (fst fc) z) /\
      exists r, alone (A:=RA (fun x => x)) (GN:=GN) fc nb np r /\ did (GN:=GN) j r /\
        forall r', alone (A:=RA (fun x => x)) (GN:=GN) fc nb np r' -> r' = r) (pl_configs p) (pl_files p)) as (l & Hl).
  { rewrite Ef, map_length. symmetry. exact Hlen. }
  { exact Hjob. }
  assert (Hs : forall f c, In (f, c) l -> exists z, seed_given (A:=RA (fun x => x)) f z).
  { clear -Hl. induction Hl as [|x fc la lb (_ & H1 & _) _ IH]; intros f c [].
    - subst fc. exact H1.
    - eapply IH; eassumption. }
  assert (Hr : exists rs, Forall2 (fun fc r => alone (A:=RA (fun x => x)) (GN:=GN) fc nb np r) l rs /\ Forall2 (did (GN:=GN)) (pl_configs p) rs /\
    forall rs', Forall2 (fun fc r => alone (A:=RA (fun x => x)) (GN:=GN) fc nb np r) l rs' -> rs' = rs).
  { assert (HLn : List.length (pl_configs p) = List.length (pl_files p)) by (rewrite Ef, map_length; symmetry; exact Hlen).
    clear -Hl HLn. revert HLn l Hl. generalize (pl_files p). induction (pl_configs p) as [|j js IH]; intros [|jf jfs] HL l Hl; try discriminate; cbn [combine] in Hl.
    - inversion Hl. subst. exists []. split; [constructor|]. split; [constructor|]. intros rs' K. inversion K. reflexivity.
    - inversion Hl as [|? fc ? l' (_ & _ & r & R1 & R2 & R3) Hl' E1 E2]. subst. cbn [fst snd] in *.
      destruct (IH jfs ltac:(cbn in HL; lia) l' Hl') as (rs & I1 & I2 & I3).
      exists (r :: rs). split; [constructor; assumption|]. split; [constructor; assumption|].
      intros rs' K. inversion K as [|? r' ? rs2 K1 K2]. subst. rewrite (R3 r' K1), (I3 rs2 K2). reflexivity. }
  destruct Hr as (rs & H1 & H2 & H3). exists l, rs. split; [|split; [|split]].
  - apply mapM_nth. revert Hl. apply Forall2_imp. intros [j jf] fc (H & _). exact H.
  - apply (parallel_iff l Hs nb np nb np rs). exact H1.
  - exact H2.
  - intros rs' K. apply H3. apply (parallel_iff l Hs nb np nb np rs'). exact K.
Qed.
Print Assumptions C80_jobs_do_what_they_say.

(** The files of jobs may be edited before the jobs are run.  Then the model of
    a job is that of the file; its duration is looked up in the file first and
    then in what was planned. *)
Theorem C80_edited_files :
  forall S N (G : Rng R S) (GN : NpRng N) user (d : disk R) dir (f j : dict (value R)) inp z,
  uniform_range G -> (forall s : S, 0 < fst (draw s))%R ->
  dget dir (d_jobs d) = Some f -> NoDup (dkeys f) ->
  configure (A:=RX) [] (Mapping f) [] = Ok inp -> runnable inp -> i_seed inp = Some z ->
  exists c, job_input user d j (JobFile dir) = Ok (Mapping f, c) /\
    (forall k, dget k c = match dget k f with Some v => Some v | None => dget k j end) /\
    ((forall dt, exists D, asks c dt D) -> forall nb np, exists r,
       alone (A:=RX) (Mapping f, c) nb np r /\ did_with (GN:=GN) f c r /\
       forall r', alone (A:=RX) (Mapping f, c) nb np r' -> r' = r).
Proof.
  intros S N G GN user d dir f j inp z HG Hu Hd Nf E HR Hz. exists (dupdate j f). unfold job_input. rewrite Hd.
  split; [reflexivity|]. split; [intros k; apply dget_dupdate, Nf|]. intros Hask.
  destruct (job_did_with (GN:=GN) f (dupdate j f) HG Hu (ex_intro _ inp (ex_intro _ z (conj E (conj HR Hz)))) Hask) as (_ & _ & H).
  exact H.
Qed.
Print Assumptions C80_edited_files.

(** Reading the jobs' files fails exactly when the file of some job is gone.
    (Jobs that run in parallel may have been started by then.) *)
Theorem C80_deleted_files :
  forall user (d : disk R) (p : plan R),
  List.length (pl_configs p) = List.length (pl_files p) ->
  (job_inputs user d p = Err FileNotFoundError <->
     exists dir, In (JobFile dir) (pl_files p) /\ dget dir (d_jobs d) = None) /\
  ((exists l, job_inputs user d p = Ok l) <->
     forall dir, In (JobFile dir) (pl_files p) -> exists f, dget dir (d_jobs d) = Some f).
Proof. exact (@deleted_files R). Qed.
Print Assumptions C80_deleted_files.
Example C80_deleted_case :
  let gone := mkDisk (F:=R) [] [("runs/job_000", [("h0", VInt 5)])] in
  let p := mkPlan (F:=R) [] [[("h0", VInt 5)]; [("h0", VInt 6)]] [JobFile "runs/job_000"; JobFile "runs/job_001"] None in
  List.length (pl_configs p) = List.length (pl_files p) /\ job_inputs None gone p = Err FileNotFoundError.
Proof. split; reflexivity. Qed.

(** So replacing the steps asked for in a job's file by a time does not change
    the duration of the job: the steps that were planned come first. *)
Theorem C80_edited_duration_refuted :
  exists (f j c : dict (value R)) user d dir, dget dir (d_jobs d) = Some f /\
    dget "timesteps" f = None /\ dget "time" f = Some (VInt 1000000) /\
    job_input user d j (JobFile dir) = Ok (Mapping f, c) /\
    forall dt D, asks c dt D <-> D = (3 * dt)%R.
Proof.
  exists [("time", VInt 1000000)], [("timesteps", VInt 3)], [("timesteps", VInt 3); ("time", VInt 1000000)], None.
  exists (mkDisk [] [("runs/job_000", [("time", VInt 1000000)])]), "runs/job_000".
  split; [reflexivity|]. split; [reflexivity|]. split; [reflexivity|]. split; [reflexivity|].
  intros dt D. split.
  - intros K. destruct K as [v x If _ Hv Hx|v x If _ Hv _ Hx|v x If _ Hv _ _ Hx]; cbn in Hv; try discriminate.
    injection Hv as <-. inversion Hx. reflexivity.
  - intros ->. eapply asks_timesteps; [apply factor_default; reflexivity|reflexivity|apply (numeric_int 3)].
Qed.
Print Assumptions C80_edited_duration_refuted.

(** With a matrix: every combination of its values is run exactly once, in a
    folder of its own. *)
Theorem C80_every_combination :
  forall S N (G : Rng R S) (GN : NpRng N) seeds reload (c md : dict (value R)) m root d d' p (rs : list (ran R S)),
  well_formed c -> well_formed md -> dget "matrix" c = Some (VDict md) -> matrix_reads md m -> ~ In "ensemble" (dkeys c) ->
  dget "out_dir" c = Some (VStr root) -> construct_file_list seeds reload c d = (d', Ok p) ->
  Forall2 (did (GN:=GN)) (pl_configs p) rs ->
  List.length rs = combinations m /\
  forall q, positions m q -> exists i j r,
    nth_error (pl_configs p) i = Some j /\ nth_error rs i = Some r /\ chooses m q j /\
    dget "out_dir" j = Some (VStr (join root (job_id i))) /\ did (GN:=GN) j r.
Proof.
  intros S N G GN seeds reload c md m root d d' p rs W Wm Hm HM He Ho E H.
  destruct (C46_matrix_jobs R seeds reload c md m root d d' p W Wm Hm HM He Ho E) as (choice & (HN & Hp & Hu) & Hc & _ & Hf & _).
  pose proof (Forall2_len _ _ _ H) as HL. split; [congruence|]. intros q Hq.
  destruct (Hu q Hq) as (i & (Hi & Ei) & _). destruct (nth_error (pl_configs p) i) as [j|] eqn:Ej.
  2:{ apply nth_error_None in Ej. lia. }
  destruct (Forall2_nth _ _ _ H i j Ej) as (r & Er & Hr). exists i, j, r. split; [exact Ej|]. split; [exact Er|].
  split; [rewrite <- Ei; apply Hc, Ej|]. split; [apply Hf, Ej|exact Hr].
Qed.
Print Assumptions C80_every_combination.

(** With an ensemble (and perhaps a matrix): every combination is run once for
    each of the seeds, and there are no other runs. *)
Theorem C80_every_member :
  forall S N (G : Rng R S) (GN : NpRng N) seeds reload (c md : dict (value R)) m n root d d' p (rs : list (ran R S)),
  well_formed c -> disk_ok d -> ~ asks_resume c ->
  well_formed md -> ~ In "set" (dkeys c) -> dget "ensemble" c = Some (VInt (Z.of_nat n)) -> n <> 1%nat ->
  (dget "matrix" c = Some (VDict md) \/ ~ In "matrix" (dkeys c) /\ md = []) -> matrix_reads md m ->
  dget "out_dir" c = Some (VStr root) -> construct_file_list seeds reload c d = (d', Ok p) ->
  Forall2 (did (GN:=GN)) (pl_configs p) rs ->
  List.length rs = (combinations m * n)%nat /\
  forall q s, positions m q -> (s < n)%nat -> exists i j r inp,
    nth_error (pl_configs p) i = Some j /\ nth_error rs i = Some r /\ chooses m q j /\
    dget "out_dir" j = Some (VStr (join root (job_id i))) /\ did (GN:=GN) j r /\
    configure (A:=RX) [] (Mapping j) [] = Ok inp /\ i_seed inp = Some (seeds s).
Proof.
  intros S N G GN seeds reload c md m n root d d' p rs W D Rs Wm Hs He Hn Hm HM Ho E H.
  destruct (C47_ensemble_of_matrix R seeds reload c md m n root d d' p Wm Hs He Hn Hm HM Ho E)
    as (HL0 & choice & (_ & _ & Hu) & Hc & _ & Hf & _).
  pose proof (Forall2_len _ _ _ H) as HL. split; [congruence|]. intros q s Hq Hs'.
  destruct (Hu q Hq) as (a & (Ha & Ea) & _). set (i := (a * n + s)%nat).
  assert (Hi : (i < List.length (pl_configs p))%nat).
  { rewrite HL0. unfold i. assert (a * n + n <= combinations m * n)%nat by nia. lia. }
  destruct (nth_error (pl_configs p) i) as [j|] eqn:Ej.
  2:{ apply nth_error_None in Ej. lia. }
  destruct (Forall2_nth _ _ _ H i j Ej) as (r & Er & Hr). destruct (Hc a s j Hs' Ej) as [C1 C2].
  pose proof Hr as (_ & inp & Hinp & _).
  exists i, j, r, inp. split; [exact Ej|]. split; [exact Er|]. split; [rewrite <- Ea; exact C1|].
  split; [apply Hf, Ej|]. split; [exact Hr|]. split; [exact Hinp|].
  assert (M : multi_job c).
  { right. right. exists (VInt (Z.of_nat n)). split; [exact He|]. split; [intros K; injection K as K; lia|discriminate]. }
  destruct (C46_job_files R seeds reload c d d' p W D Rs M E) as (dirs & Ef & _ & _ & Hlen & Hd).
  destruct (nth_error dirs i) as [f|] eqn:Ed.
  2:{ apply nth_error_None in Ed. lia. }
  destruct (Hd i f j Ed Ej) as (_ & file & Hfile & _).
  assert (Hfi : nth_error (pl_files p) i = Some (JobFile f)) by (rewrite Ef, nth_error_map, Ed; reflexivity).
  destruct (job_dicts seeds reload c d d' p W D Rs M E i f j file Hfi Ej Hfile) as [Nj _].
  exact (configure_seed j inp _ Nj Hinp C2).
Qed.
Print Assumptions C80_every_member.

(** The output file of a job shows the run of its configuration: the entries
    are the model after increasing numbers of updates of that run. *)
Theorem C80_output_files :
  forall S N (G : Rng R S) (GN : NpRng N) (store : R -> R) x on md ts,
  selects x on -> metas_on on md ->
  forall j (r : ran R S), did (GN:=GN) j r ->
  exists inp, configure (A:=RX) [] (Mapping j) [] = Ok inp /\
  forall nb np, exists f us,
    run_file (A:=RX) store (G:=G) (GN:=GN) (open_writer x md ts) inp nb np (r_updates r) = Ok f /\
    List.length us = List.length f /\ hd_error us = Some O /\ increasing us /\
    Forall (fun u => (u <= r_updates r)%nat) us /\
    (exists o, run_model (A:=RX) (G:=G) (GN:=GN) inp nb np (r_updates r) = Ok (m_st (r_model r), (o ++ r_output r)%list) /\
       List.length f = List.length (shown_records (o ++ r_output r)%list)) /\
    forall k, (k < List.length f)%nat -> exists e su ou, entry_at f k = Some e /\
      run_model (A:=RX) (G:=G) (GN:=GN) inp nb np (nth k us O) = Ok (su, ou) /\ RecordsSpec.shows store on inp su e.
Proof.
  intros S N G GN store x on md ts HS HM j r (_ & inp & Hi & H). exists inp. split; [exact Hi|]. intros nb np.
  destruct (H nb np) as (m & o & np' & D & E1 & _ & _ & _ & _ & E2).
  assert (E : run_model (A:=RX) (G:=G) (GN:=GN) inp nb np (r_updates r) = Ok (m_st (r_model r), (o ++ r_output r)%list)).
  { unfold run_model. rewrite E1. cbn [rbind]. rewrite E2. reflexivity. }
  destruct (file_shows (A:=RX) store x on md ts HS HM inp nb np (r_updates r) _ _ E eq_refl) as (f & us & H1 & H2 & H3 & H4 & H5 & H6 & H7).
  exists f, us. split; [exact H1|]. split; [exact H3|]. split; [exact H4|]. split; [exact H5|]. split; [exact H6|].
  split; [|exact H7]. exists o. split; [exact E|exact H2].
Qed.
Print Assumptions C80_output_files.

(** A configuration with a matrix of two by two values and an ensemble of two:
    the hypotheses above hold of it, with eight jobs. *)
Definition r_text (_ : R) : string := "0.5".
Definition r_of (_ : string) : R := (1/2)%R.
Definition r_reread (v : value R) : value R :=
  match value_text r_text v with
  | Ok t => match load_value r_of (" " ++ t) with Ok w => w | Err _ => v end
  | Err _ => v
  end.
Definition ex_all : dict (value R) :=
  small [("out_dir", VStr "runs"); ("timesteps", VInt 3); ("ensemble", VInt 2);
         ("matrix", VDict [("h0", VList [VInt 4; VInt 5]); ("stepmax", VList [VInt 100; VInt 200])])].
Example C80_hypotheses : exists d' p,
  construct_file_list some_seeds r_reread ex_all (mkDisk [] []) = (d', Ok p) /\ List.length (pl_configs p) = 8%nat /\
  (forall v t w, value_text r_text v = Ok t -> load_value r_of (" " ++ t) = Ok w -> r_reread v = w) /\
  well_formed ex_all /\ disk_ok (mkDisk (F:=R) [] []) /\ ~ asks_resume ex_all /\ multi_job ex_all /\
  uniform_range half_rng /\ (forall s, 0 < fst (draw (Rng:=half_rng) s))%R /\
  Forall (fun j => complete_config j /\ Forall (fun kv => YamlSpec.readable r_text r_of (snd kv)) j) (pl_configs p).
Proof.
  eexists. eexists. split; [vm_compute; reflexivity|]. split; [reflexivity|]. split.
  { intros v t w H1 H2. unfold r_reread. rewrite H1, H2. reflexivity. }
  split; [unfold well_formed; cbn; repeat constructor; cbn; intuition discriminate|].
  split; [intros q []|]. split; [discriminate|]. split; [right; left; cbn; tauto|].
  split; [exact half_rng_range|]. split; [exact half_rng_pos|].
  cbn [pl_configs].
  assert (Hd : forall j : dict (value R), dget "If" j = None -> dget "timesteps" j = Some (VInt 3) -> forall dt, exists D, asks j dt D).
  { intros j H1 H2 dt. eexists. eapply asks_timesteps; [apply factor_default, H1|exact H2|apply (numeric_int 3)]. }
  assert (Hr : forall i, YamlSpec.readable r_text r_of (VStr (join "runs" (job_id i)))).
  { intros i. apply (job_folder "runs" i). split; [reflexivity|eexists _, _; split; [reflexivity|split; [discriminate|reflexivity]]|..];
      intros a b K.
    - assert (P : pair_in ":"%char " "%char "runs" = true) by (apply pair_in_ok; exists a, b; exact K). discriminate P.
    - assert (P : pair_in " "%char "#"%char "runs" = true) by (apply pair_in_ok; exists a, b; exact K). discriminate P. }
  repeat (apply Forall_cons; [split; [split|]|]); try apply Forall_nil; try (apply Hd; reflexivity).
  all: try (eexists; eexists; split; [reflexivity|]; split; [|reflexivity];
       constructor; [constructor|..]; cbn; try lra; try lia; try (intros x E; discriminate)).
  all: try (intros x E; injection E as <-; lra).
  all: repeat (apply Forall_cons; [cbn [snd YamlSpec.readable]; try exact I|]); try apply Forall_nil.
  - apply (Hr 0%nat).
  - apply (Hr 1%nat).
  - apply (Hr 2%nat).
  - apply (Hr 3%nat).
  - apply (Hr 4%nat).
  - apply (Hr 5%nat).
  - apply (Hr 6%nat).
  - apply (Hr 7%nat).
Qed.
