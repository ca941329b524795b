(** Property C84: runs that are interrupted, resumed and branched. *)
From Coq Require Import ZArith List Bool String Reals Lra Lia.
From Flocq Require Import Core.
From Verif Require Import Base RLemmas Dict Config Shared Params State Water Sed RunProofs Iter IterSpec FrameProofs IterProofs
  Examples Inputs Init InitSpec InitProofs Session SessionSpec ResumeProofs SessionProofs AttrProofs Switches SwitchSpec
  SwitchProofs Records RecordsSpec RecordsProofs Props_Iter Props_Init Props_Session Branch BranchSpec BranchProofs.
Import ListNotations.
Local Open Scope Z_scope.

(** ** C84 *)
(** However often a run was stopped, resumed and branched off into other
    folders: a folder with a checkpoint can be resumed from, by name or in
    place, whatever the generators hold; the resumed model stands at a point of
    the one uninterrupted run, and from there does the same, or fails in the
    same way, update by update.  For every arithmetic, generator,
    configuration, and choice of what is saved. *)
Theorem C84_one_run :
  forall (F : Type) (A : Arith F) (S N : Type) (G : Rng F S) (GN : NpRng N) (store : F -> F) w (c : inputs F) nb np d,
    fnan (i_save_dt c) = false -> history (GN:=GN) store w c nb np d ->
  forall src ck own v nb' np', saved (d src) = Some ck -> resume_checkpoint own v = (src, true) ->
    exists m np2 j x ox, start (GN:=GN) own v c nb' np' d = Ok (m, [], np2) /\ m_finalized m = false /\
      run_model (G:=G) (GN:=GN) c nb np j = Ok (x, ox) /\ Z.of_nat j = c_time_iter ck /\ same_point x (m_st m) /\
      forall n, alike (fun a b => same_point (fst a) (fst b))
        (run_model (G:=G) (GN:=GN) c nb np (j + n)) (updates (m_P m) n (m_st m)).
Proof.
  intros F A S N G GN store w c nb np d Hn Hh src ck own v nb' np' Hs Hv.
  pose proof (history_on store c nb np w d Hn Hh src ck Hs) as Ho.
  destruct (resumed_on store c nb np ck (match out_file (d own) with None => true | Some _ => false end) nb' np' Ho)
    as (r & np3 & j & x & ox & Er & Hf & Ex & Hj & Hp & HA & _).
  exists r, np3, j, x, ox. split; [|auto]. unfold start. rewrite Hv, Hs, Er. reflexivity.
Qed.
Print Assumptions C84_one_run.

(** When a whole number of seconds has passed since the last record at each
    step, every folder shows the uninterrupted run from one of its entries on:
    its file holds the first entries, none twice, none missing and none left
    over from an interruption, and its checkpoint is a point of the run, not
    later than what the file shows. *)
Theorem C84_every_folder :
  forall (F : Type) (A : Arith F) (S N : Type) (G : Rng F S) (GN : NpRng N) (store : F -> F) x on md ts,
    selects x on -> metas_on on md ->
  forall (c : inputs F) nb np d, fnan (i_save_dt c) = false -> whole_seconds (G:=G) (GN:=GN) c nb np ->
    history (GN:=GN) store (open_writer x md ts) c nb np d ->
    forall s, unused (d s) \/ exists b, keeps (G:=G) (GN:=GN) store (open_writer x md ts) c nb np b (d s).
Proof.
  intros F A S N G GN store x on md ts HS HM c nb np d Hn Hw Hh.
  exact (history_keeps store c nb np x on md ts HS HM Hn Hw d Hh).
Qed.
Print Assumptions C84_every_folder.

(** A run begun in an unused folder is shown from the start; when all that was
    written reached the disk the file holds every entry up to then. *)
Theorem C84_begin :
  forall (F : Type) (A : Arith F) (S N : Type) (G : Rng F S) (GN : NpRng N) (store : F -> F) x on md ts,
    selects x on -> metas_on on md ->
  forall (c : inputs F) nb np own n d st lost d', fnan (i_save_dt c) = false -> unused (d own) ->
    session (GN:=GN) store (open_writer x md ts) c own (VBool false) nb np n d st lost d' ->
    exists o, run_model (G:=G) (GN:=GN) c nb np n = Ok (st, o) /\
      keeps (G:=G) (GN:=GN) store (open_writer x md ts) c nb np 0 (d' own) /\
      (lost = [] -> exists f, out_file (d' own) = Some f /\
         complete_to (G:=G) (GN:=GN) store (open_writer x md ts) c nb np 0 n f).
Proof.
  intros F A S N G GN store x on md ts HS HM c nb np own n d st lost d' Hn.
  exact (begun store c nb np x on md ts HS HM Hn own n d st lost d').
Qed.
Print Assumptions C84_begin.

(** Going on in a folder keeps what it shows, and from where it shows it. *)
Theorem C84_go_on :
  forall (F : Type) (A : Arith F) (S N : Type) (G : Rng F S) (GN : NpRng N) (store : F -> F) x on md ts,
    selects x on -> metas_on on md ->
  forall (c : inputs F) nb np own nb' np' n d st lost d' b, fnan (i_save_dt c) = false ->
    whole_seconds (G:=G) (GN:=GN) c nb np ->
    keeps (G:=G) (GN:=GN) store (open_writer x md ts) c nb np b (d own) ->
    session (GN:=GN) store (open_writer x md ts) c own (VBool true) nb' np' n d st lost d' ->
    exists ck a o, saved (d own) = Some ck /\ s_time_iter st = c_time_iter ck + Z.of_nat n /\
      run_model (G:=G) (GN:=GN) c nb np (Z.to_nat (s_time_iter st)) = Ok (a, o) /\ same_point a st /\
      keeps (G:=G) (GN:=GN) store (open_writer x md ts) c nb np b (d' own) /\
      (lost = [] -> exists f, out_file (d' own) = Some f /\
         complete_to (G:=G) (GN:=GN) store (open_writer x md ts) c nb np b (Z.to_nat (s_time_iter st)) f).
Proof.
  intros F A S N G GN store x on md ts HS HM c nb np own nb' np' n d st lost d' b Hn Hw.
  exact (resumed_own store c nb np x on md ts HS HM Hn Hw own nb' np' n d st lost d' b).
Qed.
Print Assumptions C84_go_on.

(** A branch shows the run from the first entry that was not yet written when
    the checkpoint of the other folder was saved. *)
Theorem C84_branch :
  forall (F : Type) (A : Arith F) (S N : Type) (G : Rng F S) (GN : NpRng N) (store : F -> F) x on md ts,
    selects x on -> metas_on on md ->
  forall (c : inputs F) nb np own src nb' np' n d st lost d' b, fnan (i_save_dt c) = false ->
    whole_seconds (G:=G) (GN:=GN) c nb np ->
    keeps (G:=G) (GN:=GN) store (open_writer x md ts) c nb np b (d src) -> unused (d own) ->
    session (GN:=GN) store (open_writer x md ts) c own (VStr src) nb' np' n d st lost d' ->
    exists ck a o b', saved (d src) = Some ck /\ s_time_iter st = c_time_iter ck + Z.of_nat n /\
      run_model (G:=G) (GN:=GN) c nb np (Z.to_nat (s_time_iter st)) = Ok (a, o) /\ same_point a st /\
      Z.of_nat b' = Z.of_nat b + c_save_iter ck /\
      (exists y oy, run_model (G:=G) (GN:=GN) c nb np (Z.to_nat (c_time_iter ck)) = Ok (y, oy) /\
         b' = List.length (shown_records oy)) /\
      keeps (G:=G) (GN:=GN) store (open_writer x md ts) c nb np b' (d' own) /\
      (lost = [] -> exists f, out_file (d' own) = Some f /\
         complete_to (G:=G) (GN:=GN) store (open_writer x md ts) c nb np b' (Z.to_nat (s_time_iter st)) f).
Proof.
  intros F A S N G GN store x on md ts HS HM c nb np own src nb' np' n d st lost d' b Hn Hw.
  exact (branched store c nb np x on md ts HS HM Hn Hw own src nb' np' n d st lost d' b).
Qed.
Print Assumptions C84_branch.

(** A process changes its own folder only, also when it resumes from another. *)
Theorem C84_other_folders :
  forall (F : Type) (A : Arith F) (S N : Type) (G : Rng F S) (GN : NpRng N) (store : F -> F) w (c : inputs F)
    own v nb np n d st lost d',
    session (G:=G) (GN:=GN) store w c own v nb np n d st lost d' -> forall s, s <> own -> d' s = d s.
Proof.
  intros F A S N G GN store w c own v nb np n d st lost d'.
  exact (other_folders store c w own v nb np n d st lost d').
Qed.
Print Assumptions C84_other_folders.

(** A run is not begun where there is an output file, nor resumed from a
    folder without a checkpoint. *)
Theorem C84_refusals :
  forall (F : Type) (A : Arith F) (S N : Type) (G : Rng F S) (GN : NpRng N) (c : inputs F) nb np (d : folders F S) own,
    (forall f, out_file (d own) = Some f -> start (G:=G) (GN:=GN) own (VBool false) c nb np d = Err FileExistsError) /\
    (forall src, saved (d src) = None -> start (G:=G) (GN:=GN) own (VStr src) c nb np d = Err FileNotFoundError) /\
    (saved (d own) = None -> start (G:=G) (GN:=GN) own (VBool true) c nb np d = Err FileNotFoundError).
Proof.
  intros F A S N G GN c nb np d own. unfold start, resume_checkpoint.
  split; [|split]; [intros f E|intros src E|intros E]; rewrite E; reflexivity.
Qed.
Print Assumptions C84_refusals.

(** Time steps of whole seconds suffice (exact arithmetic). *)
Theorem C84_whole_time_steps :
  forall (S N : Type) (G : Rng R S) (GN : NpRng N) (c : inputs R) nb np m np' z,
    construct (A:=RX) (G:=G) (GN:=GN) c nb np = Ok (m, np') -> p_dt (m_P m) = IZR z ->
    whole_seconds (A:=RX) (G:=G) (GN:=GN) c nb np.
Proof. intros S N G GN c nb np m np' z. exact (whole_steps c nb np m np' z). Qed.
Print Assumptions C84_whole_time_steps.

(** ** A case *)
Lemma exI_steps np0 (m : model unit) np : construct (A:=RX) (G:=half_rng) (GN:=count_rng) (exI (A:=RX)) tt np0 = Ok (m, np) ->
  p_dt (m_P m) = 15000%R /\ p_save_dt (m_P m) = 30000%R /\ p_checkpoint_dt (m_P m) = 30000%R /\ p_save_checkpoint (m_P m) = true.
Proof.
  intros E. pose proof (construct_outcome (G:=half_rng) (GN:=count_rng) (exI (A:=RX)) tt np0) as K.
  change RX with (RA (fun x => x)) in *. rewrite E in K.
  destruct K as (_ & _ & _ & z & _ & _ & _ & _ & HD & _).
  pose proof (de_cols _ _ HD) as [D2 _]. destruct (de_N0 _ _ HD) as (n & Dn & D4).
  assert (HW : p_W (m_P m) = 14).
  { apply (rounded_unique (700 / 50)%R); [exact D2|]. split; [|intros _; reflexivity]. replace (IZR 14 - 700 / 50)%R with 0%R by lra. rewrite Rabs_R0. lra. }
  assert (Hn : n = 4).
  { apply (rounded_unique (200 / 50)%R); [exact Dn|]. split; [|intros _; reflexivity]. replace (IZR 4 - 200 / 50)%R with 0%R by lra. rewrite Rabs_R0. lra. }
  rewrite HW, Hn in D4. change (Z.max 3 (Z.min 4 (14 / 4))) with 3 in D4.
  destruct (de_dt _ _ HD) as [_ Hdt]. rewrite D4 in Hdt. pose proof (de_copied _ _ HD) as HC. decompose [and] HC.
  split; [rewrite Hdt; cbn; lra|]. split; [auto|]. split; [exact (de_checkpoint_dt _ _ HD)|auto].
Qed.
Lemma exI_whole : whole_seconds (A:=RX) (G:=half_rng) (GN:=count_rng) (exI (A:=RX)) tt 0.
Proof.
  destruct (runnable_ready (G:=half_rng) (GN:=count_rng) (exI (A:=RX)) tt 0 exI_runnable) as (m & np & E & _).
  change RX with (RA (fun x => x)) in *. eapply (whole_steps _ _ _ m np 15000); [exact E|]. exact (proj1 (exI_steps 0 m np E)).
Qed.

(** Begun in one folder and stopped at once, with everything on disk. *)
Lemma ex_begun x md ts : forall on, selects x on -> metas_on on md ->
  let w := open_writer x md ts in
  exists d st ck, session (A:=RX) (G:=half_rng) (GN:=count_rng) (fun y => y) w (exI (A:=RX)) "a" (VBool false) tt 0 0
      (fun _ => mkPlace None None) st [] d /\
    saved (d "a"%string) = Some ck /\ c_save_iter ck = 1 /\ c_time_iter ck = 0 /\ c_save_time_since_data ck = Fin 0%R /\
    (forall s, s <> "a"%string -> unused (d s)).
Proof.
  intros on HS HM w. change RX with (RA (fun x => x)).
  destruct (runnable_ready (G:=half_rng) (GN:=count_rng) (exI (A:=RX)) tt 0 exI_runnable) as (m & np & E & _).
  change RX with (RA (fun x => x)) in *.
  destruct (exI_steps 0 m np E) as (Hdt & Hsv & Hcd & Hck).
  pose proof (construct_fresh (A:=RA (fun x => x)) (exI (A:=RA (fun x => x))) tt 0 m np E) as (F1 & F2 & F3 & F4 & _).
  set (st := set_save_time_since_checkpoint (Fin 0%R) (set_save_time_since_data (Fin 0%R) (set_save_iter (s_save_iter (m_st m) + 1) (m_st m)))).
  set (o := [Record_ (s_save_iter (m_st m)) (s_time (m_st m)) (m_st m); Checkpoint (save_the_checkpoint st)]).
  assert (Ew : write_output (A:=RA (fun x => x)) (m_P m) (m_st m) = (st, o)).
  { unfold write_output, output_data, output_checkpoint. rewrite F1. cbn. rewrite F2, Hck. reflexivity. }
  assert (E1 : start (A:=RA (fun x => x)) (G:=half_rng) (GN:=count_rng) "a" (VBool false) (exI (A:=RA (fun x => x))) tt 0 (fun _ => mkPlace None None)
     = Ok (mkModel (m_in m) (m_P m) st false, o, np)).
  { unfold start, resume_checkpoint, new_model. cbn [out_file]. rewrite E. cbn [rbind]. rewrite Ew. reflexivity. }
  destruct (session_exists (A:=RA (fun x => x)) (G:=half_rng) (fun y => y) (exI (A:=RA (fun x => x))) x on md ts HS HM "a" (VBool false) tt 0 (fun _ => mkPlace None None)
     _ _ _ 0 st [] o [] E1 eq_refl eq_refl) as (p & Ep & Hs).
  exists (put "a" p (fun _ => mkPlace None None)), st, (save_the_checkpoint st). split; [exact Hs|].
  unfold written in Ep. apply rbind_Ok in Ep as (f & _ & Ep). apply okay_inj in Ep. subst p.
  split; [reflexivity|]. split; [cbn; rewrite F3; reflexivity|]. split; [cbn; exact F4|]. split; [reflexivity|].
  intros s H. unfold put. apply String.eqb_neq in H. rewrite H. split; reflexivity.
Qed.

(** A history with an interruption: begun in "a" and stopped at once; branched
    off into "b", and stopped before anything of its two updates reached the
    disk. *)
Example C84_hypotheses : forall x on md ts, selects x on -> metas_on on md ->
  exists d1 st1 lost d2, history (A:=RX) (G:=half_rng) (GN:=count_rng) (fun y => y) (open_writer x md ts) (exI (A:=RX)) tt 0 d1 /\
    (exists ck, saved (d1 "a"%string) = Some ck) /\ unused (d1 "b"%string) /\
    session (A:=RX) (G:=half_rng) (GN:=count_rng) (fun y => y) (open_writer x md ts) (exI (A:=RX)) "b" (VStr "a") tt 5 2 d1 st1 lost d2 /\
    lost <> [] /\ history (A:=RX) (G:=half_rng) (GN:=count_rng) (fun y => y) (open_writer x md ts) (exI (A:=RX)) tt 0 d2 /\
    whole_seconds (A:=RX) (G:=half_rng) (GN:=count_rng) (exI (A:=RX)) tt 0 /\ fnan (Arith:=RX) (i_save_dt (exI (A:=RX))) = false.
Proof.
  intros x on md ts HS HM. destruct (ex_begun x md ts on HS HM) as (d1 & st0 & ck & Hs & Hck & Hi & Ht & _ & Hu).
  assert (H1 : history (A:=RX) (G:=half_rng) (GN:=count_rng) (fun y => y) (open_writer x md ts) (exI (A:=RX)) tt 0 d1).
  { eapply begin; [apply untouched| |exact Hs]; [intros s|]; split; reflexivity. }
  destruct (C84_one_run R RX unit Z half_rng count_rng (fun y => y) (open_writer x md ts) (exI (A:=RX)) tt 0 d1 eq_refl H1
    "a" ck "b" (VStr "a") tt 5 Hck eq_refl) as (m & np2 & j & y & oy & Es & _ & Ey & Hj & Hp & HA).
  change RX with (RA (fun x => x)) in *.
  destruct (runnable_runs (G:=half_rng) (GN:=count_rng) (exI (A:=RA (fun x => x))) tt 0 (j + 2) exI_runnable half_rng_range half_rng_pos) as (st3 & o3 & E3).
  pose proof (HA 2%nat) as K. rewrite E3 in K. destruct (updates (G:=half_rng) (m_P m) 2 (m_st m)) as [[st o]|] eqn:Eu; [|destruct K].
  destruct (session_exists (A:=RA (fun x => x)) (G:=half_rng) (fun y => y) (exI (A:=RA (fun x => x))) x on md ts HS HM "b" (VStr "a") tt 5 d1
     _ _ _ 2 st o [] o Es Eu eq_refl) as (p & _ & Hb).
  exists d1, st, o, (put "b" p d1). split; [exact H1|]. split; [eauto|]. split; [apply Hu; discriminate|]. split; [exact Hb|].
  split.
  { unfold start, resume_checkpoint in Es. rewrite Hck in Es. apply rbind_Ok in Es as ([r np4] & Er & Es). apply okay_inj in Es.
    apply (f_equal (fun z => fst (fst z))) in Es. cbn in Es. subst r.
    apply resume_inv in Er as (m0 & E0 & HP0 & _ & _ & El). destruct (exI_steps 5 _ _ E0) as (_ & _ & _ & Hsc). pose proof (construct_fresh (A:=RA (fun x => x)) _ _ _ _ _ E0) as (_ & F2 & _).
    cbn [updates] in Eu. apply rbind_Ok in Eu as ([sa oa] & Ea & Eu). apply rbind_Ok in Eu as ([sb ob] & _ & Eu).
    apply okay_inj in Eu. apply (f_equal snd) in Eu. cbn in Eu. subst o. intros K'. apply app_eq_nil in K' as [-> _].
    assert (HP : s_save_time_since_checkpoint (m_st m) = Inf).
    { unfold load_checkpoint in El. destruct (c_save_time_since_data ck); [discriminate|].
      destruct (out_file (d1 "b"%string)); apply okay_inj in El; rewrite <- El; exact F2. }
    apply advance_since in Ea as (z & Ez & _ & _ & _ & Hz). rewrite HP in Hz.
    apply write_checkpoints in Ez as (_ & [(_ & _ & Hk & _)|(Hk & _)]); [discriminate|].
    rewrite HP0, Hsc in Hk. destruct Hk as [Hk|Hk]; [rewrite Hz in Hk; cbn in Hk|]; discriminate. }
  split; [eapply branch; [exact H1| |exact Hb]; apply Hu; discriminate|]. split; [exact exI_whole|reflexivity].
Qed.

(** Running a branch again with the folder of its origin in resume_checkpoint
    does not go on with the branch: it goes back to the checkpoint it came
    from, and numbers its records from the count of the other folder.  The
    output file is then not that of a run. *)
Theorem C84_branch_again_refuted :
  forall x on md ts, selects x on -> metas_on on md ->
  exists (c : inputs R) d d2 st ck,
    history (A:=RX) (G:=half_rng) (GN:=count_rng) (fun y => y) (open_writer x md ts) c tt 0 d /\
    whole_seconds (A:=RX) (G:=half_rng) (GN:=count_rng) c tt 0 /\
    out_file (d "b"%string) = Some [] /\ saved (d "a"%string) = Some ck /\
    session (A:=RX) (G:=half_rng) (GN:=count_rng) (fun y => y) (open_writer x md ts) c "b" (VStr "a") tt 5 2 d st [] d2 /\
    s_time_iter st = c_time_iter ck + 2 /\
    (exists e, out_file (d2 "b"%string) = Some [None; Some e]) /\
    forall b, ~ keeps (A:=RX) (G:=half_rng) (GN:=count_rng) (fun y => y) (open_writer x md ts) c tt 0 b (d2 "b"%string).
Proof.
  intros x on md ts HS HM. destruct (ex_begun x md ts on HS HM) as (d1 & st0 & ck & Hs & Hck & Hi & Ht & Hsd & Hu).
  assert (H1 : history (A:=RX) (G:=half_rng) (GN:=count_rng) (fun y => y) (open_writer x md ts) (exI (A:=RX)) tt 0 d1).
  { eapply begin; [apply untouched| |exact Hs]; [intros s|]; split; reflexivity. }
  destruct (C84_one_run R RX unit Z half_rng count_rng (fun y => y) (open_writer x md ts) (exI (A:=RX)) tt 0 d1 eq_refl H1
    "a" ck "b" (VStr "a") tt 5 Hck eq_refl) as (m1 & np1 & _ & _ & _ & Es1 & _).
  change RX with (RA (fun x => x)) in *.
  destruct (session_exists (A:=RA (fun x => x)) (G:=half_rng) (fun y => y) (exI (A:=RA (fun x => x))) x on md ts HS HM "b" (VStr "a") tt 5 d1
     _ _ _ 0 (m_st m1) [] [] [] Es1 eq_refl eq_refl) as (p & Ep & Hb).
  destruct (Hu "b"%string ltac:(discriminate)) as [U1 U2].
  unfold written in Ep. rewrite U1, U2 in Ep. cbn in Ep. apply okay_inj in Ep. subst p.
  set (d := put "b" (mkPlace (Some []) None) d1) in *.
  assert (H2 : history (A:=RA (fun x => x)) (G:=half_rng) (GN:=count_rng) (fun y => y) (open_writer x md ts) (exI (A:=RA (fun x => x))) tt 0 d).
  { eapply branch; [exact H1| |exact Hb]; apply Hu; discriminate. }
  assert (Hck' : saved (d "a"%string) = Some ck) by exact Hck.
  destruct (C84_one_run R (RA (fun x => x)) unit Z half_rng count_rng (fun y => y) (open_writer x md ts) (exI (A:=RA (fun x => x))) tt 0 d eq_refl H2
    "a" ck "b" (VStr "a") tt 5 Hck' eq_refl) as (m & np2 & j & y & oy & Es & _ & Ey & Hj & Hp & HA).
  destruct (runnable_runs (G:=half_rng) (GN:=count_rng) (exI (A:=RA (fun x => x))) tt 0 (j + 2) exI_runnable half_rng_range half_rng_pos) as (st3 & o3 & E3).
  pose proof (HA 2%nat) as K. rewrite E3 in K. destruct (updates (G:=half_rng) (m_P m) 2 (m_st m)) as [[st o]|] eqn:Eu; [|destruct K].
  cbn in K.
  destruct (session_exists (A:=RA (fun x => x)) (G:=half_rng) (fun y => y) (exI (A:=RA (fun x => x))) x on md ts HS HM "b" (VStr "a") tt 5 d
     _ _ _ 2 st o o [] Es Eu ltac:(rewrite app_nil_r; reflexivity)) as (p & Ep & Hbb).
  assert (Hst : s_save_iter (m_st m) = 1 /\ s_save_time_since_data (m_st m) = Fin 0%R /\ p_dt (m_P m) = 15000%R /\ p_save_dt (m_P m) = 30000%R).
  { unfold start, resume_checkpoint in Es. rewrite Hck' in Es. apply rbind_Ok in Es as ([r np4] & Er & Es). apply okay_inj in Es.
    apply (f_equal (fun z => fst (fst z))) in Es. cbn in Es. subst r. change (out_file (d "b"%string)) with (Some (@nil (option (entry R)))) in Er.
    apply resume_inv in Er as (m0 & E0 & -> & _ & _ & El). destruct (exI_steps 5 _ _ E0) as (D1 & D2 & _).
    unfold load_checkpoint in El. rewrite Hsd in El. apply okay_inj in El. rewrite <- El.
    split; [cbn; exact Hi|]. split; [cbn; rewrite Ztrunc_IZR; reflexivity|auto]. }
  destruct Hst as (I1 & I2 & Hdt & Hsv).
  assert (HR : exists t z, shown_records o = [(1, t, z)]).
  { cbn [updates] in Eu. apply rbind_Ok in Eu as ([sa oa] & Ea & Eu). apply rbind_Ok in Eu as ([sb ob] & Eb & Eu).
    apply rbind_Ok in Eb as ([sc oc] & Eb & Ec). apply okay_inj in Ec. pose proof (f_equal snd Ec) as Ec2. apply (f_equal fst) in Ec. cbn in Ec, Ec2. subst sb ob.
    apply okay_inj in Eu. apply (f_equal snd) in Eu. cbn in Eu. subst o. rewrite !shown_app. cbn [shown_records]. rewrite app_nil_r.
    assert (RS : forall l : list (output R unit), records l = [] <-> shown_records l = []).
    { intros l. induction l as [|[] l IH]; cbn; [tauto|split; discriminate|exact IH]. }
    destruct (since_keeps (m_P m) _ _ _ Ea _ I2) as [(Hx & _)|(_ & N1 & I3)]; [lra|]. apply RS in N1.
    destruct (since_keeps (m_P m) _ _ _ Eb _ I3) as [(_ & N2 & _)|(Hx & _)]; [|lra].
    destruct (update_shown _ _ _ _ Ea) as [(_ & J)|(z & Hz & _)]; [|rewrite N1 in Hz; discriminate].
    destruct (update_shown _ _ _ _ Eb) as [(Hz & _)|(z & Hz & _)]; [apply RS in Hz; contradiction|].
    rewrite N1, Hz, J, I1. cbn. eauto. }
  destruct HR as (t & z & HR).
  assert (Hp' : exists e, out_file p = Some [None; Some e]).
  { unfold written in Ep. change (out_file (d "b"%string)) with (Some (@nil (option (entry R)))) in Ep.
    rewrite (write_all_puts (A:=RA (fun x => x)) (S:=unit) (fun y => y) x on md ts HS HM), HR in Ep. cbn in Ep. apply okay_inj in Ep. subst p. cbn. eexists. reflexivity. }
  exists (exI (A:=RA (fun x => x))), d, (put "b" p d), st, ck. split; [exact H2|]. split; [exact exI_whole|]. split; [reflexivity|].
  split; [exact Hck'|]. split; [exact Hbb|].
  split. { rewrite <- (proj2 (sp_clock _ _ K)), (run_iter _ _ _ _ _ _ E3). lia. }
  change (put "b" p d "b"%string) with p. split; [exact Hp'|].
  intros b (f & Hf & (T & whole & more & Ew & _ & Hm) & _). destruct Hp' as [e He]. rewrite He in Hf. injection Hf as <-.
  unfold run_file in Ew. assert (Er : exists sr orr, run_model (A:=RA (fun x => x)) (G:=half_rng) (GN:=count_rng) (exI (A:=RA (fun x => x))) tt 0 T = Ok (sr, orr)).
  { exact (runnable_runs (G:=half_rng) (GN:=count_rng) _ tt 0 T exI_runnable half_rng_range half_rng_pos). }
  destruct Er as (sr & orr & Er).
  destruct (run_file_eq (A:=RA (fun x => x)) (fun y => y) x on md ts HS HM _ _ _ _ _ _ Er eq_refl) as (inp & P & _ & _ & _ & Ef).
  unfold run_file in Ef. rewrite Ew in Ef. apply okay_inj in Ef. subst whole.
  match type of Hm with skipn _ (map Some ?l) = _ =>
    assert (HIn : In None (skipn b (map Some l))) by (rewrite Hm; left; reflexivity); revert HIn; generalize l end. intros l. clear. revert b.
  induction l as [|e l IH]; intros [|b]; cbn [map skipn]; auto.
  - intros [K|K]; [discriminate|]. apply (IH O). exact K.
  - apply IH.
Qed.
Print Assumptions C84_branch_again_refuted.

(** A branch does not show where it begins: until the first record is due its
    output file is empty. *)
Theorem C84_start_of_a_branch_refuted :
  forall x on md ts, selects x on -> metas_on on md ->
  exists (c : inputs R) d d2 st lost,
    history (A:=RX) (G:=half_rng) (GN:=count_rng) (fun y => y) (open_writer x md ts) c tt 0 d /\ unused (d "b"%string) /\
    session (A:=RX) (G:=half_rng) (GN:=count_rng) (fun y => y) (open_writer x md ts) c "b" (VStr "a") tt 5 0 d st lost d2 /\
    lost = [] /\ out_file (d2 "b"%string) = Some [].
Proof.
  intros x on md ts HS HM. destruct (ex_begun x md ts on HS HM) as (d1 & st0 & ck & Hs & Hck & Hi & Ht & Hsd & Hu).
  assert (H1 : history (A:=RX) (G:=half_rng) (GN:=count_rng) (fun y => y) (open_writer x md ts) (exI (A:=RX)) tt 0 d1).
  { eapply begin; [apply untouched| |exact Hs]; [intros s|]; split; reflexivity. }
  destruct (C84_one_run R RX unit Z half_rng count_rng (fun y => y) (open_writer x md ts) (exI (A:=RX)) tt 0 d1 eq_refl H1
    "a" ck "b" (VStr "a") tt 5 Hck eq_refl) as (m1 & np1 & _ & _ & _ & Es1 & _).
  change RX with (RA (fun x => x)) in *.
  destruct (session_exists (A:=RA (fun x => x)) (G:=half_rng) (fun y => y) (exI (A:=RA (fun x => x))) x on md ts HS HM "b" (VStr "a") tt 5 d1
     _ _ _ 0 (m_st m1) [] [] [] Es1 eq_refl eq_refl) as (p & Ep & Hb).
  destruct (Hu "b"%string ltac:(discriminate)) as [U1 U2].
  unfold written in Ep. rewrite U1, U2 in Ep. cbn in Ep. apply okay_inj in Ep. subst p.
  exists (exI (A:=RA (fun x => x))), d1. do 3 eexists. split; [exact H1|]. split; [apply Hu; discriminate|]. split; [exact Hb|].
  split; reflexivity.
Qed.
Print Assumptions C84_start_of_a_branch_refuted.
