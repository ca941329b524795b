(** Property C81: jobs that resume from checkpoints. *)
From Coq Require Import ZArith List Bool String Reals Lra Lia.
From Verif Require Import Base RLemmas Dict Config Params State Water SharedSpec WaterSpec Iter IterSpec RunProofs FrameProofs IterProofs
  Examples Inputs Init InitSpec InitProofs Session SessionSpec ResumeProofs SessionProofs Expand Jobs JobsSpec JobsProofs Files
  RunAllProofs Resumed ResumedProofs Props_Iter Props_Init Props_Session Props_Jobs.
Import ListNotations.
Local Open Scope string_scope.

(** ** C81 *)
(** A parallel job loads its checkpoint twice, first without looking at the
    output file; the outcomes are those of the same job run on its own in the
    main process, for every arithmetic and generator. *)
Theorem C81_parallel_as_serial :
  forall F (A : Arith F) S (G : Rng F S) N (GN : NpRng N) f c (ck : checkpoint F S) missing nb np (r : ran F S),
  parallel_resumed (GN:=GN) f c ck missing nb np r <-> serial_resumed (GN:=GN) f c ck missing nb np r.
Proof. intros F A S G N GN. exact parallel_serial. Qed.
Print Assumptions C81_parallel_as_serial.

(** The same for the files: until its first update a parallel job, resuming or
    not, does the same to the folder in the same order as a serial one, and
    ends with the same exception if any; its constructor touches nothing. *)
Theorem C81_same_files :
  forall U V C (no_units : U) resuming saving clobber new first mid ckp midc (f : folder U V C),
  job_start_files no_units true resuming saving clobber new first mid ckp midc f =
  job_start_files no_units false resuming saving clobber new first mid ckp midc f /\
  fst (construct_files no_units resuming saving clobber true new first mid ckp midc f) = [].
Proof.
  intros. split; [apply start_files_same|apply deferred_touches_nothing].
Qed.
Print Assumptions C81_same_files.

(** A resumed job continues the interrupted run: it makes the least number of
    updates that reach the duration it asks for, and ends where the run ends
    that was not interrupted, after the updates before the checkpoint and
    those of the job. *)
Theorem C81_resumed_job_continues :
  forall S N (G : Rng R S) (GN : NpRng N) f c inp nb np n st o (ck : checkpoint R S) nb' np' missing,
  configure (A:=RX) [] f [] = Ok inp -> runnable inp -> uniform_range G -> (forall s : S, 0 < fst (draw s))%R ->
  (forall dt, exists D, asks c dt D) ->
  run_model (A:=RX) (GN:=GN) inp nb np n = Ok (st, o) -> In (Checkpoint ck) o ->
  exists r dt D x ox,
    (forall r', serial_resumed (A:=RX) (GN:=GN) f c ck missing nb' np' r' <-> r' = r) /\ completed r /\
    dt = p_dt (m_P (r_model r)) /\ asks c dt D /\ least_reaching 0 dt D (r_updates r) /\
    run_model (A:=RX) (GN:=GN) inp nb np (Z.to_nat (c_time_iter ck) + r_updates r) = Ok (x, ox) /\
    same_point x (m_st (r_model r)).
Proof. intros S N G GN. exact resumed_continues. Qed.
Print Assumptions C81_resumed_job_continues.

(** So the duration starts again at the checkpoint: a job of [k] steps that is
    resumed from its checkpoint after [i] updates ends after [i + k] updates,
    not [k]. *)
Theorem C81_duration_starts_again :
  forall S N (G : Rng R S) (GN : NpRng N) f c inp nb np n st o (ck : checkpoint R S) nb' np' missing k,
  configure (A:=RX) [] f [] = Ok inp -> runnable inp -> uniform_range G -> (forall s : S, 0 < fst (draw s))%R ->
  dget "If" c = None -> dget "timesteps" c = Some (VInt (Z.of_nat k)) ->
  run_model (A:=RX) (GN:=GN) inp nb np n = Ok (st, o) -> In (Checkpoint ck) o ->
  exists r, (forall r', serial_resumed (A:=RX) (GN:=GN) f c ck missing nb' np' r' <-> r' = r) /\ completed r /\
    r_updates r = k /\ s_time_iter (m_st (r_model r)) = (c_time_iter ck + Z.of_nat k)%Z.
Proof.
  intros S N G GN f c inp nb np n st o ck nb' np' missing k Ef HR HG Hu HIf Hc E HI. change RX with (RA (fun x => x)) in *.
  destruct (resumed_continues f c inp nb np n st o ck nb' np' missing Ef HR HG Hu) as (r & dt & D & x & ox & H1 & H2 & H3 & H4 & H5 & H6 & H7); auto.
  { intros dt. eexists. eapply asks_timesteps; [apply factor_default, HIf|exact Hc|apply (numeric_int (Z.of_nat k))]. }
  exists r. split; [exact H1|]. split; [exact H2|].
  assert (Hdt : (0 < dt)%R).
  { destruct (proj2 (H1 r) eq_refl) as (j & np2 & g & K1 & K2). apply make_resumed_inv in K1 as (inp' & m & st1 & K3 & K4 & _ & _ & K5).
    rewrite Ef in K3. injection K3 as <-. pose proof (construct_outcome (G:=G) inp nb' np') as H. rewrite K4 in H.
    destruct H as (_ & _ & _ & z' & _ & _ & _ & HM & HD & _).
    destruct (completed_loop (A:=RA (fun x => x)) _ _ _ _ (eq_trans (f_equal m_finalized K5) HM) K2 H2) as (m' & HL).
    assert (EP : m_P (r_model r) = m_P (j_model j)).
    { inversion K2 as [? ? n0 o0 ? m2 cs y m1 HL' HF|? ? n0 o0 e ? m2 cs y m1 HL' HE HF|? ? n0 o0 e ? m2 HL' HE]; subst; cbn [r_model];
        apply loop_facts in HL' as (P1 & P2 & _); try (rewrite finalize_open in HF by (rewrite P2, K5; exact HM); injection HF as _ _ <-; cbn [m_P]); exact P1. }
    rewrite H3, EP, K5. cbn [m_P]. apply (de_dt_sign _ _ HD). apply (ru_u0 _ HR). }
  assert (HD : D = (IZR (Z.of_nat k) * dt)%R).
  { destruct H4 as [v y If _ Hv Hx|v y If _ Hv _ Hx|v y If _ Hv _ _ Hx]; try congruence.
    rewrite Hc in Hv. injection Hv as <-. inversion Hx. reflexivity. }
  assert (Hk : r_updates r = k).
  { rewrite (least_timesteps 0 dt (Z.of_nat k) (r_updates r)); [apply Nat2Z.id|exact Hdt|]. rewrite Rplus_0_l, <- HD. exact H5. }
  split; [exact Hk|]. destruct (sp_clock _ _ H7) as [_ <-].
  destruct (C35_checkpoint_of_a_run R (RA (fun x => x)) S N G GN inp nb np n st o ck E HI) as (y & oy & Hi & _ & _).
  rewrite (run_iter inp nb np _ _ _ H6), Hk. lia.
Qed.
Print Assumptions C81_duration_starts_again.

(** A small configuration with checkpoints: the first is written when the
    model is made. *)
Example C81_hypotheses : exists inp st o (ck : checkpoint R unit),
  configure (A:=RX) [] (Mapping (small [("seed", VInt 1); ("save_checkpoint", VBool true)])) [] = Ok inp /\ runnable inp /\
  uniform_range half_rng /\ (forall s, 0 < fst (draw (Rng:=half_rng) s))%R /\
  dget "If" [("timesteps", VInt (F:=R) 6)] = None /\ dget "timesteps" [("timesteps", VInt (F:=R) 6)] = Some (VInt (Z.of_nat 6)) /\
  (forall dt, exists D, asks [("timesteps", VInt 6)] dt D) /\
  run_model (A:=RX) (G:=half_rng) (GN:=count_rng) inp tt 0%Z 3 = Ok (st, o) /\ In (Checkpoint ck) o.
Proof.
  assert (K : exists inp, configure (A:=RX) [] (Mapping (small [("seed", VInt 1); ("save_checkpoint", VBool true)])) [] = Ok inp /\ runnable inp /\
    i_save_checkpoint inp = true).
  { eexists. split; [reflexivity|]. split; [|reflexivity]. constructor; [constructor|..]; cbn; try lra; try lia; try (intros x E; discriminate). }
  destruct K as (inp & E & HR & Hs). change RX with (RA (fun x => x)) in *.
  destruct (runnable_runs (G:=half_rng) (GN:=count_rng) inp tt 0%Z 3 HR half_rng_range half_rng_pos) as (st & o & E1).
  pose proof E1 as Ei. apply run_model_inv in Ei as (m & np & sta & oa & ob & Ec & Ew & Eu & Eo).
  pose proof (construct_outcome (G:=half_rng) (GN:=count_rng) inp tt 0%Z) as H. rewrite Ec in H.
  destruct H as (_ & _ & _ & z & _ & _ & _ & _ & HD & _). pose proof (de_copied _ _ HD) as HC.
  assert (Hsc : p_save_checkpoint (m_P m) = true) by (rewrite <- Hs; decompose [and] HC; assumption).
  pose proof (construct_fresh (A:=RA (fun x => x)) inp tt 0%Z m np Ec) as (_ & F2 & _).
  apply write_checkpoints in Ew as (_ & [(_ & _ & Hk & _)|([H|H] & _)]); [|rewrite F2 in H; discriminate|congruence].
  assert (Hex : exists c, In (Checkpoint c) oa).
  { clear -Hk. induction oa as [|[|c] oc IH]; cbn in *; [discriminate|destruct (IH Hk) as [c K]; eauto|eauto]. }
  destruct Hex as [ck Hck]. exists inp, st, o, ck. split; [exact E|]. split; [exact HR|]. split; [exact half_rng_range|].
  split; [exact half_rng_pos|]. split; [reflexivity|]. split; [reflexivity|]. split.
  - intros dt. eexists. eapply asks_timesteps; [eapply factor_default|..]; try reflexivity. apply (numeric_int 6).
  - split; [exact E1|]. rewrite Eo. apply in_or_app. left. exact Hck.
Qed.

(** A resuming parallel job rewrites its output file once. *)
Example C81_files_case :
  let f := mkFolder (Some (Whole (mkDataset true [1; 2; 3]))) None (Some (Whole 7)) in
  let p := job_start_files true true true true false (mkDataset true []) (mkDataset true [0]) [] (Some 8) [] f in
  List.length (fst p) = 4%nat /\ snd p = None /\ fo_out (finished p f) = Some (Whole (mkDataset true [1; 2; 3])).
Proof. repeat split. Qed.
