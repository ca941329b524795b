(** Proofs about jobs that resume. *)
From Coq Require Import ZArith List Bool String Reals Lra Lia.
From Verif Require Import Base RLemmas Dict Config Params State Water SharedSpec WaterSpec Iter IterSpec RunProofs FrameProofs IterProofs
  Inputs Init InitSpec InitProofs Session SessionSpec ResumeProofs SessionProofs Expand Jobs JobsSpec JobsProofs Files
  RunAllProofs Resumed MirrorFlow.
Import ListNotations.
Local Open Scope string_scope.

Section Loads.
  Context {F : Type} {A : Arith F} {S : Type} {G : Rng F S} {N : Type} {GN : NpRng N}.

  (** Loading a checkpoint a second time. *)
  Lemma load_twice : forall (ck : checkpoint F S) missing st st1, Session.load_checkpoint ck false st = Ok st1 ->
    Session.load_checkpoint ck missing st1 = Session.load_checkpoint ck missing st.
  Proof.
    intros ck missing st st1. unfold Session.load_checkpoint. destruct (c_save_time_since_data ck) as [|x]; [discriminate|].
    intros E. apply Ok_inj in E. subst st1. destruct missing; destruct st; vm_compute; reflexivity.
  Qed.
  Lemma load_time : forall (ck : checkpoint F S) missing st st1, Session.load_checkpoint ck missing st = Ok st1 ->
    s_time st1 = c_time ck.
  Proof.
    intros ck missing st st1. unfold Session.load_checkpoint. destruct (c_save_time_since_data ck) as [|x]; [discriminate|].
    intros E. apply Ok_inj in E. subst st1. destruct missing; reflexivity.
  Qed.
  Lemma load_any : forall (ck : checkpoint F S) missing missing' st st1, Session.load_checkpoint ck missing st = Ok st1 ->
    exists st2, Session.load_checkpoint ck missing' st = Ok st2.
  Proof.
    intros ck missing missing' st st1. unfold Session.load_checkpoint. destruct (c_save_time_since_data ck); [discriminate|]. eauto.
  Qed.

  Lemma make_resumed_inv : forall f c (ck : checkpoint F S) missing nb np (j : job F S) np',
    make_resumed f c ck missing nb np = Ok (j, np') <->
    exists inp m st, configure [] f [] = Ok inp /\ construct (GN:=GN) inp nb np = Ok (m, np') /\
      Session.load_checkpoint ck missing (m_st m) = Ok st /\
      job_end_time c (c_time ck) (p_dt (m_P m)) = Ok (j_end j) /\
      j_model j = mkModel (m_in m) (m_P m) st (m_finalized m).
  Proof.
    intros f c ck missing nb np j np'. unfold make_resumed, resume. split.
    - intros E. apply rbind_Ok in E as (inp & E1 & E). apply rbind_Ok in E as ([m1 np1] & E2 & E).
      apply rbind_Ok in E2 as ([m np2] & E2 & E3). apply rbind_Ok in E3 as (st & E3 & E4).
      apply Ok_inj in E4. injection E4 as <- <-. apply rbind_Ok in E as (t & E5 & E). cbn [m_st m_P] in E5.
      apply Ok_inj in E. injection E as <- <-. exists inp, m, st. rewrite (load_time _ _ _ _ E3) in E5. auto.
    - intros (inp & m & st & E1 & E2 & E3 & E4 & E5). rewrite E1. cbn [rbind]. rewrite E2. cbn [rbind]. rewrite E3. cbn [rbind m_st m_P].
      rewrite (load_time _ _ _ _ E3), E4. cbn [rbind]. rewrite <- E5. destruct j. reflexivity.
  Qed.

  Lemma parallel_serial : forall f c (ck : checkpoint F S) missing nb np (r : ran F S),
    parallel_resumed (GN:=GN) f c ck missing nb np r <-> serial_resumed (GN:=GN) f c ck missing nb np r.
  Proof.
    intros f c ck missing nb np r. split.
    - intros (j & np' & st & g' & E & EL & H). cbn zeta in H. apply make_resumed_inv in E as (inp & m & st1 & E1 & E2 & E3 & E4 & E5).
      rewrite E5 in EL, H. cbn [m_st m_in m_P m_finalized] in EL, H. rewrite (load_twice _ missing _ _ E3) in EL.
      exists (mkJob (mkModel (m_in m) (m_P m) st (m_finalized m)) (j_end j)), np', g'. split; [|exact H].
      apply make_resumed_inv. exists inp, m, st. auto.
    - intros (j & np' & g' & E & H). apply make_resumed_inv in E as (inp & m & st & E1 & E2 & E3 & E4 & E5).
      destruct (load_any _ _ false _ _ E3) as (st0 & E0).
      exists (mkJob (mkModel (m_in m) (m_P m) st0 (m_finalized m)) (j_end j)), np', st, g'. split; [|split].
      + apply make_resumed_inv. exists inp, m, st0. auto.
      + cbn [j_model m_st]. rewrite (load_twice _ _ _ _ E0). exact E3.
      + cbn zeta. cbn [j_model m_in m_P m_finalized j_end]. rewrite E5 in H. cbn [m_st] in H. destruct j as [jm je]. cbn [j_model j_end] in *.
        rewrite <- E5. exact H.
  Qed.
End Loads.

Section Continues.
  Context {S : Type} {G : Rng R S} {N : Type} {GN : NpRng N}.

  (** Updates make a loop. *)
  Lemma updates_loop : forall T k (m : model (F:=R) S) st os,
    updates (A:=XA) (m_P m) k (m_st m) = Ok (st, os) -> m_finalized m = false ->
    least_reaching (s_time (m_st m)) (p_dt (m_P m)) T k ->
    exists g', loop (A:=XA) T (s_rng (m_st m)) m k os Finished g' (mkModel (m_in m) (m_P m) st false).
  Proof.
    intros T k. induction k as [|k IH]; intros m st os E Hf [H1 H2]; cbn [updates] in E.
    - apply Ok_inj in E. injection E as <- <-. exists (s_rng (m_st m)).
      replace (mkModel (m_in m) (m_P m) (m_st m) false) with m by (destruct m; cbn in Hf; subst; reflexivity).
      apply loop_end. cbn. destruct (Rltb_spec (s_time (m_st m)) T); auto. cbn [INR] in H1. lra.
    - apply rbind_Ok in E as ([st1 o1] & E1 & E). apply rbind_Ok in E as ([st2 o2] & E2 & E). apply Ok_inj in E. injection E as <- <-.
      set (m1 := mkModel (m_in m) (m_P m) st1 (m_finalized m)).
      assert (EU : model_update (A:=XA) (use_rng (s_rng (m_st m)) m) = Ok (m1, o1)).
      { unfold model_update, use_rng. cbn [m_finalized m_P m_st m_in]. rewrite Hf.
        replace (set_rng (s_rng (m_st m)) (m_st m)) with (m_st m) by (destruct (m_st m); reflexivity).
        rewrite E1. unfold m1. rewrite Hf. reflexivity. }
      pose proof (JobsProofs.model_update_inv _ _ _ EU) as (_ & Hf1 & HP & _ & _ & Ht). cbn in Ht.
      destruct (IH m1 st2 o2) as (g' & HL); auto.
      { split.
        - change (p_dt (m_P m1)) with (p_dt (m_P m)). change (m_st m1) with st1. rewrite Ht. rewrite S_INR in H1. lra.
        - intros i Hi. change (p_dt (m_P m1)) with (p_dt (m_P m)). change (m_st m1) with st1. rewrite Ht.
          specialize (H2 (Datatypes.S i)). rewrite S_INR in H2. assert (Datatypes.S i < Datatypes.S k)%nat by lia. specialize (H2 H). lra. }
      exists g'. eapply loop_step; [|exact EU|exact HL].
      cbn. destruct (Rltb_spec (s_time (m_st m)) T); auto. specialize (H2 0%nat). cbn [INR] in H2.
      assert (0 < Datatypes.S k)%nat by lia. specialize (H2 H). lra.
  Qed.

  Lemma least_shift : forall t dt D k, least_reaching t dt (t + D) k <-> least_reaching 0 dt D k.
  Proof. intros t dt D k. split; intros [H1 H2]; (split; [lra|intros i Hi; specialize (H2 i Hi); lra]). Qed.

  Lemma resumed_continues : forall f c inp nb np n st o (ck : checkpoint R S) nb' np' missing,
    configure (A:=XA) [] f [] = Ok inp -> runnable inp -> uniform_range G -> (forall s : S, 0 < fst (draw s))%R ->
    (forall dt, exists D, asks c dt D) ->
    run_model (A:=XA) (GN:=GN) inp nb np n = Ok (st, o) -> In (Checkpoint ck) o ->
    exists r dt D x ox,
      (forall r', serial_resumed (A:=XA) (GN:=GN) f c ck missing nb' np' r' <-> r' = r) /\ completed r /\
      dt = p_dt (m_P (r_model r)) /\ asks c dt D /\ least_reaching 0 dt D (r_updates r) /\
      run_model (A:=XA) (GN:=GN) inp nb np (Z.to_nat (c_time_iter ck) + r_updates r) = Ok (x, ox) /\
      same_point x (m_st (r_model r)).
  Proof.
    intros f c inp nb np n st o ck nb' np' missing Ef HR HG Hu Hask E HI.
    destruct (resumed_run (A:=XA) inp nb np n st o ck nb' np' missing E HI eq_refl) as (m & np2 & Er & Hf & Hn).
    pose proof Er as Er'. unfold resume in Er'. apply rbind_Ok in Er' as ([m0 np3] & Ec & Er').
    apply rbind_Ok in Er' as (st1 & El & Er'). apply Ok_inj in Er'. injection Er' as Em _. 
    assert (Hdt : (0 < p_dt (m_P m))%R).
    { pose proof (construct_outcome (G:=G) inp nb' np') as H. rewrite Ec in H.
      destruct H as (_ & _ & _ & z' & _ & _ & _ & _ & HD & _). rewrite <- Em. apply (de_dt_sign _ _ HD). apply (ru_u0 _ HR). }
    destruct (Hask (p_dt (m_P m))) as (D & HD).
    destruct (least_exists 0 (p_dt (m_P m)) D Hdt) as (k & Hk).
    destruct (runnable_runs (G:=G) (GN:=GN) inp nb np (Z.to_nat (c_time_iter ck) + k) HR HG Hu) as (x & ox & Ex).
    specialize (Hn k). rewrite Ex in Hn. unfold alike in Hn.
    destruct (updates (A:=XA) (m_P m) k (m_st m)) as [[y oy]|] eqn:Eu; [|contradiction]. cbn [fst] in Hn.
    set (T := (s_time (m_st m) + D)%R).
    destruct (updates_loop T k m y oy Eu Hf) as (g' & HL); [apply least_shift, Hk|].
    pose proof (finalize_open (mkModel (m_in m) (m_P m) y false) eq_refl) as HF. cbn [m_in m_P m_st] in HF.
    set (r := mkRan k oy ((1, 0) :: [(2, 0)])%Z None (mkModel (m_in m) (m_P m) y true)).
    set (jb := mkJob m T).
    assert (EJ : make_resumed (A:=XA) (GN:=GN) f c ck missing nb' np' = Ok (jb, np2)).
    { unfold make_resumed. rewrite Ef. cbn [rbind]. rewrite Er. cbn [rbind].
      assert (EE : job_end_time (A:=XA) c (s_time (m_st m)) (p_dt (m_P m)) = Ok T) by (apply end_time_iff; eauto).
      rewrite EE. reflexivity. }
    assert (HRun : run_job (A:=XA) (s_rng (m_st m)) jb r g') by (eapply run_finished; [exact HL|exact HF]).
    assert (HC : completed r) by (repeat split).
    exists r, (p_dt (m_P m)), D, x, ox. split; [|split; [exact HC|split; [reflexivity|split; [exact HD|split; [exact Hk|split; [exact Ex|exact Hn]]]]]].
    intros r'. split.
    - intros (j' & np4 & g2 & K1 & K2). assert (Hj : j' = jb).
      { rewrite EJ in K1. apply Ok_inj in K1. apply (f_equal fst) in K1. symmetry. exact K1. }
      rewrite Hj in K2. exact (run_job_det (s_rng (m_st m)) jb r g' Hf HRun HC r' g2 K2).
    - intros ->. exists jb, np2, g'. split; [exact EJ|exact HRun].
  Qed.
End Continues.

Section StartFiles.
  Context {U V C : Type} (no_units : U).
  Lemma deferred_touches_nothing : forall resuming saving clobber new first mid ckp midc (f : folder U V C),
    fst (construct_files no_units resuming saving clobber true new first mid ckp midc f) = [].
  Proof.
    intros. unfold construct_files, new_run, Files.load_checkpoint. destruct resuming; [|reflexivity].
    destruct (fo_ckp f) as [[| |]|]; try reflexivity. rewrite andb_false_r. reflexivity.
  Qed.
  Lemma start_files_same : forall resuming saving clobber new first mid ckp midc (f : folder U V C),
    job_start_files no_units true resuming saving clobber new first mid ckp midc f =
    job_start_files no_units false resuming saving clobber new first mid ckp midc f.
  Proof.
    intros. unfold job_start_files. cbn zeta.
    pose proof (deferred_touches_nothing resuming saving clobber new first mid ckp midc f) as E0.
    assert (Ef : finished (construct_files no_units resuming saving clobber true new first mid ckp midc f) f = f).
    { unfold finished. rewrite E0. reflexivity. }
    rewrite Ef. clear Ef. unfold then_. rewrite E0. cbn [List.app].
    assert (K : snd (construct_files no_units resuming saving clobber true new first mid ckp midc f) = None \/
      construct_files no_units resuming saving clobber false new first mid ckp midc f =
      ([], snd (construct_files no_units resuming saving clobber true new first mid ckp midc f))).
    { unfold construct_files, new_run, Files.load_checkpoint. destruct resuming; [|left; reflexivity].
      destruct (fo_ckp f) as [[| |]|]; try (right; reflexivity). rewrite andb_false_r. left. reflexivity. }
    destruct K as [K|K].
    - rewrite K. destruct (construct_files no_units resuming saving clobber false new first mid ckp midc f). reflexivity.
    - rewrite K. destruct (snd (construct_files no_units resuming saving clobber true new first mid ckp midc f)) eqn:E; reflexivity.
  Qed.
End StartFiles.
