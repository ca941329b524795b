(** Proofs about jobs. *)
From Coq Require Import ZArith List Bool String Reals Lra Lia.
From Flocq Require Import Core.
From Verif Require Import Base RLemmas Dict Config Shared SharedSpec Params State Water Sed RunProofs Iter IterSpec FrameProofs IterProofs Inputs Init InitSpec InitProofs
  Session Expand Jobs JobsSpec.
Import ListNotations.
Local Open Scope string_scope.

(** ** The loop, in any arithmetic *)
Section Loop.
  Context {F : Type} {A : Arith F} {S : Type} {G : Rng F S}.

  (** The clock after [i] updates. *)
  Definition clock (m : model (F:=F) S) (i : nat) : F :=
    Nat.iter i (fun t => fadd t (p_dt (m_P m))) (s_time (m_st m)).

  Lemma iter_shift : forall {T} (f : T -> T) i x, Nat.iter i f (f x) = f (Nat.iter i f x).
  Proof. induction i; intros x; [auto|]. change (f (Nat.iter i f (f x)) = f (Nat.iter (Datatypes.S i) f x)). now rewrite IHi. Qed.

  Lemma model_update_inv : forall (m m1 : model (F:=F) S) o, model_update m = Ok (m1, o) ->
    m_finalized m = false /\ m_finalized m1 = false /\ m_P m1 = m_P m /\ m_in m1 = m_in m /\
    update (m_P m) (m_st m) = Ok (m_st m1, o) /\
    s_time (m_st m1) = fadd (s_time (m_st m)) (p_dt (m_P m)).
  Proof.
    intros m m1 o E. unfold model_update in E. destruct (m_finalized m) eqn:Ef; [discriminate|].
    apply rbind_Ok in E as ([st o'] & E & E1). injection E1 as <- <-. cbn. repeat split; auto.
    apply update_frame in E. tauto.
  Qed.

  Lemma loop_facts : forall T g (m : model (F:=F) S) k os r g' m', loop T g m k os r g' m' ->
    m_P m' = m_P m /\ m_finalized m' = m_finalized m /\
    (forall i, (i < k)%nat -> fltb (clock m i) T = true) /\
    match r with
    | Finished => s_time (m_st m') = clock m k /\ fltb (clock m k) T = false
    | Failed _ => fltb (clock m k) T = true
    end.
  Proof.
    induction 1 as [g m H|g m m1 o n os r g' m' H H1 H2 IH|g m e g' st H H1].
    - repeat split; auto. intros i Hi. lia.
    - apply model_update_inv in H1 as (H3 & H4 & H5 & _ & _ & H6). cbn in H3, H5, H6.
      destruct IH as (I1 & I2 & I3 & I4).
      assert (K : forall i, clock m1 i = clock m (Datatypes.S i)).
      { intros i. unfold clock. rewrite H5, H6. apply (iter_shift (fun t => fadd t (p_dt (m_P m)))). }
      split; [congruence|]. split; [congruence|]. split.
      + intros [|i] Hi; [exact H|]. rewrite <- K. apply I3. lia.
      + rewrite !K in I4. exact I4.
    - cbn. repeat split; auto. intros i Hi. lia.
  Qed.
End Loop.

(** ** Durations *)
Section Durations.
  Local Open Scope R_scope.
  Notation XA := (RA (fun x => x)).

  Lemma number_iff : forall v x, number (A:=XA) v = Ok x <-> numeric v x.
  Proof.
    intros v x. split.
    - destruct v; cbn; intros E; try discriminate; injection E as <-; try constructor.
      destruct b; constructor.
    - destruct 1; reflexivity.
  Qed.
  Lemma to_float_iff : forall v x, to_float (A:=XA) v = Ok x <-> numeric v x.
  Proof.
    intros v x. rewrite <- number_iff. destruct v; cbn; try reflexivity. split; discriminate.
  Qed.

  Lemma factor_iff : forall c x,
    (match dget "If" c with Some v => to_float (A:=XA) v | None => Ok (fz (Arith:=XA) 1) end) = Ok x <-> intermittency c x.
  Proof.
    intros c x. destruct (dget "If" c) as [v|] eqn:E.
    - rewrite to_float_iff. split; [intros H; eapply factor_given; eauto|].
      destruct 1 as [v' x' E' H|E']; congruence.
    - split.
      + intros H. injection H as <-. apply factor_default, E.
      + destruct 1 as [v' x' E' H|E']; [congruence|reflexivity].
  Qed.

  Lemma end_time_iff : forall c now dt T,
    job_end_time (A:=XA) c now dt = Ok T <-> exists D, asks c dt D /\ T = now + D.
  Proof.
    intros c now dt T. unfold job_end_time. split.
    - intros E. apply rbind_Ok in E as (If & E0 & E). apply factor_iff in E0.
      destruct (dget "timesteps" c) as [v|] eqn:E1.
      { apply rbind_Ok in E as (n & E2 & E). injection E as <-. apply number_iff in E2.
        eexists. split; [eapply asks_timesteps; eauto|]. ra. reflexivity. }
      destruct (dget "time" c) as [v|] eqn:E2.
      { apply rbind_Ok in E as (t & E3 & E). injection E as <-. apply number_iff in E3.
        eexists. split; [eapply asks_time; eauto|]. ra. reflexivity. }
      destruct (dget "time_years" c) as [v|] eqn:E3; [|discriminate].
      apply rbind_Ok in E as (t & E4 & E). injection E as <-. apply number_iff in E4.
      eexists. split; [eapply asks_years; eauto|]. unfold flit. ra. field.
    - intros (D & HD & ->). destruct HD as [v n If H0 H1 H2|v t If H0 H1 H2 H3|v t If H0 H1 H2 H3 H4].
      + apply factor_iff in H0. rewrite H0. cbn [rbind]. rewrite H1. apply number_iff in H2. rewrite H2. reflexivity.
      + apply factor_iff in H0. rewrite H0. cbn [rbind]. rewrite H1, H2. apply number_iff in H3. rewrite H3. reflexivity.
      + apply factor_iff in H0. rewrite H0. cbn [rbind]. rewrite H1, H2, H3. apply number_iff in H4. rewrite H4. cbn [rbind].
        unfold flit. ra. f_equal. f_equal. field.
  Qed.

  Context {S : Type} {G : Rng R S}.

  Lemma clock_exact : forall (m : model (F:=R) S) i,
    clock (A:=XA) m i = s_time (m_st m) + INR i * p_dt (m_P m).
  Proof.
    intros m i. induction i as [|i IH].
    - unfold clock. cbn [Nat.iter INR]. cbn. ring.
    - unfold clock in *. cbn [Nat.iter]. change (Nat.iter (Datatypes.S i) ?f ?x) with (f (Nat.iter i f x)). rewrite IH.
      rewrite S_INR. ra. ring.
  Qed.

  Lemma loop_least : forall T g (m : model (F:=R) S) k os g' m',
    loop (A:=XA) T g m k os Finished g' m' ->
    least_reaching (s_time (m_st m)) (p_dt (m_P m)) T k /\
    s_time (m_st m') = s_time (m_st m) + INR k * p_dt (m_P m).
  Proof.
    intros T g m k os g' m' H. apply loop_facts in H as (_ & _ & H1 & H2 & H3). split; [split|].
    - rewrite <- clock_exact. cbn in H3. destruct (Rltb_spec (clock (A:=XA) m k) T) as [K|K]; [discriminate|lra].
    - intros i Hi. rewrite <- clock_exact. apply H1 in Hi. cbn in Hi. destruct (Rltb_spec (clock (A:=XA) m i) T); congruence.
    - rewrite H2. apply clock_exact.
  Qed.
End Durations.

(** ** Totality *)
Section Total.
  Local Open Scope R_scope.
  Notation XA := (RA (fun x => x)).
  Context {S : Type} {G : Rng R S}.

  Lemma least_unique : forall t dt T k k', least_reaching t dt T k -> least_reaching t dt T k' -> k = k'.
  Proof.
    intros t dt T k k' [H1 H2] [H3 H4]. destruct (Nat.lt_trichotomy k k') as [H|[H|H]]; auto; exfalso.
    - apply H4 in H. lra.
    - apply H2 in H. lra.
  Qed.

  Lemma least_exists : forall t dt T, 0 < dt -> exists k, least_reaching t dt T k.
  Proof.
    intros t dt T H. set (z := Zceil ((T - t) / dt)). exists (Z.to_nat z).
    pose proof (Zceil_ub ((T - t) / dt)) as H1. fold z in H1.
    assert (E : (T - t) / dt * dt = T - t) by (field; lra).
    split.
    - assert (IZR z <= INR (Z.to_nat z)).
      { rewrite INR_IZR_INZ. apply IZR_le. lia. }
      assert (IZR z * dt <= INR (Z.to_nat z) * dt) by (apply Rmult_le_compat_r; lra).
      assert ((T - t) / dt * dt <= IZR z * dt) by (apply Rmult_le_compat_r; lra). lra.
    - intros i Hi. assert (K : (Z.of_nat i <= z - 1)%Z) by lia. apply IZR_le in K. rewrite minus_IZR in K.
      rewrite <- INR_IZR_INZ in K.
      assert (K1 : INR i < (T - t) / dt).
      { apply Rnot_le_lt. intros K1. assert ((z <= Z.of_nat i)%Z).
        { unfold z. apply Zceil_glb. rewrite <- INR_IZR_INZ. exact K1. } lia. }
      apply (Rmult_lt_compat_r dt) in K1; [|exact H]. lra.
  Qed.

  Lemma least_timesteps : forall t dt n k, 0 < dt -> least_reaching t dt (t + IZR n * dt) k -> k = Z.to_nat n.
  Proof.
    intros t dt n k H HL. eapply least_unique; [exact HL|]. split.
    - assert (IZR n <= INR (Z.to_nat n)) by (rewrite INR_IZR_INZ; apply IZR_le; lia).
      assert (IZR n * dt <= INR (Z.to_nat n) * dt) by (apply Rmult_le_compat_r; lra). lra.
    - intros i Hi. assert (K : (Z.of_nat i + 1 <= n)%Z) by lia. apply IZR_le in K. rewrite plus_IZR in K.
      rewrite <- INR_IZR_INZ in K. assert (INR i * dt < IZR n * dt) by (apply Rmult_lt_compat_r; lra). lra.
  Qed.

  Lemma ready_rng : forall P g (st : state R S), model_ready P st -> model_ready P (set_rng g st).
  Proof.
    intros P g st (Hw & Hs & Hd). split; [|split]; auto.
    - destruct Hw. constructor; auto.
    - destruct Hs. constructor; auto.
  Qed.

  Lemma loop_total : forall T k g (m : model (F:=R) S),
    uniform_range G -> (forall s, 0 < fst (draw s)) ->
    model_ready (m_P m) (m_st m) -> m_finalized m = false ->
    least_reaching (s_time (m_st m)) (p_dt (m_P m)) T k ->
    exists os g' m', loop (A:=XA) T g m k os Finished g' m' /\ m_finalized m' = false.
  Proof.
    intros T k. induction k as [|k IH]; intros g m HG Hu Hm Hf [H1 H2].
    - exists [], g, m. split; [|exact Hf]. apply loop_end. cbn. destruct (Rltb_spec (s_time (m_st m)) T); auto.
      cbn [INR] in H1. lra.
    - destruct (update_total (m_P m) (set_rng g (m_st m)) (ready_rng _ g _ Hm) HG Hu) as (st1 & o1 & E1 & Hr1).
      set (m1 := mkModel (m_in m) (m_P m) st1 (m_finalized m)).
      assert (E : model_update (A:=XA) (use_rng g m) = Ok (m1, o1)).
      { unfold model_update, use_rng. cbn [m_finalized m_P m_st m_in]. rewrite Hf, E1. unfold m1. rewrite Hf. reflexivity. }
      pose proof (model_update_inv _ _ _ E) as (_ & Hf1 & HP & _ & _ & Ht). cbn in Ht.
      destruct (IH (s_rng (m_st m1)) m1 HG Hu) as (os & g' & m' & HL & Hf'); auto.
      { split.
        - change (p_dt (m_P m1)) with (p_dt (m_P m)). change (m_st m1) with st1. rewrite Ht. rewrite S_INR in H1. lra.
        - intros i Hi. change (p_dt (m_P m1)) with (p_dt (m_P m)). change (m_st m1) with st1. rewrite Ht.
          specialize (H2 (Datatypes.S i)). rewrite S_INR in H2. assert (Datatypes.S i < Datatypes.S k)%nat by lia. specialize (H2 H). lra. }
      exists (o1 ++ os)%list, g', m'. split; [|exact Hf']. eapply loop_step; eauto.
      cbn. destruct (Rltb_spec (s_time (m_st m)) T); auto. specialize (H2 0%nat). cbn [INR] in H2.
      assert (0 < Datatypes.S k)%nat by lia. specialize (H2 H). lra.
  Qed.
End Total.

(** ** Ends of jobs *)
Section Ends.
  Context {F : Type} {A : Arith F} {S : Type} {G : Rng F S}.

  Lemma caught_iff : forall e, caught e = true <-> catchable e.
  Proof. unfold catchable. destruct e; cbn; split; intros H; try discriminate; try tauto; destruct H; discriminate. Qed.
  Lemma not_caught : forall e, caught e = false -> ~ catchable e.
  Proof. intros e H K. apply caught_iff in K. congruence. Qed.

  Lemma finalize_open : forall m : model (F:=F) S, m_finalized m = false ->
    finalize_stage m = ([(2, 0)%Z], None, mkModel (m_in m) (m_P m) (m_st m) true).
  Proof. intros m H. unfold finalize_stage, model_finalize. now rewrite H. Qed.

  Lemma run_job_cases : forall g (j : job F S) r g', m_finalized (j_model j) = false -> run_job g j r g' ->
    exists ending m, loop (j_end j) g (j_model j) (r_updates r) (r_output r) ending g' m /\
      match ending with
      | Finished => completed r
      | Failed e => catchable e /\ failed_cleanly r \/ ~ catchable e /\ aborted r e
      end.
  Proof.
    intros g j r g' Hf H. inversion H as [? ? n o ? m cs x m' HL HF|? ? n o e ? m cs x m' HL HC HF|? ? n o e ? m HL HC]; subst.
    - exists Finished, m. split; [exact HL|]. apply loop_facts in HL as (_ & K & _). rewrite Hf in K.
      rewrite (finalize_open _ K) in HF. injection HF as <- <- <-. repeat split.
    - exists (Failed e), m. split; [exact HL|]. apply loop_facts in HL as (_ & K & _). rewrite Hf in K.
      rewrite (finalize_open _ K) in HF. injection HF as <- <- <-. left. apply caught_iff in HC. repeat split. exact HC.
    - exists (Failed e), m. split; [exact HL|]. apply loop_facts in HL as (_ & K & _). rewrite Hf in K.
      right. split; [apply not_caught, HC|]. repeat split; auto.
  Qed.

  Lemma completed_loop : forall g (j : job F S) r g', m_finalized (j_model j) = false -> run_job g j r g' -> completed r ->
    exists m, loop (j_end j) g (j_model j) (r_updates r) (r_output r) Finished g' m.
  Proof.
    intros g j r g' Hf H HC. apply run_job_cases in H as ([|e] & m & HL & K); [eauto| |exact Hf].
    exfalso. destruct HC as [HC _]. destruct K as [[_ [K _]]|[_ [K _]]]; rewrite K in HC; discriminate.
  Qed.

  (** *** Several jobs *)
  Lemma run_jobs_length : forall g (js : list (job F S)) rs, run_jobs g js rs ->
    (List.length rs <= List.length js)%nat /\
    (forall i r, nth_error rs i = Some r -> (Datatypes.S i < List.length js)%nat ->
       ((Datatypes.S i < List.length rs)%nat <-> r_raised r = None)).
  Proof.
    induction 1 as [g|g j js r g' rs H1 H2 H3 [I1 I2]|g j js r g' e H1 H2].
    - split; [cbn; lia|]. intros [|i]; discriminate.
    - cbn [List.length]. split; [lia|]. intros [|i] r' E Hi; cbn in E.
      + injection E as <-. split; [auto|]. intros _. inversion H3; subst; cbn [List.length] in *; lia.
      + specialize (I2 i r' E). rewrite <- I2 by lia. lia.
    - cbn [List.length]. split; [lia|]. intros [|i] r' E Hi; cbn in E; [|destruct i; discriminate].
      injection E as <-. rewrite H2. split; [lia|discriminate].
  Qed.

  (** *** Construction *)
  Context {N : Type} {GN : NpRng N}.

  Lemma make_job_inv : forall f c nb np (j : job F S) o np', make_job f c nb np = Ok (j, o, np') ->
    exists inp m, configure [] f [] = Ok inp /\ construct inp nb np = Ok (m, np') /\
      m_P (j_model j) = m_P m /\ m_in (j_model j) = m_in m /\
      write_output (m_P m) (m_st m) = (m_st (j_model j), o) /\
      m_finalized (j_model j) = false /\
      job_end_time c (s_time (m_st (j_model j))) (p_dt (m_P (j_model j))) = Ok (j_end j).
  Proof.
    intros f c nb np j o np' E. unfold make_job, new_model in E.
    apply rbind_Ok in E as (inp & E1 & E). apply rbind_Ok in E as ([[m1 o1] np1] & E2 & E).
    apply rbind_Ok in E2 as ([m np2] & E2 & E3). destruct (write_output (m_P m) (m_st m)) as [st o2] eqn:Ew.
    injection E3 as <- <- <-. apply rbind_Ok in E as (t & E4 & E). injection E as <- <- <-.
    exists inp, m. cbn [m_P m_st m_in m_finalized j_model j_end] in *. repeat split; auto.
  Qed.
End Ends.

(** ** Generators *)
Section Generators.
  Context {F : Type} {A : Arith F} {S : Type} {G : Rng F S} {N : Type} {GN : NpRng N}.

  Lemma construct_rng : forall (c : inputs F) z nb np (m : model (F:=F) S) np', i_seed c = Some z ->
    construct c nb np = Ok (m, np') -> s_rng (m_st m) = seed_rng z.
  Proof.
    intros c z nb np m np' Hz E. unfold construct in E. apply rbind_Ok in E as (c' & E1 & E).
    apply process_keeps_seed in E1. unfold determine_random_seed in E. rewrite E1, Hz in E.
    apply rbind_Ok in E as (P & E2 & E). apply rbind_Ok in E as ([P' st] & E3 & E). injection E as <- <-.
    cbn [m_st]. unfold create_domain in E3. 
    repeat match type of E3 with
    | (if ?b then _ else _) = _ => destruct b; try discriminate
    | rbind _ _ = _ => apply rbind_Ok in E3 as (? & ? & E3)
    end.
    injection E3 as <- <-. reflexivity.
  Qed.

  Lemma make_job_rng : forall f c z nb np (j : job F S) o np', seed_given f z ->
    make_job f c nb np = Ok (j, o, np') -> s_rng (m_st (j_model j)) = seed_rng z.
  Proof.
    intros f c z nb np j o np' (inp & E1 & Hz) E. apply make_job_inv in E as (inp' & m & E2 & E3 & _ & _ & Ew & _).
    rewrite E1 in E2. injection E2 as <-. apply write_output_same in Ew. apply same_fields in Ew.
    destruct Ew as (_ & _ & _ & _ & _ & _ & _ & _ & _ & _ & _ & _ & _ & _ & _ & _ & _ & _ & _ & _ & _ & _ & Er).
    rewrite Er. eapply construct_rng; eauto.
  Qed.

  (** With a seed in the file, construction does not depend on the generators. *)
  Lemma make_job_seeded : forall f c z, seed_given f z -> forall nb nb' np np' (j : job F S) o np1,
    make_job f c nb np = Ok (j, o, np1) -> np1 = np /\ make_job f c nb' np' = Ok (j, o, np').
  Proof.
    intros f c z (inp & E1 & Hz) nb nb' np np' j o np1 E. unfold make_job in *. rewrite E1 in *. cbn [rbind] in *.
    unfold new_model in *. rewrite (construct_seeded inp z Hz nb nb' np np') in E.
    rewrite (construct_seeded inp z Hz nb' nb' np' np').
    destruct (construct inp nb' np') as [[m np2]|]; [|discriminate]. cbn [rmap rbind] in *.
    destruct (write_output (m_P m) (m_st m)) as [st1 o1]. cbn [rbind] in *.
    destruct (job_end_time _ _ _) as [t|]; [|discriminate]. cbn [rbind] in *. injection E as <- <- <-. auto.
  Qed.

  Lemma alone_iff : forall f c nb np (r : ran F S), alone (f, c) nb np r <->
    exists j o np' g', make_job f c nb np = Ok (j, o, np') /\ run_job (s_rng (m_st (j_model j))) j r g'.
  Proof.
    intros f c nb np r. unfold alone, serial. cbn [make_jobs]. split.
    - intros (js & o & nb' & np' & E & H). apply rbind_Ok in E as ([[j o1] np1] & E1 & E). cbn [rbind] in E.
      injection E as <- <- <- <-. exists j, o1, np1. inversion H; subst; eauto.
    - intros (j & o & np' & g' & E & H). rewrite E. cbn [rbind]. do 4 eexists. split; [reflexivity|].
      destruct (r_raised r) eqn:Er; [eapply jobs_stop; eauto|]. eapply jobs_next; eauto. constructor.
  Qed.

  Lemma alone_seeded : forall f c z, seed_given f z -> forall nb nb' np np' (r : ran F S),
    alone (f, c) nb np r -> alone (f, c) nb' np' r.
  Proof.
    intros f c z Hz nb nb' np np' r. rewrite !alone_iff. intros (j & o & np1 & g' & E & H).
    destruct (make_job_seeded f c z Hz nb nb' np np' _ _ _ E) as [_ E']. eauto 8.
  Qed.

  Lemma parallel_iff : forall (l : list (file F * dict (value F))), (forall f c, In (f, c) l -> exists z, seed_given f z) ->
    forall nb0 np0 nb np (rs : list (ran F S)),
    parallel l nb np rs <-> Forall2 (fun fc r => alone fc nb0 np0 r) l rs.
  Proof.
    induction l as [|[f c] l IH]; intros Hs nb0 np0 nb np rs.
    - split; intros H; inversion H; constructor.
    - destruct (Hs f c (or_introl eq_refl)) as (z & Hz).
      assert (Hs' : forall f c, In (f, c) l -> exists z, seed_given f z) by (intros; eapply Hs; right; eauto).
      split; intros H.
      + inversion H as [|? ? ? ? ? j o np' r g' rs' E1 E2 E3]; subst. constructor; [|apply (IH Hs' nb0 np0) in E3; exact E3].
        rewrite alone_iff. destruct (make_job_seeded f c z Hz nb nb0 np np0 _ _ _ E1) as [_ E']. eauto 8.
      + inversion H as [|? r ? rs' E1 E2]; subst. apply alone_iff in E1 as (j & o & np' & g' & E & E1).
        destruct (make_job_seeded f c z Hz nb0 nb np0 np _ _ _ E) as [_ E']. eapply parallel_cons; eauto.
        apply (IH Hs' nb0 np0). exact E2.
  Qed.

  Lemma make_jobs_last : forall l f c z nb np (js : list (job F S)) o nb' np', seed_given f z ->
    make_jobs (l ++ [(f, c)])%list nb np = Ok (js, o, nb', np') -> nb' = seed_rng z.
  Proof.
    induction l as [|[f0 c0] l IH]; intros f c z nb np js o nb' np' Hz E; cbn [app make_jobs] in E.
    - apply rbind_Ok in E as ([[j o1] np1] & E1 & E). cbn [rbind] in E. injection E as <- <- <- <-.
      eapply make_job_rng; eauto.
    - apply rbind_Ok in E as ([[j o1] np1] & E1 & E). apply rbind_Ok in E as ([[[js' os] nb1] np2] & E2 & E).
      injection E as <- <- <- <-. eapply IH; eauto.
  Qed.

  Lemma serial_first : forall f1 c1 l f c z nb np (r : ran F S) rs, seed_given f z ->
    last ((f1, c1) :: l) (f1, c1) = (f, c) -> serial ((f1, c1) :: l) nb np (r :: rs) ->
    exists j o np' g', make_job f1 c1 nb np = Ok (j, o, np') /\ run_job (seed_rng z) j r g'.
  Proof.
    intros f1 c1 l f c z nb np r rs Hz HL (js & o & nb' & np' & E & H).
    assert (K : nb' = seed_rng z).
    { assert (X : (f1, c1) :: l <> []) by discriminate. apply (app_removelast_last (f1, c1)) in X.
      rewrite HL in X. rewrite X in E. eapply make_jobs_last; eauto. }
    cbn [make_jobs] in E. apply rbind_Ok in E as ([[j o1] np1] & E1 & E).
    apply rbind_Ok in E as ([[[js' os] nb1] np2] & E2 & E). injection E as <- <- <- <-.
    subst. exists j, o1, np1. inversion H; subst; eauto.
  Qed.

  (** A loop that reaches its end is the only one. *)
  Lemma loop_det : forall T g (m : model (F:=F) S) k os g' m', loop T g m k os Finished g' m' ->
    forall k2 os2 r2 g2 m2, loop T g m k2 os2 r2 g2 m2 ->
    k2 = k /\ os2 = os /\ r2 = Finished /\ g2 = g' /\ m2 = m'.
  Proof.
    intros T g m k os g' m' H. remember Finished as r eqn:Er. revert Er.
    induction H as [g m H|g m m1 o n os r g' m' H H1 H2 IH|g m e g' st H H1]; intros Er k2 os2 r2 g2 m2 K; try discriminate.
    - inversion K; subst; try congruence. auto.
    - inversion K as [|? ? m1' o' n' os' ? ? ? K1 K2 K3|]; subst; try congruence.
      rewrite H1 in K2. injection K2 as <- <-. apply IH in K3 as (-> & -> & -> & -> & ->); auto.
  Qed.

  Lemma run_job_det : forall g (j : job F S) r g', m_finalized (j_model j) = false -> run_job g j r g' -> completed r ->
    forall r2 g2, run_job g j r2 g2 -> r2 = r.
  Proof.
    intros g j r g' Hf H HC r2 g2 K.
    destruct (completed_loop _ _ _ _ Hf H HC) as (m & HL).
    assert (D := loop_det _ _ _ _ _ _ _ HL).
    inversion H as [? ? n o ? m' cs x m1 HL' HF|? ? n o e ? m' cs x m1 HL' HE HF|? ? n o e ? m' HL' HE]; subst;
      cbn in *; apply D in HL' as (_ & _ & Q & _ & ->); try discriminate.
    inversion K as [? ? n2 o2 ? m2 cs2 x2 m3 KL KF|? ? n2 o2 e ? m2 cs2 x2 m3 KL KE KF|? ? n2 o2 e ? m2 KL KE]; subst;
      apply D in KL as (-> & -> & Q2 & _ & ->); try discriminate.
    rewrite HF in KF. injection KF as <- <- <-. reflexivity.
  Qed.

  Lemma run_again : forall g (j : job F S) r g' g1 r1 g2, m_finalized (j_model j) = false -> run_job g j r g' -> completed r ->
    run_job g1 (mkJob (r_model r) (j_end j)) r1 g2 ->
    r_updates r1 = O /\ r_output r1 = [] /\ r_codes r1 = [(1, 0); (2, 1)]%Z /\ r_raised r1 = None /\ r_model r1 = r_model r.
  Proof.
    intros g j r g' g1 r1 g2 Hf H HC K.
    assert (HM : exists m, fltb (s_time (m_st m)) (j_end j) = false /\ r_model r = mkModel (m_in m) (m_P m) (m_st m) true).
    { destruct (completed_loop _ _ _ _ Hf H HC) as (m & HL). exists m.
      destruct (loop_facts _ _ _ _ _ _ _ _ HL) as (_ & Hm & _ & Ht & Hl). split; [rewrite Ht; exact Hl|].
      assert (D := loop_det _ _ _ _ _ _ _ HL).
      inversion H as [? ? n o ? m' cs x m1 HL' HF|? ? n o e ? m' cs x m1 HL' HE HF|? ? n o e ? m' HL' HE]; subst;
        cbn in *; apply D in HL' as (_ & _ & Q & _ & ->); try discriminate.
      rewrite finalize_open in HF by congruence. injection HF as _ _ <-. reflexivity. }
    destruct HM as (m & Ht & Em).
    assert (HL1 : forall n os e g3 m3, loop (j_end j) g1 (r_model r) n os e g3 m3 -> n = O /\ os = [] /\ e = Finished /\ m3 = r_model r).
    { intros n os e g3 m3 L. rewrite Em in L. cbn [m_st] in *.
      inversion L as [? ? L1|? ? ? ? ? ? ? ? ? L1|? ? ? ? ? L1]; subst; cbn [m_st] in L1; try congruence.
      rewrite Em. repeat split. }
    inversion K as [? ? n o ? m' cs x m1 HL' HF|? ? n o e ? m' cs x m1 HL' HE HF|? ? n o e ? m' HL' HE]; subst;
      apply HL1 in HL' as (-> & -> & Q & ->); try discriminate.
    unfold finalize_stage, model_finalize in HF. rewrite Em in HF. cbn [m_finalized] in HF.
    cbn [caught] in HF. injection HF as <- <- <-. rewrite Em. repeat split.
  Qed.
End Generators.

(** ** Computing runs *)
Section Compute.
  Context {F : Type} {A : Arith F} {S : Type} {G : Rng F S}.

  (** Exactly [n] updates reach the end time. *)
  Fixpoint reaches (T : F) (n : nat) (g : S) (m : model (F:=F) S) : bool :=
    match n with
    | O => negb (fltb (s_time (m_st m)) T)
    | Datatypes.S n' =>
        fltb (s_time (m_st m)) T &&
        match model_update (use_rng g m) with
        | Ok (m1, _) => reaches T n' (s_rng (m_st m1)) m1
        | Err _ => false
        end
    end.

  Lemma reaches_loop : forall T n g (m : model (F:=F) S), reaches T n g m = true ->
    exists os g' m', loop T g m n os Finished g' m'.
  Proof.
    intros T n. induction n as [|n IH]; intros g m H; cbn in H.
    - apply negb_true_iff in H. exists [], g, m. constructor. exact H.
    - apply andb_true_iff in H as [H1 H]. destruct (model_update (use_rng g m)) as [[m1 o]|] eqn:E; [|discriminate].
      apply IH in H as (os & g' & m' & H). exists (o ++ os)%list, g', m'. eapply loop_step; eauto.
  Qed.

  Lemma reaches_job : forall n g (j : job F S), m_finalized (j_model j) = false -> reaches (j_end j) n g (j_model j) = true ->
    exists r g', run_job g j r g' /\ completed r /\ r_updates r = n.
  Proof.
    intros n g j Hf H. apply reaches_loop in H as (os & g' & m' & H).
    pose proof (loop_facts _ _ _ _ _ _ _ _ H) as (_ & K & _). rewrite Hf in K.
    eexists (mkRan n os ((1, 0)%Z :: _) _ _), g'. split; [|split].
    - eapply run_finished; [exact H|]. apply finalize_open, K.
    - repeat split.
    - reflexivity.
  Qed.

  (** The fields after one update. *)
  Definition after_one {T} (g : S) (m : model (F:=F) S) (look : state F S -> T) : option T :=
    match model_update (use_rng g m) with Ok (m1, _) => Some (look (m_st m1)) | Err _ => None end.

  Lemma after_one_loop : forall {X} T g (m : model (F:=F) S) os g' m' (look : state F S -> X) x, loop T g m 1 os Finished g' m' ->
    after_one g m look = Some x -> look (m_st m') = x.
  Proof.
    intros X T g m os g' m' look x H E. inversion H as [|? ? m1 o n os' ? ? ? H1 H2 H3|]; subst.
    unfold after_one in E. rewrite H2 in E. inversion H3; subst. congruence.
  Qed.
End Compute.

Section One.
  Context {F : Type} {A : Arith F} {S : Type} {G : Rng F S}.
  (** A job that completes with one update. *)
  Lemma reaches_one : forall T g (m : model (F:=F) S), reaches T 1 g m = true ->
    exists m1 o, model_update (use_rng g m) = Ok (m1, o) /\ loop T g m 1 (o ++ [])%list Finished (s_rng (m_st m1)) m1.
  Proof.
    intros T g m H. cbn in H. apply andb_true_iff in H as [H1 H]. destruct (model_update (use_rng g m)) as [[m1 o]|] eqn:E; [|discriminate].
    exists m1, o. split; [reflexivity|]. apply negb_true_iff in H. eapply loop_step; eauto. constructor. exact H.
  Qed.

  Lemma one_job : forall g (j : job F S), m_finalized (j_model j) = false -> reaches (j_end j) 1 g (j_model j) = true ->
    exists m1 o r, model_update (use_rng g (j_model j)) = Ok (m1, o) /\
      run_job g j r (s_rng (m_st m1)) /\ completed r /\ m_st (r_model r) = m_st m1.
  Proof.
    intros g j Hf H. apply reaches_one in H as (m1 & o & E & H). exists m1, o.
    pose proof (loop_facts _ _ _ _ _ _ _ _ H) as (_ & K & _). rewrite Hf in K.
    eexists (mkRan 1 _ ((1, 0)%Z :: _) _ _). split; [exact E|]. split; [|split].
    - eapply run_finished; [exact H|]. apply finalize_open, K.
    - repeat split.
    - reflexivity.
  Qed.
End One.

Section Several.
  Context {F : Type} {A : Arith F} {S : Type} {G : Rng F S} {N : Type} {GN : NpRng N}.

  Lemma make_jobs_open : forall l nb np (js : list (job F S)) o nb' np', make_jobs l nb np = Ok (js, o, nb', np') ->
    List.length js = List.length l /\ forall j, In j js -> m_finalized (j_model j) = false.
  Proof.
    induction l as [|[f c] l IH]; intros nb np js o nb' np' E; cbn [make_jobs] in E.
    - injection E as <- <- <- <-. split; [reflexivity|intros j []].
    - apply rbind_Ok in E as ([[j o1] np1] & E1 & E). apply rbind_Ok in E as ([[[js' os] nb1] np2] & E2 & E).
      injection E as <- <- <- <-. apply IH in E2 as [H1 H2]. split; [cbn; now rewrite H1|].
      intros j' [<-|Hj]; auto. apply make_job_inv in E1 as (_ & _ & _ & _ & _ & _ & _ & Hf & _). exact Hf.
  Qed.

  Lemma run_jobs_finalized : forall g (js : list (job F S)) rs, run_jobs g js rs ->
    (forall j, In j js -> m_finalized (j_model j) = false) -> (forall r e, In r rs -> ~ aborted r e) ->
    List.length rs = List.length js /\ forall r, In r rs -> m_finalized (r_model r) = true.
  Proof.
    induction 1 as [g|g j js r g' rs H1 H2 H3 IH|g j js r g' e H1 H2]; intros Hj Hr.
    - split; [reflexivity|intros r []].
    - destruct IH as [I1 I2]; [intros; apply Hj; now right|intros; apply Hr; now right|].
      split; [cbn; now rewrite I1|]. intros r' [<-|Hin]; [|auto].
      apply run_job_cases in H1 as ([|e] & m & HL & K); [apply K| |apply Hj; now left].
      destruct K as [[_ K]|[_ K]]; [apply K|]. exfalso. exact (Hr r e (or_introl eq_refl) K).
    - exfalso. apply run_job_cases in H1 as ([|e1] & m & HL & K); [| |apply Hj; now left].
      + destruct K as (_ & K & _). congruence.
      + destruct K as [[_ K]|[_ K]]; [destruct K as (_ & K & _); congruence|]. exact (Hr r e1 (or_introl eq_refl) K).
  Qed.

  Lemma all_finalized : forall (l : list (file F * dict (value F))) nb np (rs : list (ran F S)),
    serial l nb np rs -> (forall r e, In r rs -> ~ aborted r e) ->
    List.length rs = List.length l /\ forall r, In r rs -> m_finalized (r_model r) = true.
  Proof.
    intros l nb np rs (js & o & nb' & np' & E & H) Hr. apply make_jobs_open in E as [E1 E2].
    apply run_jobs_finalized in H as [H1 H2]; auto. split; [congruence|exact H2].
  Qed.

  Lemma construction_failure : forall (l : list (file F * dict (value F))) nb np f c e,
    In (f, c) l -> (forall nb np, make_job (S:=S) f c nb np = Err e) -> forall rs, ~ serial l nb np rs.
  Proof.
    intros l nb np f c e Hin He rs (js & o & nb' & np' & E & _). revert nb np js o nb' np' E.
    induction l as [|[f0 c0] l IH]; intros nb np js o nb' np' E; [destruct Hin|]. cbn [make_jobs] in E.
    apply rbind_Ok in E as ([[j o1] np1] & E1 & E). apply rbind_Ok in E as ([[[js' os] nb1] np2] & E2 & E).
    destruct Hin as [X|Hin]; [injection X as -> ->; rewrite He in E1; discriminate|]. eapply IH; eauto.
  Qed.
End Several.
