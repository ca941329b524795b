(** Proofs about parallel scheduling. *)
From Coq Require Import ZArith List Bool Arith Lia.
From Verif Require Import Base Config Init Jobs JobsSpec JobsProofs Sched SchedSpec.
Import ListNotations.

Section Sched.
  Context (n : nat) (fates : nat -> fate) (K : nat).

  (** ** Counting *)
  Fixpoint total (w : stage -> nat) (f : nat -> stage) (l : list nat) : nat :=
    match l with [] => 0 | i :: l' => w (f i) + total w f l' end.

  Lemma total_other : forall w f i s l, ~ In i l -> total w (at_stage i s f) l = total w f l.
  Proof.
    induction l as [|a l IH]; cbn; intros H; [reflexivity|]. rewrite IH by tauto. unfold at_stage.
    destruct (Nat.eqb_spec a i); [subst; tauto|reflexivity].
  Qed.
  Lemma total_at : forall w f i s l, NoDup l -> In i l ->
    total w (at_stage i s f) l + w (f i) = total w f l + w s.
  Proof.
    induction l as [|a l IH]; cbn; intros N H; [destruct H|]. inversion N as [|? ? N1 N2]; subst.
    destruct (Nat.eq_dec a i) as [->|D].
    - rewrite total_other by exact N1. unfold at_stage at 1. rewrite Nat.eqb_refl. lia.
    - destruct H as [H|H]; [congruence|]. specialize (IH N2 H). unfold at_stage at 1.
      apply Nat.eqb_neq in D. rewrite D. lia.
  Qed.
  Lemma total_seq : forall w f i s, i < n ->
    total w (at_stage i s f) (seq 0 n) + w (f i) = total w f (seq 0 n) + w s.
  Proof. intros. apply total_at; [apply seq_NoDup|apply in_seq; lia]. Qed.

  Definition weight (s : stage) : nat := if active s then 1 else 0.
  Lemma active_total : forall y, jobs_active n y = total weight (y_stage y) (seq 0 n).
  Proof.
    intros y. unfold jobs_active. induction (seq 0 n) as [|a l IH]; cbn; [reflexivity|].
    unfold weight at 1. destruct (active (y_stage y a)); cbn; lia.
  Qed.
  Lemma total_positive : forall f l, 0 < total weight f l -> exists i, In i l /\ active (f i) = true.
  Proof.
    induction l as [|a l IH]; cbn; intros H; [lia|]. unfold weight at 1 in H.
    destruct (active (f a)) eqn:E; [exists a; auto|]. destruct IH as (i & H1 & H2); [lia|]. exists i. auto.
  Qed.
  Lemma total_zero : forall f l, total weight f l = 0 -> forall i, In i l -> active (f i) = false.
  Proof.
    induction l as [|a l IH]; cbn; intros H i Hi; [destruct Hi|]. unfold weight at 1 in H.
    destruct (active (f a)) eqn:E; [lia|]. destruct Hi as [<-|Hi]; [exact E|]. apply IH; [lia|exact Hi].
  Qed.
  Lemma total_none : forall f l, (forall i, In i l -> active (f i) = false) -> total weight f l = 0.
  Proof.
    induction l as [|a l IH]; cbn; intros H; [reflexivity|]. unfold weight at 1. rewrite (H a) by auto. rewrite IH by auto. reflexivity.
  Qed.

  (** ** Codes *)
  Definition job_codes (f : fate) : list code :=
    (0, 0)%Z :: run_code (f_run f) ++
    match after_run (f_run f) with Finalizing => finalize_code (f_finalize f) | _ => [] end.
  Definition codes_at (f : fate) (s : stage) (l : list code) : Prop :=
    match s with
    | Absent | Started => l = []
    | Running => l = [(0, 0)%Z]
    | Finalizing => l = (0, 0)%Z :: run_code (f_run f) /\ after_run (f_run f) = Finalizing
    | Releasing | Exited => l = job_codes f
    end.

  Lemma codes_of_app : forall i q q', codes_of i (q ++ q') = codes_of i q ++ codes_of i q'.
  Proof. intros. unfold codes_of. rewrite filter_app, map_app. reflexivity. Qed.
  Lemma codes_of_tag : forall i k l, codes_of i (tag k l) = if Nat.eqb k i then l else [].
  Proof.
    intros i k l. unfold codes_of, tag. induction l as [|a l IH]; cbn; [destruct (Nat.eqb k i); reflexivity|].
    destruct (Nat.eqb k i) eqn:E; cbn; rewrite IH; reflexivity.
  Qed.

  Lemma job_codes_reports : forall f, reports f (job_codes f).
  Proof.
    intros [c r x]. unfold job_codes. cbn. destruct r as [e|]; cbn.
    - destruct (caught e) eqn:Ec; cbn.
      + apply caught_iff in Ec. destruct x as [e'|]; cbn.
        * destruct (caught e') eqn:Ec'; cbn; [apply caught_iff in Ec'|apply not_caught in Ec'].
          -- apply (reports_failed_failed _ e e'); auto.
          -- apply (reports_failed_died _ e e'); auto.
        * apply (reports_failed _ e); auto.
      + apply not_caught in Ec. apply (reports_died _ e); auto.
    - destruct x as [e'|]; cbn.
      + destruct (caught e') eqn:Ec'; cbn; [apply caught_iff in Ec'|apply not_caught in Ec'].
        * apply (reports_ok_failed _ e'); auto.
        * apply (reports_ok_died _ e'); auto.
      + apply reports_ok; reflexivity.
  Qed.

  (** ** Invariant *)
  Definition held (m : main) : nat := match m with Starting _ | Raised _ => 1 | _ => 0 end.
  (** Jobs below [i] have been started and the others not. *)
  Definition started (i : nat) (f : nat -> stage) : Prop :=
    (forall k, k < i -> f k <> Absent /\ f_construct (fates k) = None) /\ (forall k, i <= k -> f k = Absent).

  Record inv (y : system) : Prop := {
    inv_slots : y_free y + jobs_active n y + held (y_main y) = K;
    inv_codes : forall i, codes_at (fates i) (y_stage y i) (codes_of i (y_queue y));
    inv_main : match y_main y with
      | Waiting i => i <= n /\ started i (y_stage y)
      | Starting i => i < n /\ started i (y_stage y)
      | Joining i => i <= n /\ started n (y_stage y) /\ forall k, k < i -> y_stage y k = Exited
      | Done => started n (y_stage y) /\ forall k, k < n -> y_stage y k = Exited
      | Raised e => exists i, i < n /\ started i (y_stage y) /\ f_construct (fates i) = Some e
      end }.

  Lemma inv_initial : inv (initial K).
  Proof.
    constructor.
    - rewrite active_total. cbn. rewrite total_none by reflexivity. lia.
    - intros i. reflexivity.
    - cbn. split; [lia|]. split; [intros; lia|reflexivity].
  Qed.

  Lemma at_same : forall i s f, at_stage i s f i = s.
  Proof. intros. unfold at_stage. now rewrite Nat.eqb_refl. Qed.
  Lemma at_other : forall i s f k, k <> i -> at_stage i s f k = f k.
  Proof. intros i s f k H. unfold at_stage. apply Nat.eqb_neq in H. now rewrite H. Qed.

  (** A job moves on: what the invariant needs. *)
  Lemma inv_main_moves : forall m f i s, f i <> Absent -> s <> Absent -> (f i = Exited -> s = Exited) ->
    match m with
    | Waiting j => j <= n /\ started j f
    | Starting j => j < n /\ started j f
    | Joining j => j <= n /\ started n f /\ forall k, k < j -> f k = Exited
    | Done => started n f /\ forall k, k < n -> f k = Exited
    | Raised e => exists j, j < n /\ started j f /\ f_construct (fates j) = Some e
    end ->
    match m with
    | Waiting j => j <= n /\ started j (at_stage i s f)
    | Starting j => j < n /\ started j (at_stage i s f)
    | Joining j => j <= n /\ started n (at_stage i s f) /\ forall k, k < j -> at_stage i s f k = Exited
    | Done => started n (at_stage i s f) /\ forall k, k < n -> at_stage i s f k = Exited
    | Raised e => exists j, j < n /\ started j (at_stage i s f) /\ f_construct (fates j) = Some e
    end.
  Proof.
    intros m f i s H1 H2 H3.
    assert (ST : forall j, started j f -> started j (at_stage i s f)).
    { intros j [S1 S2]. split; intros k Hk.
      - destruct (Nat.eq_dec k i) as [->|D]; [rewrite at_same; split; [exact H2|apply S1, Hk]|].
        rewrite at_other by exact D. apply S1, Hk.
      - destruct (Nat.eq_dec k i) as [->|D]; [exfalso; apply H1, S2, Hk|]. rewrite at_other by exact D. apply S2, Hk. }
    assert (EX : forall j, (forall k, k < j -> f k = Exited) -> forall k, k < j -> at_stage i s f k = Exited).
    { intros j E k Hk. destruct (Nat.eq_dec k i) as [->|D]; [rewrite at_same; apply H3, E, Hk|].
      rewrite at_other by exact D. apply E, Hk. }
    destruct m as [j|j|j| |e]; intros H.
    - destruct H as (Ha & Hb). split; [exact Ha|apply ST, Hb].
    - destruct H as (Ha & Hb). split; [exact Ha|apply ST, Hb].
    - destruct H as (Ha & Hb & Hc). split; [exact Ha|]. split; [apply ST, Hb|apply EX, Hc].
    - destruct H as (Ha & Hb). split; [apply ST, Ha|apply EX, Hb].
    - destruct H as (j & Ha & Hb & Hc). exists j. auto.
  Qed.

  Lemma inv_codes_moves : forall f q i s l, (forall k, codes_at (fates k) (f k) (codes_of k q)) ->
    codes_at (fates i) s (codes_of i q ++ l) ->
    forall k, codes_at (fates k) (at_stage i s f k) (codes_of k (q ++ tag i l)).
  Proof.
    intros f q i s l H1 H2 k. rewrite codes_of_app, codes_of_tag. destruct (Nat.eq_dec k i) as [->|D].
    - rewrite at_same, Nat.eqb_refl. exact H2.
    - rewrite at_other by exact D. assert (E : Nat.eqb i k = false) by (apply Nat.eqb_neq; congruence).
      rewrite E, app_nil_r. apply H1.
  Qed.

  Lemma inv_step : forall y y', step n fates y y' -> inv y -> inv y'.
  Proof.
    intros y y' H [I1 I2 I3]. rewrite active_total in I1.
    destruct H as [i free st q Hi|i free st q Hc|i free st q e Hc|free st q|i free st q Hi He|free st q
      |m i free st q Hi Hs|m i free st q Hi Hs|m i free st q Hi Hs|m i free st q Hi Hs];
      cbn [y_main y_free y_stage y_queue held] in *; constructor; cbn [y_main y_free y_stage y_queue held];
      try exact I2; try rewrite active_total; cbn [y_stage].
    - lia.
    - destruct I3 as [Ha HS]. split; [exact Hi|exact HS].
    - destruct I3 as [Hi [S1 S2]]. pose proof (total_seq weight st i Started Hi) as T. rewrite (S2 i) in T by lia.
      unfold weight in T at 2 4. cbn in T. lia.
    - intros k. destruct I3 as [Hi [S1 S2]]. specialize (I2 k). destruct (Nat.eq_dec k i) as [->|D].
      + rewrite at_same. rewrite (S2 i) in I2 by lia. exact I2.
      + rewrite at_other by exact D. exact I2.
    - destruct I3 as [Hi [S1 S2]]. split; [lia|]. split; intros k Hk.
      + destruct (Nat.eq_dec k i) as [->|D]; [rewrite at_same; split; [discriminate|exact Hc]|].
        rewrite at_other by exact D. apply S1. lia.
      + rewrite at_other by lia. apply S2. lia.
    - lia.
    - destruct I3 as [Hi HS]. exists i. split; [exact Hi|]. split; [exact HS|exact Hc].
    - lia.
    - destruct I3 as [Hi HS]. split; [lia|]. split; [exact HS|]. intros; lia.
    - lia.
    - destruct I3 as (Ha & HS & HE). split; [lia|]. split; [exact HS|]. intros k Hk.
      destruct (Nat.eq_dec k i) as [->|D]; [exact He|]. apply HE. lia.
    - lia.
    - destruct I3 as (Ha & HS & HE). split; auto.
    - pose proof (total_seq weight st i Running Hi) as T. rewrite Hs in T. unfold weight in T at 2 4. cbn in T. lia.
    - apply inv_codes_moves; [exact I2|]. specialize (I2 i). rewrite Hs in I2. cbn in I2. rewrite I2. reflexivity.
    - apply inv_main_moves; [rewrite Hs; discriminate|discriminate|rewrite Hs; discriminate|exact I3].
    - pose proof (total_seq weight st i (after_run (f_run (fates i))) Hi) as T. rewrite Hs in T.
      assert (W : weight (after_run (f_run (fates i))) = 1).
      { unfold after_run. destruct (f_run (fates i)) as [e|]; [destruct (caught e)|]; reflexivity. }
      rewrite W in T. unfold weight in T at 2. cbn in T. lia.
    - apply inv_codes_moves; [exact I2|]. specialize (I2 i). rewrite Hs in I2. cbn in I2. rewrite I2.
      unfold after_run. destruct (f_run (fates i)) as [e|] eqn:Er.
      + destruct (caught e) eqn:Ec; cbn; rewrite ?Er; cbn; rewrite ?Ec; auto.
        unfold job_codes. rewrite Er. cbn. rewrite Ec. reflexivity.
      + cbn. rewrite Er. cbn. auto.
    - apply inv_main_moves; [rewrite Hs; discriminate| |rewrite Hs; discriminate|exact I3].
      unfold after_run. destruct (f_run (fates i)) as [e|]; [destruct (caught e)|]; discriminate.
    - pose proof (total_seq weight st i Releasing Hi) as T. rewrite Hs in T. unfold weight in T at 2 4. cbn in T. lia.
    - apply inv_codes_moves; [exact I2|]. specialize (I2 i). rewrite Hs in I2. cbn in I2. destruct I2 as [I2 I4]. rewrite I2.
      cbn. unfold job_codes. rewrite I4. reflexivity.
    - apply inv_main_moves; [rewrite Hs; discriminate|discriminate|rewrite Hs; discriminate|exact I3].
    - pose proof (total_seq weight st i Exited Hi) as T. rewrite Hs in T. unfold weight in T at 2 4. cbn in T. lia.
    - intros k. specialize (I2 k). destruct (Nat.eq_dec k i) as [->|D].
      + rewrite at_same. rewrite Hs in I2. exact I2.
      + rewrite at_other by exact D. exact I2.
    - apply inv_main_moves; [rewrite Hs; discriminate|discriminate|rewrite Hs; discriminate|exact I3].
  Qed.

  Lemma inv_schedule : forall k y y', schedule n fates k y y' -> inv y -> inv y'.
  Proof. induction 1; eauto using inv_step. Qed.
  Lemma inv_reached : forall k y, schedule n fates k (initial K) y -> inv y.
  Proof. intros k y H. eapply inv_schedule; [exact H|apply inv_initial]. Qed.

  (** ** Termination *)
  Definition left (s : stage) : nat :=
    match s with Absent => 5 | Started => 4 | Running => 3 | Finalizing => 2 | Releasing => 1 | Exited => 0 end.
  Definition main_left (m : main) : nat :=
    match m with
    | Waiting i => 2 * (n - i) + n + 2
    | Starting i => 2 * (n - i) + n + 1
    | Joining i => (n - i) + 1
    | Done | Raised _ => 0
    end.
  Definition steps_left (y : system) : nat := main_left (y_main y) + total left (y_stage y) (seq 0 n).

  Lemma step_decreases : forall y y', step n fates y y' -> inv y -> steps_left y' < steps_left y.
  Proof.
    intros y y' H [_ _ I]. unfold steps_left.
    destruct H as [i free st q Hi|i free st q Hc|i free st q e Hc|free st q|i free st q Hi He|free st q
      |m i free st q Hi Hs|m i free st q Hi Hs|m i free st q Hi Hs|m i free st q Hi Hs];
      cbn [y_main y_stage main_left] in *; try lia.
    - destruct I as [Hi [_ S2]]. pose proof (total_seq left st i Started Hi) as T. rewrite (S2 i) in T by lia. cbn [left] in T. lia.
    - pose proof (total_seq left st i Running Hi) as T. rewrite Hs in T. cbn [left] in T. lia.
    - pose proof (total_seq left st i (after_run (f_run (fates i))) Hi) as T. rewrite Hs in T. cbn [left] in T.
      assert (W : left (after_run (f_run (fates i))) <= 2).
      { unfold after_run. destruct (f_run (fates i)) as [e|]; [destruct (caught e)|]; cbn; lia. }
      lia.
    - pose proof (total_seq left st i Releasing Hi) as T. rewrite Hs in T. cbn [left] in T. lia.
    - pose proof (total_seq left st i Exited Hi) as T. rewrite Hs in T. cbn [left] in T. lia.
  Qed.

  Lemma schedule_bounded : forall k y y', schedule n fates k y y' -> inv y -> k + steps_left y' <= steps_left y.
  Proof.
    induction 1 as [y|k y y1 y2 H1 H2 IH]; intros HI; [lia|].
    pose proof (step_decreases _ _ H1 HI). specialize (IH (inv_step _ _ H1 HI)). lia.
  Qed.

  Lemma total_const : forall f l, (forall i, In i l -> f i = Absent) -> total left f l = 5 * List.length l.
  Proof. induction l as [|a l IH]; cbn [total List.length]; intros H; [reflexivity|]. rewrite (H a) by now left. rewrite IH by (intros; apply H; now right). cbn. lia. Qed.
  Lemma steps_initial : steps_left (initial K) = 8 * n + 2.
  Proof. unfold steps_left. cbn [initial y_main y_stage main_left]. rewrite total_const by reflexivity. rewrite seq_length. lia. Qed.

  (** ** Progress *)
  Lemma active_moves : forall y i, i < n -> active (y_stage y i) = true -> exists y', step n fates y y'.
  Proof.
    intros [m free st q] i Hi Ha. cbn in Ha. destruct (st i) eqn:Es; try discriminate; eexists.
    - eapply begin; eauto.
    - eapply run; eauto.
    - eapply finalize; eauto.
    - eapply release; eauto.
  Qed.

  Lemma stopped_idle : forall y, stopped n fates y -> forall i, i < n -> active (y_stage y i) = false.
  Proof.
    intros y H i Hi. destruct (active (y_stage y i)) eqn:E; [|reflexivity]. exfalso.
    destruct (active_moves y i Hi E) as (y' & Hy). exact (H y' Hy).
  Qed.

  Lemma stopped_final : 0 < K -> forall y, inv y -> stopped n fates y ->
    match y_main y with
    | Done => y_free y = K
    | Raised _ => y_free y + 1 = K
    | _ => False
    end /\ forall i, i < n -> active (y_stage y i) = false.
  Proof.
    intros HK y HI Hst. pose proof (stopped_idle y Hst) as Hidle. split; [|exact Hidle].
    destruct HI as [I1 _ I3]. rewrite active_total in I1.
    rewrite total_none in I1 by (intros i Hi; apply Hidle; apply in_seq in Hi; lia).
    destruct y as [m free st q]. cbn [y_main y_free y_stage held] in *.
    destruct m as [i|i|i| |e]; cbn in I1; try lia.
    - destruct I3 as [Hi _]. destruct (Nat.eq_dec i n) as [->|D].
      + eapply Hst, all_started.
      + destruct free as [|free]; [lia|]. eapply Hst, acquire. lia.
    - destruct (f_construct (fates i)) as [e|] eqn:Ec; [eapply Hst, start_fails|eapply Hst, start]; eauto.
    - destruct I3 as (Hi & [S1 _] & _). destruct (Nat.eq_dec i n) as [->|D]; [eapply Hst, all_joined|].
      assert (Hi' : i < n) by lia. specialize (Hidle i Hi'). specialize (S1 i Hi').
      destruct (st i) eqn:Es; try discriminate; [tauto|]. eapply Hst, join; eauto.
  Qed.

  Lemma exited_of : forall (f : nat -> stage) i, f i <> Absent -> active (f i) = false -> f i = Exited.
  Proof. intros f i H1 H2. destruct (f i); try discriminate; tauto. Qed.
End Sched.

Section ModeProofs.
  Context {F : Type} {A : Arith F}.
  Lemma run_mode_iff : forall (flag : option (value F)) linux cpus jobs m, (1 <= cpus)%Z -> (1 <= jobs)%Z ->
    run_mode flag linux cpus jobs = Ok m <-> mode linux cpus jobs flag m.
  Proof.
    intros flag linux cpus jobs m Hc Hj. unfold run_mode. split.
    - destruct flag as [v|]; [|cbn; intros [= <-]; constructor].
      destruct (truthy v) eqn:Et.
      + destruct linux; cbn; [|discriminate]. destruct v as [|[|]|z|x|s|l|d]; cbn; try discriminate.
        * destruct (Z.eqb_spec (cpus - 1) 0).
          -- destruct (Z.ltb_spec (Z.min 1 jobs) 0); [lia|]. intros [= <-]. replace 1%Z with (Z.max 1 (cpus - 1)) by lia. constructor; auto.
          -- destruct (Z.ltb_spec (Z.min (cpus - 1) jobs) 0); [lia|]. intros [= <-].
             replace (cpus - 1)%Z with (Z.max 1 (cpus - 1)) by lia. constructor; auto.
        * destruct (Z.ltb_spec (Z.min z jobs) 0); [discriminate|]. intros [= <-]. cbn in Et. apply negb_true_iff, Z.eqb_neq in Et.
          constructor; auto. lia.
      + destruct v as [|[|]|z|x|s|l|d]; cbn; try discriminate. intros [= <-]. constructor.
    - destruct 1 as [| |L|z L Hz]; cbn; auto.
      + subst. cbn. destruct (Z.eqb_spec (cpus - 1) 0).
        * destruct (Z.ltb_spec (Z.min 1 jobs) 0); [lia|]. do 2 f_equal. lia.
        * destruct (Z.ltb_spec (Z.min (cpus - 1) jobs) 0); [lia|]. do 2 f_equal. lia.
      + subst. replace (z =? 0)%Z with false by (symmetry; apply Z.eqb_neq; lia). cbn.
        destruct (Z.ltb_spec (Z.min z jobs) 0); [lia|]. reflexivity.
  Qed.
End ModeProofs.

(** The codes of Jobs.v and of this file are the same. *)
Section Link.
  Context {F : Type} {A : Arith F} {S : Type} {G : Rng F S}.
  Lemma run_job_reports : forall g (j : job F S) r g', m_finalized (j_model j) = false -> run_job g j r g' ->
    exists f, reports f ((0, 0)%Z :: r_codes r).
  Proof.
    intros g j r g' Hf H. apply run_job_cases in H as ([|e] & m & _ & K); [| |exact Hf].
    - destruct K as (K & _). rewrite K. exists (mkFate None None None). apply reports_ok; reflexivity.
    - destruct K as [[Hc (K & _)]|[Hc (K & _)]]; rewrite K.
      + exists (mkFate None (Some e) None). apply (reports_failed _ e); auto.
      + exists (mkFate None (Some e) None). apply (reports_died _ e); auto.
  Qed.
End Link.
