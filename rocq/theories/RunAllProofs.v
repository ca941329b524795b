(** Proofs about running all jobs. *)
From Coq Require Import ZArith List Bool String Reals Lra Lia.
From Verif Require Import Base RLemmas Dict Config ConfigSpec ConfigProofs Params State Water Iter IterSpec IterProofs RunProofs FrameProofs
  Inputs Init InitSpec InitProofs Expand ExpandSpec ExpandProofs ExpandRuns ExpandCor Jobs JobsSpec JobsProofs JobsInput Session
  SharedSpec WaterSpec RunAll RunAllSpec MirrorFlow.
Import ListNotations.
Local Open Scope string_scope.
Notation XA := (RA (fun x => x)).

(** Configurations and files of jobs have no key twice. *)
Lemma job_dicts : forall {F} seeds reload (c : dict (value F)) d d' p,
  well_formed c -> disk_ok d -> ~ asks_resume c -> multi_job c ->
  construct_file_list seeds reload c d = (d', Ok p) ->
  forall i f j file, nth_error (pl_files p) i = Some (JobFile f) -> nth_error (pl_configs p) i = Some j ->
    dget f (d_jobs d') = Some file -> NoDup (dkeys j) /\ NoDup (dkeys file).
Proof.
  intros F seeds reload c d d' p Wc Hd Hr M H.
  destruct (construct_cases seeds reload c d) as [[e E]|[[c' E]|(mat & c' & E & Er & Eo & Wc')]].
  - congruence.
  - exfalso. exact (construct_single_only _ _ _ _ _ _ E M).
  - specialize (Wc' Wc). rewrite E in H. clear E.
    assert (Hr' : resuming c' = false).
    { destruct (resuming c') eqn:X; [|reflexivity]. apply resuming_iff in X. unfold asks_resume in *. congruence. }
    apply ibind_Ok in H. destruct H as (d1 & root & Hp & Hf).
    apply prepare_Ok in Hp. destruct Hp as [_ [[_ [X _]]|[Hn ->]]]; [congruence|].
    apply finish_Ok in Hf. destruct Hf as (cs & t & dirs & Ex & _ & Ecs & Ef & _ & Ew).
    rewrite Hr' in Ew. apply write_jobs_Ok in Ew; [|apply disk_ok_mkdir; exact Hd].
    destruct Ew as (_ & _ & _ & H4). rewrite Ecs.
    intros i f j file Hfi Hj Hfile. rewrite Ef, nth_error_map in Hfi.
    destruct (nth_error dirs i) as [f'|] eqn:Ed; [|discriminate]. injection Hfi as ->.
    rewrite (H4 i j f Hj Ed) in Hfile. injection Hfile as <-. split.
    2:{ unfold loaded. apply dupdate_NoDup. constructor. }
    assert (Nj : forall combs root fixed n, NoDup (dkeys fixed) -> forall x, In x (job_configs (F:=F) fixed root n combs) -> NoDup (dkeys x)).
    { induction combs as [|a combs IH]; cbn; intros rt fx n Nf x; [intros []|]. intros [<-|Hx].
      - unfold job_config. apply dupdate_NoDup, dset_NoDup, Nf.
      - eapply IH; eassumption. }
    apply nth_error_In in Hj. destruct mat.
    + apply expand_matrix_Ok in Ex. destruct Ex as (? & ? & _ & _ & _ & _ & _ & Ex). injection Ex as _ -> _.
      eapply Nj; [|exact Hj]. apply ddel_NoDup, Wc'.
    + apply expand_set_Ok in Ex. destruct Ex as (? & ? & ? & _ & _ & _ & Ex). injection Ex as _ -> _.
      eapply Nj; [|exact Hj]. apply ddel_NoDup, Wc'.
Qed.

(** A file with the same values configures the same model. *)
Lemma configure_ext : forall {F} {A : Arith F} (a b : dict (value F)), NoDup (dkeys a) -> NoDup (dkeys b) ->
  (forall k, dget k a = dget k b) -> configure [] (Mapping a) [] = configure [] (Mapping b) [].
Proof.
  intros F A a b Na Nb H. unfold configure.
  pose proof (import_same default_table [] (Mapping a) (Mapping b) [] [] default_table_dict) as E.
  assert (E' : rbind (import_files default_table [] (Mapping a) []) (fun r => Ok (fst r))
             = rbind (import_files default_table [] (Mapping b) []) (fun r => Ok (fst r))).
  { apply E; try (constructor; fail); try assumption. intros k _. unfold ConfigSpec.given. cbn. apply H. }
  clear E. destruct (import_files default_table [] (Mapping a) []) as [[c1 u1]|e1];
    destruct (import_files default_table [] (Mapping b) []) as [[c2 u2]|e2]; cbn [rbind fst] in *; congruence.
Qed.

(** The seed of a configuration reaches the model. *)
Lemma configure_seed : forall {F} {A : Arith F} (j : dict (value F)) inp z, NoDup (dkeys j) ->
  configure [] (Mapping j) [] = Ok inp -> dget "seed" j = Some (VInt z) -> i_seed inp = Some z.
Proof.
  intros F A j inp z Nj E Hz. unfold configure in E. apply rbind_Ok in E as ([c u] & E1 & E2).
  assert (D0 : is_dict (V:=declaration F) []) by constructor. assert (D1 : is_dict (V:=value F) []) by constructor.
  destruct (inputs_of_Ok c (import_sound [] (Mapping j) [] c u D0 Nj D1 E1)) as (inp' & I & H).
  rewrite I in E2. injection E2 as <-. rewrite Forall_forall in H.
  destruct (H ("seed", opt_int (i_seed inp'))) as (v & Hv & Hs).
  { unfold attributes. repeat (try (left; reflexivity); right). }
  assert (Hc : dget "seed" c = Some (VInt z)).
  { destruct (import_cases default_table [] (Mapping j) [] default_table_dict D0 Nj D1) as [(_ & c' & u' & K & _ & Kg & _)|(_ & K)];
      rewrite E1 in K; [|discriminate]. injection K as <- <-. rewrite Kg. unfold ConfigSpec.given. cbn [dget]. rewrite Hz. reflexivity. }
  cbn [fst snd] in Hv, Hs. rewrite Hc in Hv. injection Hv as <-. destruct Hs as [Hs|(y & Hy & Hw)].
  - destruct (i_seed inp'); cbn in Hs; congruence.
  - destruct (i_seed inp'); discriminate.
Qed.

Lemma mapM_nth : forall {T U} (f : T -> result U) l l', mapM f l = Ok l' <-> Forall2 (fun x y => f x = Ok y) l l'.
Proof.
  intros T U f. induction l as [|x l IH]; intros l'; cbn [mapM].
  - split; [intros [= <-]; constructor|intros H; inversion H; reflexivity].
  - split.
    + intros E. apply rbind_Ok in E as (y & E1 & E). apply rbind_Ok in E as (ys & E2 & E). injection E as <-.
      constructor; [exact E1|]. apply IH, E2.
    + intros H. inversion H as [|? y ? ys H1 H2]; subst. rewrite H1. cbn [rbind]. apply IH in H2. rewrite H2. reflexivity.
Qed.

Section Jobs.
  Context {S : Type} {G : Rng R S} {N : Type} {GN : NpRng N}.

  (** The loop of a job is a number of updates. *)
  Lemma loop_updates : forall T g (m : model (F:=R) S) k os g' m', loop (A:=XA) T g m k os Finished g' m' ->
    s_rng (m_st m) = g -> m_in m' = m_in m /\ m_P m' = m_P m /\
    updates (A:=XA) (m_P m) k (m_st m) = Ok (m_st m', os) .
  Proof.
    intros T g m k os g' m' H. remember Finished as r eqn:Er. revert Er.
    induction H as [g m H|g m m1 o n os r g' m' H H1 H2 IH|g m e g' st H H1]; intros Er Eg; try discriminate.
    - repeat split.
    - apply model_update_inv in H1 as (_ & _ & HP & Hi & Hu & _). cbn [m_P m_st m_in use_rng] in HP, Hi, Hu.
      destruct (IH Er eq_refl) as (I1 & I2 & I3). split; [congruence|]. split; [congruence|].
      cbn [updates]. replace (set_rng g (m_st m)) with (m_st m) in Hu by (rewrite <- Eg; destruct (m_st m); reflexivity).
      rewrite Hu. cbn [rbind]. rewrite <- HP, I3. reflexivity.
  Qed.

  Lemma asks_same : forall (a b : dict (value R)), (forall k, dget k a = dget k b) -> forall dt D, asks a dt D -> asks b dt D.
  Proof.
    intros a b E dt D K. assert (HI : forall x, intermittency a x -> intermittency b x).
    { intros x HI. destruct HI as [v x HI1 HI2|HI1]; rewrite E in HI1; [eapply factor_given; eauto|apply factor_default, HI1]. }
    destruct K; repeat match goal with H : dget _ a = _ |- _ => rewrite E in H end;
      [eapply asks_timesteps|eapply asks_time|eapply asks_years]; eauto.
  Qed.

  Lemma job_did_with : forall f c, uniform_range G -> (forall s : S, 0 < fst (draw s))%R ->
    (exists inp z, configure (A:=XA) [] (Mapping f) [] = Ok inp /\ runnable inp /\ i_seed inp = Some z) ->
    (forall dt, exists D, asks c dt D) -> exists z, seed_given (A:=XA) (Mapping f) z /\
      forall nb np, exists r, alone (A:=XA) (Mapping f, c) nb np r /\ did_with (N:=N) f c r /\
        forall r', alone (A:=XA) (Mapping f, c) nb np r' -> r' = r.
  Proof.
    intros f c HG Hu (inp & z & E' & HR & Hz) Hasks'. pose proof E' as E.
    exists z. split; [exists inp; auto|]. intros nb np.
    assert (Hd : forall nb np m np', construct (A:=XA) (GN:=GN) inp nb np = Ok (m, np') -> (0 < p_dt (m_P m))%R).
    { intros nb1 np1 m np' Em. pose proof (construct_outcome (G:=G) inp nb1 np1) as H. rewrite Em in H.
      destruct H as (_ & _ & _ & z' & _ & _ & _ & _ & HD & _). apply (de_dt_sign _ _ HD). apply (ru_u0 _ HR). }
    (* the job *)
    destruct (runnable_ready (G:=G) (GN:=GN) inp nb np HR) as (m & np' & Em & Hm).
    destruct (write_output (A:=XA) (m_P m) (m_st m)) as [st o] eqn:Ew.
    pose proof (Hd nb np m np' Em) as Hdt.
    destruct (Hasks' (p_dt (m_P m))) as (D & HD).
    assert (EE : job_end_time (A:=XA) c (s_time st) (p_dt (m_P m)) = Ok (s_time st + D)%R) by (apply end_time_iff; eauto).
    set (jb := mkJob (mkModel (m_in m) (m_P m) st false) (s_time st + D)%R).
    assert (EJ : make_job (A:=XA) (Mapping f) c nb np = Ok (jb, o, np')).
    { unfold make_job, new_model. rewrite E'. cbn [rbind]. rewrite Em. cbn [rbind]. rewrite Ew. cbn [rbind m_st m_P].
      rewrite EE. reflexivity. }
    destruct (least_exists (s_time st) (p_dt (m_P m)) (s_time st + D) Hdt) as (k & Hk).
    destruct (loop_total (S:=S) (s_time st + D)%R k (s_rng st) (mkModel (m_in m) (m_P m) st false) HG Hu) as (os & g' & m' & HL & Hf'); auto.
    { cbn. eapply write_ready; eauto. }
    pose proof (finalize_open m' Hf') as HF.
    match type of HF with _ = (?cs, ?x, ?m2) => set (r := mkRan k os ((1, 0)%Z :: cs) x m2) end.
    assert (HRun : run_job (A:=XA) (s_rng st) jb r g') by (eapply run_finished; [exact HL|exact HF]).
    assert (HC : completed r) by (repeat split).
    exists r. split; [|split].
    - apply alone_iff. exists jb, o, np', g'. split; [exact EJ|exact HRun].
    - split; [exact HC|]. exists inp. split; [exact E|]. intros nb1 np1.
      destruct (make_job_seeded (Mapping f) c z (ex_intro _ inp (conj E' Hz)) nb nb1 np np1 _ _ _ EJ) as [_ EJ1].
      assert (EN : exists np2, new_model (A:=XA) inp nb1 np1 = Ok (mkModel (m_in m) (m_P m) st false, o, np2)).
      { unfold make_job in EJ1. rewrite E' in EJ1. cbn [rbind] in EJ1. apply rbind_Ok in EJ1 as ([[m1 o1] np2] & EN & EJ1).
        apply rbind_Ok in EJ1 as (t & _ & EJ1). unfold jb in EJ1. injection EJ1 as EJa _ EJb _. exists np2.
        rewrite EN, EJa, EJb. reflexivity. }
      destruct EN as (np2 & EN). exists (mkModel (m_in m) (m_P m) st false), o, np2, D. split; [exact EN|].
      cbn [m_P m_st m_in r_updates r_model r_output r].
      assert (Ht : s_time st = 0%R).
      { pose proof Ew as Ew'. apply write_output_same in Ew'. apply same_fields in Ew'.
        pose proof (construct_outcome (G:=G) inp nb np) as H. rewrite Em in H.
        destruct H as (_ & _ & _ & z' & _ & _ & _ & _ & _ & Hi & _). destruct (in_clock _ _ _ Hi) as (Ht & _).
        destruct Ew' as (_ & _ & _ & _ & _ & _ & _ & _ & _ & _ & _ & _ & _ & _ & _ & _ & _ & _ & _ & Ew' & _). rewrite Ew'. exact Ht. }
      split; [exact HD|]. rewrite Ht in Hk. rewrite Rplus_0_l in Hk. split; [exact Hk|].
      destruct (loop_updates _ _ _ _ _ _ _ HL eq_refl) as (U1 & U2 & U3). cbn [m_P m_st m_in] in U1, U2, U3.
      split; [exact U1|]. split; [exact U2|]. exact U3.
    - intros r' K. apply alone_iff in K as (jb' & o' & np2 & g2 & K1 & K2). assert (Hj : jb' = jb).
      { rewrite EJ in K1. apply Ok_inj in K1. apply (f_equal (fun x => fst (fst x))) in K1. symmetry. exact K1. }
      rewrite Hj in K2. apply (run_job_det (s_rng st) jb r g' eq_refl HRun HC r' g2 K2).
  Qed.

  Lemma job_did : forall j f c, NoDup (dkeys j) -> NoDup (dkeys f) -> (forall k, dget k f = dget k j) ->
    (forall k, dget k c = dget k j) -> uniform_range G -> (forall s : S, 0 < fst (draw s))%R ->
    complete_config j -> exists z, seed_given (A:=XA) (Mapping f) z /\
      forall nb np, exists r, alone (A:=XA) (Mapping f, c) nb np r /\ did (N:=N) j r /\
        forall r', alone (A:=XA) (Mapping f, c) nb np r' -> r' = r.
  Proof.
    intros j f c Nj Nf Ef Ec HG Hu ((inp & z & E & HR & Hz) & Hask). change RX with XA in *.
    assert (E' : configure (A:=XA) [] (Mapping f) [] = Ok inp).
    { rewrite <- E. apply configure_ext; assumption. }
    destruct (job_did_with f c HG Hu (ex_intro _ inp (ex_intro _ z (conj E' (conj HR Hz))))) as (z' & Hz' & H).
    { intros dt. destruct (Hask dt) as (D & K). exists D. apply (asks_same j c); auto. }
    exists z'. split; [exact Hz'|]. intros nb np. destruct (H nb np) as (r & H1 & (H2 & inp' & H3 & H4) & H5). exists r. split; [exact H1|].
    split; [|exact H5]. split; [exact H2|]. exists inp'. split.
    - change RX with XA in *. rewrite E' in H3. rewrite E. exact H3.
    - intros nb1 np1. destruct (H4 nb1 np1) as (m & o & np' & D & K1 & K2 & K3). exists m, o, np', D. split; [exact K1|].
      split; [apply (asks_same c j); auto|exact K3].
  Qed.
End Jobs.

(** Pairing up. *)
Lemma Forall2_combine : forall {A B C} (P : A -> B -> C -> Prop) (la : list A) (lb : list B), List.length la = List.length lb ->
  (forall i a b, nth_error la i = Some a -> nth_error lb i = Some b -> exists c, P a b c) ->
  exists lc, Forall2 (fun ab c => P (fst ab) (snd ab) c) (combine la lb) lc.
Proof.
  intros A B C P. induction la as [|a la IH]; intros [|b lb] HL H; try discriminate; [exists []; constructor|].
  destruct (H 0%nat a b eq_refl eq_refl) as (c & Hc). destruct (IH lb) as (lc & Hl); [cbn in HL; lia|intros i; apply (H (Datatypes.S i))|].
  exists (c :: lc). constructor; auto.
Qed.
Lemma Forall2_nth : forall {A B} (P : A -> B -> Prop) la lb, Forall2 P la lb ->
  forall i a, nth_error la i = Some a -> exists b, nth_error lb i = Some b /\ P a b.
Proof.
  intros A B P la lb H. induction H as [|a b la lb H1 H2 IH]; intros [|i] x E; try discriminate; cbn in *.
  - injection E as <-. eauto.
  - eauto.
Qed.

(** Reading the files of all jobs. *)
Lemma deleted_files {F} user (d : disk F) (p : plan F) :
  List.length (pl_configs p) = List.length (pl_files p) ->
  (job_inputs user d p = Err FileNotFoundError <->
     exists dir, In (JobFile dir) (pl_files p) /\ dget dir (d_jobs d) = None) /\
  ((exists l, job_inputs user d p = Ok l) <->
     forall dir, In (JobFile dir) (pl_files p) -> exists f, dget dir (d_jobs d) = Some f).
Proof.
  intros H. unfold job_inputs. revert H. generalize (pl_configs p) (pl_files p). clear p.
  intros cs fs. revert cs. induction fs as [|jf fs IH]; intros [|c cs] H; try discriminate H.
  - cbn. split; split; [discriminate | intros (x & [] & _) | intros _ x [] | intros _; now exists []].
  - cbn in H. injection H as H. destruct (IH cs H) as [I1 I2]. clear IH.
    cbn [combine mapM fst snd].
    assert (Q : (exists x, job_input user d c jf = Ok x /\ forall dir, jf = JobFile dir -> exists f, dget dir (d_jobs d) = Some f) \/
      exists dir, jf = JobFile dir /\ job_input user d c jf = Err FileNotFoundError /\ dget dir (d_jobs d) = None).
    { destruct jf as [|dir]; cbn.
      - left. destruct user; eexists; (split; [reflexivity | discriminate]).
      - destruct (dget dir (d_jobs d)) eqn:E; [left | right; now exists dir].
        eexists. split; [reflexivity |]. intros x K. injection K as <-. rewrite E. eauto. }
    destruct Q as [(x & -> & Qf) | (dir & Qj & -> & Qd)]; cbn [rbind].
    + destruct (mapM _ (combine cs fs)) as [l | e]; cbn [rbind].
      * split; split.
        -- discriminate.
        -- intros (dir & [K | K] & Kd); [destruct (Qf dir K); congruence |].
           enough (Ok l = Err FileNotFoundError) by discriminate. apply I1. eauto.
        -- intros _ dir [K | K]; [auto |]. apply I2; eauto.
        -- eauto.
      * split; split.
        -- intros K. apply I1 in K as (dir & K1 & K2). exists dir. split; [right; exact K1 | exact K2].
        -- intros (dir & [K | K] & Kd); [destruct (Qf dir K); congruence |]. apply I1. eauto.
        -- intros [l K]. discriminate K.
        -- intros K. assert (Z : exists l, (Err e : result (list (file F * dict (value F)))) = Ok l); [| destruct Z as [? Z]; discriminate Z].
           apply I2. intros dir Kd. apply K. now right.
    + subst jf. split; split; try discriminate; auto.
      * intros _. exists dir. split; [now left | assumption].
      * intros [l K]. discriminate K.
      * intros K. destruct (K dir (or_introl eq_refl)). congruence.
Qed.
