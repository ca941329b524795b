(** Properties C48, C50, C52 and the single-job part of C49 (jobs run by the
    preprocessor). *)
From Coq Require Import ZArith List Bool String Reals Lra Lia Floats.SpecFloat.
From Verif Require Import Base RLemmas Dict Config Shared SharedSpec Params State Water Sed Iter IterSpec IterProofs Inputs Init
  InitSpec InitProofs Session FrameProofs SessionProofs Expand ExpandSpec Jobs JobsSpec JobsProofs JobsInput Examples Props_Init.
Import ListNotations.
Local Open Scope Z_scope.
Local Open Scope string_scope.

(** ** Example configurations: a domain of 8 x 5 cells *)
Section Ex.
  Context {F : Type} {A : Arith F}.
  Definition small (l : dict (value F)) : dict (value F) :=
    ([("Length", VInt 400); ("Width", VInt 250); ("dx", VInt 50); ("L0_meters", VInt 100);
      ("N0_meters", VInt 150); ("itermax", VInt 1); ("Np_water", VInt 1); ("Np_sed", VInt 2)] ++ l)%list.
End Ex.
Notation f64_job f c := (make_job (A:=F64) (G:=lcg) (GN:=count_rng) f c 7 0).

(** ** C48: duration *)

(** A job ends at its start time plus the duration its configuration asks
    for, and is refused if it asks for none. *)
Theorem C48_end_time :
  forall (c : dict (value R)) (now dt T : R),
  job_end_time (A:=RX) c now dt = Ok T <-> exists D, asks c dt D /\ T = (now + D)%R.
Proof. exact end_time_iff. Qed.
Print Assumptions C48_end_time.

Theorem C48_no_duration :
  forall F (A : Arith F) (c : dict (value F)) (now dt : F),
  dget "timesteps" c = None -> dget "time" c = None -> dget "time_years" c = None -> dget "If" c = None ->
  job_end_time c now dt = Err ValueError.
Proof. intros F A c now dt H1 H2 H3 H4. unfold job_end_time. rewrite H1, H2, H3, H4. reflexivity. Qed.
Print Assumptions C48_no_duration.

Example C48_durations :
  asks [("time", VInt 100); ("If", VFloat (1 / 2)%R); ("time_years", VInt 3)] 7 (100 * (1 / 2)) /\
  asks [("time_years", VInt 3); ("time", VInt 100); ("timesteps", VInt 2)] 7 (2 * 7) /\
  asks [("time_years", VInt 3)] 7 (3 * 1 * 86400 * (365 + 1 / 4)).
Proof.
  repeat split.
  - eapply asks_time; [eapply factor_given|..]; try reflexivity; apply (numeric_float (1/2)) || apply (numeric_int 100).
  - eapply asks_timesteps; [eapply factor_default|..]; try reflexivity; apply (numeric_int 2).
  - eapply asks_years; [eapply factor_default|..]; try reflexivity; apply (numeric_int 3).
Qed.

(** A job that completes has made the least number of updates that reach its
    end time. *)
Theorem C48_least_number_of_updates :
  forall S N (G : Rng R S) (GN : NpRng N) f c nb np (j : job R S) o np' g r g',
  make_job (A:=RX) f c nb np = Ok (j, o, np') -> run_job (A:=RX) g j r g' -> completed r ->
  let dt := p_dt (m_P (j_model j)) in
  exists D, asks c dt D /\ least_reaching 0 dt D (r_updates r).
Proof.
  intros S N G GN f c nb np j o np' g r g' Ej Hr Hc dt. apply make_job_inv in Ej as Ej'.
  destruct Ej' as (inp & m & _ & Em & EP & _ & Ew & Hf & Ee). apply end_time_iff in Ee as (D & HD & HT).
  exists D. split; [exact HD|]. destruct (completed_loop (A:=RX) _ _ _ _ Hf Hr Hc) as (m' & HL).
  apply loop_least in HL as [HL _].
  assert (E0 : s_time (m_st (j_model j)) = 0%R).
  { apply construct_fresh in Em as (_ & _ & _ & _ & E0 & _). apply write_output_same in Ew.
    apply same_fields in Ew.
    destruct Ew as (_ & _ & _ & _ & _ & _ & _ & _ & _ & _ & _ & _ & _ & _ & _ & _ & _ & _ & _ & E & _). rewrite E, E0. reflexivity. }
  rewrite E0, Rplus_0_l in HT. rewrite E0, HT in HL. exact HL.
Qed.
Print Assumptions C48_least_number_of_updates.

(** The same for a job that starts at any time (one that resumes). *)
Theorem C48_least_number_from_any_start :
  forall S (G : Rng R S) c (j : job R S) g r g',
  let now := s_time (m_st (j_model j)) in
  let dt := p_dt (m_P (j_model j)) in
  job_end_time (A:=RX) c now dt = Ok (j_end j) -> m_finalized (j_model j) = false ->
  run_job (A:=RX) g j r g' -> completed r ->
  exists D, asks c dt D /\ least_reaching now dt (now + D) (r_updates r).
Proof.
  intros S G c j g r g' now dt Ee Hf Hr Hc. apply end_time_iff in Ee as (D & HD & HT). exists D. split; [exact HD|].
  destruct (completed_loop (A:=RX) _ _ _ _ Hf Hr Hc) as (m' & HL). apply loop_least in HL as [HL _].
  rewrite <- HT. exact HL.
Qed.
Print Assumptions C48_least_number_from_any_start.

(** Exactly [n] updates for [timesteps: n]. *)
Theorem C48_timesteps_are_updates :
  forall S (G : Rng R S) c (j : job R S) g r g' n,
  let now := s_time (m_st (j_model j)) in
  let dt := p_dt (m_P (j_model j)) in
  job_end_time (A:=RX) c now dt = Ok (j_end j) -> m_finalized (j_model j) = false ->
  dget "timesteps" c = Some (VInt n) -> 0 <= n -> (0 < dt)%R ->
  run_job (A:=RX) g j r g' -> completed r -> Z.of_nat (r_updates r) = n.
Proof.
  intros S G c j g r g' n now dt Ee Hf Hn Hn0 Hdt Hr Hc.
  destruct (C48_least_number_from_any_start S G c j g r g' Ee Hf Hr Hc) as (D & HD & HL). fold now dt in HD, HL.
  assert (ED : D = (IZR n * dt)%R).
  { destruct HD as [v x If _ Hv Hx|v x If _ Hv _ Hx|v x If _ Hv _ _ Hx]; try congruence.
    rewrite Hn in Hv. injection Hv as <-. inversion Hx. reflexivity. }
  subst D. apply least_timesteps in HL; [|exact Hdt]. lia.
Qed.
Print Assumptions C48_timesteps_are_updates.

(** A job of a runnable configuration that asks for a duration completes,
    whatever the generator. *)
Theorem C48_jobs_complete :
  forall S N (G : Rng R S) (GN : NpRng N) f inp c nb np,
  configure (A:=RX) [] f [] = Ok inp -> runnable inp -> uniform_range G -> (forall s : S, 0 < fst (draw s))%R ->
  (forall dt, exists D, asks c dt D) ->
  exists j o np', make_job (A:=RX) f c nb np = Ok (j, o, np') /\
    forall g, exists r g', run_job (A:=RX) g j r g' /\ completed r.
Proof.
  intros S N G GN f inp c nb np Ef HR HG Hu Hc. change RX with (RA (fun x => x)) in *.
  destruct (runnable_ready (G:=G) (GN:=GN) inp nb np HR) as (m & np' & Em & Hm).
  destruct (write_output (A:=RA (fun x => x)) (m_P m) (m_st m)) as [st o] eqn:Ew.
  assert (Hd : (0 < p_dt (m_P m))%R).
  { pose proof (construct_outcome (G:=G) inp nb np) as H. rewrite Em in H. destruct H as (_ & _ & _ & z & _ & _ & _ & _ & HD & _).
    apply (de_dt_sign _ _ HD). apply (ru_u0 _ HR). }
  destruct (Hc (p_dt (m_P m))) as (D & HD).
  assert (EE : job_end_time (A:=RA (fun x => x)) c (s_time st) (p_dt (m_P m)) = Ok (s_time st + D)%R).
  { apply end_time_iff. eauto. }
  exists (mkJob (mkModel (m_in m) (m_P m) st false) (s_time st + D)%R), o, np'. split.
  { unfold make_job, new_model. rewrite Ef. cbn [rbind]. rewrite Em. cbn [rbind]. rewrite Ew. cbn [rbind m_st m_P].
    rewrite EE. reflexivity. }
  intros g. destruct (least_exists (s_time st) (p_dt (m_P m)) (s_time st + D) Hd) as (k & Hk).
  destruct (loop_total (S:=S) (s_time st + D)%R k g (mkModel (m_in m) (m_P m) st false) HG Hu) as (os & g' & m' & HL & Hf'); auto.
  { cbn. eapply write_ready; eauto. }
  eexists (mkRan k os ((1, 0)%Z :: _) _ _), g'. split.
  - eapply run_finished; [exact HL|]. apply finalize_open, Hf'.
  - repeat split.
Qed.
Print Assumptions C48_jobs_complete.

Example C48_hypotheses : exists inp,
  configure (A:=RX) [] (Mapping (small [("seed", VInt 1)])) [] = Ok inp /\ runnable inp /\
  uniform_range half_rng /\ (forall s, 0 < fst (draw (Rng:=half_rng) s))%R /\
  (forall dt, exists D, asks [("timesteps", VInt 6)] dt D).
Proof.
  eexists. split; [reflexivity|]. split.
  - constructor; [constructor|..]; cbn; try lra; try lia; try (intros x E; discriminate).
  - split; [exact half_rng_range|]. split; [exact half_rng_pos|]. intros dt. eexists. eapply asks_timesteps; [eapply factor_default|..];
    try reflexivity. apply (numeric_int 6).
Qed.

(** In binary64 the accumulated clock can fall short: with an inlet velocity
    of 0.7 m/s, [timesteps: 6] makes seven updates. *)
Definition slow : file sfloat := Mapping (small [("seed", VInt 1); ("u0", VFloat (flit (A:=F64) 7 10))]).
Theorem C48_timesteps_are_updates_refuted :
  exists j o np', f64_job slow [("timesteps", VInt 6)] = Ok (j, o, np') /\
  (forall g r g', run_job (A:=F64) (G:=lcg) g j r g' -> completed r -> r_updates r = 7%nat) /\
  exists r g', run_job (A:=F64) (G:=lcg) 5 j r g' /\ completed r.
Proof.
  destruct (f64_job slow [("timesteps", VInt 6)]) as [[[j o] np']|e] eqn:E.
  2:{ exfalso. assert (K : match f64_job slow [("timesteps", VInt 6)] with Ok _ => true | Err _ => false end = true)
        by (vm_compute; reflexivity). rewrite E in K. discriminate. }
  exists j, o, np'. split; [reflexivity|].
  apply make_job_inv in E as E'. destruct E' as (inp & m & _ & _ & _ & _ & _ & Hf & _).
  assert (HR : reaches (A:=F64) (G:=lcg) (j_end j) 7 5 (j_model j) = true).
  { assert (K : match f64_job slow [("timesteps", VInt 6)] with
                | Ok (j, _, _) => reaches (A:=F64) (G:=lcg) (j_end j) 7 5 (j_model j) | Err _ => false end = true)
      by (vm_compute; reflexivity). rewrite E in K. exact K. }
  destruct (reaches_job (A:=F64) (G:=lcg) 7 5 j Hf HR) as (r & g' & Hr & Hc & Hn). split; [|eauto].
  intros g r2 g2 Hr2 Hc2. destruct (completed_loop (A:=F64) _ _ _ _ Hf Hr2 Hc2) as (m2 & HL2).
  destruct (completed_loop (A:=F64) _ _ _ _ Hf Hr Hc) as (m1 & HL1).
  apply loop_facts in HL1 as (_ & _ & A1 & _ & A2). apply loop_facts in HL2 as (_ & _ & B1 & _ & B2).
  rewrite Hn in A1, A2. destruct (Nat.lt_trichotomy (r_updates r2) 7) as [K|[K|K]]; auto; exfalso.
  - apply A1 in K. congruence.
  - apply B1 in K. congruence.
Qed.
Print Assumptions C48_timesteps_are_updates_refuted.

(** ** C49: what a single job reads *)

(** The plan prefers arguments over the file, but the job re-reads the file:
    its duration comes from the file first, and its model is configured from
    the file alone. *)
Theorem C49_single_job_prefers_the_file :
  forall F seeds reload user (args : dict (value F)) d d' p,
  (forall f, user = Some f -> well_formed f) -> well_formed args ->
  preprocessor seeds reload user args d = (d', Ok p) -> pl_files p = [UserFile] ->
  exists c c', pl_configs p = [c] /\ job_input user d' c UserFile = Ok (own_file user, c') /\
    forall k, k <> "ensemble" -> k <> "matrix" ->
      dget k c = match dget k args with Some v => Some v | None => given user k end /\
      dget k c' = match given user k with Some v => Some v | None => dget k args end.
Proof. exact @single_input. Qed.
Print Assumptions C49_single_job_prefers_the_file.

(** So the arguments make no difference to the model of a single job. *)
Theorem C49_single_job_model_ignores_arguments :
  forall F (A : Arith F) S (G : Rng F S) N (GN : NpRng N) user d1 d2 c1 c2 f1 f2 c1' c2' nb np (j1 j2 : job F S) o1 o2 n1 n2,
  job_input user d1 c1 UserFile = Ok (f1, c1') -> job_input user d2 c2 UserFile = Ok (f2, c2') ->
  make_job f1 c1' nb np = Ok (j1, o1, n1) -> make_job f2 c2' nb np = Ok (j2, o2, n2) ->
  j_model j1 = j_model j2.
Proof.
  intros F A S G N GN user d1 d2 c1 c2 f1 f2 c1' c2' nb np j1 j2 o1 o2 n1 n2 E1 E2 M1 M2.
  assert (E : f1 = f2) by (cbn in E1, E2; destruct user; congruence). subst f2.
  unfold make_job in M1, M2. destruct (configure [] f1 []) as [inp|]; [|discriminate]. cbn [rbind] in *.
  destruct (new_model inp nb np) as [[[m o] np']|]; [|discriminate]. cbn [rbind] in *.
  destruct (job_end_time c1' _ _) as [t1|]; [|discriminate]. destruct (job_end_time c2' _ _) as [t2|]; [|discriminate].
  cbn [rbind] in *. injection M1 as <- _ _. injection M2 as <- _ _. reflexivity.
Qed.
Print Assumptions C49_single_job_model_ignores_arguments.

(** A file that asks for 2 steps and a depth of 5, and arguments that ask for
    9 steps and a depth of 7: the plan has the latter, the job makes 2 steps
    at a depth of 5. *)
Definition ex_user : dict (value Z) := [("timesteps", VInt 2); ("h0", VInt 5)].
Definition ex_args : dict (value Z) := [("timesteps", VInt 9); ("h0", VInt 7); ("u0", VInt 3)].
Example C49_single_case :
  match preprocessor (fun _ => 0) (fun v => v) (Some ex_user) ex_args (mkDisk [] []) with
  | (d', Ok p) =>
      pl_files p = [UserFile] /\
      match pl_configs p with
      | [c] => dget "timesteps" c = Some (VInt 9) /\ dget "h0" c = Some (VInt 7) /\
          match job_input (Some ex_user) d' c UserFile with
          | Ok (f, c') => f = Mapping ex_user /\ dget "timesteps" c' = Some (VInt 2) /\ dget "u0" c' = Some (VInt 3)
          | Err _ => False
          end
      | _ => False
      end
  | _ => False
  end.
Proof. vm_compute. repeat split. Qed.

(** With several jobs the arguments do reach every job: each job's
    configuration, written to the job's file (C46_job_files), has them, unless
    a set is used, whose entries come first (C47_set_jobs). *)
Theorem C49_arguments_reach_every_job :
  forall F seeds reload user (args : dict (value F)) d d' p,
  (forall f, user = Some f -> well_formed f) -> well_formed args ->
  ~ In "set" (dkeys (merged user args)) ->
  preprocessor seeds reload user args d = (d', Ok p) ->
  forall j k v, In j (pl_configs p) -> k <> "out_dir" -> k <> "matrix" -> k <> "ensemble" ->
    dget k args = Some v -> dget k j = Some v.
Proof.
  intros F seeds reload user args d d' p Wf Wa Hs H j k v Hj K1 K2 K3 Hv.
  eapply arguments_reach_jobs; eauto.
  - apply dupdate_NoDup. apply dupdate_NoDup. constructor.
  - unfold preprocessor in H. destruct user, args; try discriminate; exact H.
  - rewrite ExpandCor.merged_get by assumption. rewrite Hv. reflexivity.
Qed.
Print Assumptions C49_arguments_reach_every_job.

Example C49_matrix_case :
  match preprocessor (fun _ => 0) (fun v => v)
      (Some [("h0", VInt 5); ("out_dir", VStr "out"); ("matrix", VDict [("f_bedload", VList [VInt 0; VInt 1])])])
      [("h0", VInt 7)] (mkDisk [] []) with
  | (_, Ok p) => map (dget "h0") (pl_configs p) = [Some (VInt 7 : value Z); Some (VInt 7)]
  | _ => False
  end.
Proof. vm_compute. reflexivity. Qed.

(** ** C50: random streams *)

(** A job run alone, whose file gives the seed, does not depend on the state
    of the process's generators. *)
Theorem C50_alone :
  forall F (A : Arith F) S (G : Rng F S) N (GN : NpRng N) f c z,
  seed_given f z -> forall nb nb' np np' (r : ran F S), alone (f, c) nb np r <-> alone (f, c) nb' np' r.
Proof. intros. split; eapply alone_seeded; eauto. Qed.
Print Assumptions C50_alone.

(** Jobs run in parallel give what each gives alone. *)
Theorem C50_parallel :
  forall F (A : Arith F) S (G : Rng F S) N (GN : NpRng N) (l : list (file F * dict (value F))),
  (forall f c, In (f, c) l -> exists z, seed_given f z) ->
  forall nb0 np0 nb np (rs : list (ran F S)),
  parallel l nb np rs <-> Forall2 (fun fc r => alone fc nb0 np0 r) l rs.
Proof. intros F A S G N GN l H nb0 np0 nb np rs. exact (parallel_iff l H nb0 np0 nb np rs). Qed.
Print Assumptions C50_parallel.

(** Jobs run one after the other do not: the first one runs with the seed of
    the last one. *)
Theorem C50_first_serial_job_has_the_last_seed :
  forall F (A : Arith F) S (G : Rng F S) N (GN : NpRng N) f1 c1 l f c z nb np (r : ran F S) rs,
  seed_given f z -> last ((f1, c1) :: l) (f1, c1) = (f, c) -> serial ((f1, c1) :: l) nb np (r :: rs) ->
  exists j o np' g', make_job f1 c1 nb np = Ok (j, o, np') /\ run_job (seed_rng z) j r g'.
Proof. intros. eapply serial_first; eauto. Qed.
Print Assumptions C50_first_serial_job_has_the_last_seed.

Definition with_seed_file (z : Z) : file sfloat := Mapping (small [("seed", VInt z)]).
Definition one_step : dict (value sfloat) := [("timesteps", VInt 1)].
Example C50_seeds : seed_given (A:=F64) (with_seed_file 1) 1 /\ seed_given (A:=F64) (with_seed_file 2) 2.
Proof. split; (eexists; split; [vm_compute; reflexivity|vm_compute; reflexivity]). Qed.

(** Two jobs that differ in the seed, one update each: in a serial run the
    first one ends with another bed than when it is run alone. *)
Theorem C50_serial_jobs_as_alone_refuted :
  exists r1 r2,
  serial (A:=F64) (G:=lcg) (GN:=count_rng) [(with_seed_file 1, one_step); (with_seed_file 2, one_step)] 7 0 [r1; r2] /\
  completed r1 /\ completed r2 /\
  forall r, alone (A:=F64) (G:=lcg) (GN:=count_rng) (with_seed_file 1, one_step) 7 0 r ->
    completed r /\ s_eta (m_st (r_model r)) 2 2 <> s_eta (m_st (r_model r1)) 2 2.
Proof.
  set (check := match f64_job (with_seed_file 1) one_step with
    | Ok (j1, _, _) =>
        match make_job (A:=F64) (G:=lcg) (GN:=count_rng) (with_seed_file 2) one_step (s_rng (m_st (j_model j1))) 0 with
        | Ok (j2, _, _) =>
            reaches (A:=F64) (G:=lcg) (j_end j1) 1 (s_rng (m_st (j_model j2))) (j_model j1) &&
            reaches (A:=F64) (G:=lcg) (j_end j1) 1 (s_rng (m_st (j_model j1))) (j_model j1) &&
            match model_update (A:=F64) (G:=lcg) (use_rng (s_rng (m_st (j_model j2))) (j_model j1)),
                  model_update (A:=F64) (G:=lcg) (use_rng (s_rng (m_st (j_model j1))) (j_model j1)) with
            | Ok (a, _), Ok (b, _) =>
                negb (feqb (s_eta (m_st b) 2 2) (s_eta (m_st a) 2 2)) && feqb (s_eta (m_st a) 2 2) (s_eta (m_st a) 2 2) &&
                reaches (A:=F64) (G:=lcg) (j_end j2) 1 (s_rng (m_st a)) (j_model j2)
            | _, _ => false
            end
        | Err _ => false
        end
    | Err _ => false
    end).
  assert (K : check = true) by (vm_compute; reflexivity). unfold check in K.
  destruct (f64_job (with_seed_file 1) one_step) as [[[j1 o1] np1]|e] eqn:E1; [|discriminate].
  apply (make_job_seeded (A:=F64) (G:=lcg) _ _ 1 (proj1 C50_seeds) 7 7 0 0) in E1 as X. destruct X as [-> _].
  destruct (make_job (A:=F64) (G:=lcg) (GN:=count_rng) (with_seed_file 2) one_step (s_rng (m_st (j_model j1))) 0) as [[[j2 o2] np2]|e] eqn:E2; [|discriminate].
  apply make_job_inv in E1 as X1. destruct X1 as (_ & _ & _ & _ & _ & _ & _ & Hf1 & _).
  apply make_job_inv in E2 as X2. destruct X2 as (_ & _ & _ & _ & _ & _ & _ & Hf2 & _).
  apply andb_true_iff in K as [K K3]. apply andb_true_iff in K as [K1 K2].
  destruct (one_job (A:=F64) (G:=lcg) _ j1 Hf1 K1) as (a & oa & r1 & Ea & R1 & C1 & V1).
  destruct (one_job (A:=F64) (G:=lcg) _ j1 Hf1 K2) as (b & ob & r0 & Eb & R0 & C0 & V0).
  rewrite Ea, Eb in K3. apply andb_true_iff in K3 as [K3 K5]. apply andb_true_iff in K3 as [K3 K4].
  destruct (one_job (A:=F64) (G:=lcg) _ j2 Hf2 K5) as (a2 & oa2 & r2 & Ea2 & R2 & C2 & V2).
  exists r1, r2. split; [|split; [exact C1|split; [exact C2|]]].
  - exists [j1; j2], (o1 ++ (o2 ++ []))%list, (s_rng (m_st (j_model j2))), np2. split.
    + cbn [make_jobs]. rewrite E1. cbn [rbind]. rewrite E2. cbn [rbind]. reflexivity.
    + eapply jobs_next; [exact R1|apply C1|]. eapply jobs_next; [exact R2|apply C2|]. constructor.
  - intros r Hr. apply alone_iff in Hr as (j & o & np' & g' & E & Hr). rewrite E1 in E. injection E as <- <- <-.
    rewrite (run_job_det (A:=F64) (G:=lcg) _ _ _ _ Hf1 R0 C0 _ _ Hr). split; [exact C0|].
    rewrite V0, V1. intros X. rewrite X, K4 in K3. discriminate.
Qed.
Print Assumptions C50_serial_jobs_as_alone_refuted.

(** ** C52: failures *)

(** A job completes, or its update failed with a runtime or value error and
    it is finalized all the same, or it failed with another error, which
    escapes without finalizing. *)
Theorem C52_ends_of_a_job :
  forall F (A : Arith F) S (G : Rng F S) N (GN : NpRng N) f c nb np (j : job F S) o np' g r g',
  make_job f c nb np = Ok (j, o, np') -> run_job g j r g' ->
  exists ending m, loop (j_end j) g (j_model j) (r_updates r) (r_output r) ending g' m /\
    match ending with
    | Finished => completed r
    | Failed e => catchable e /\ failed_cleanly r \/ ~ catchable e /\ aborted r e
    end.
Proof. intros F A S G N GN f c nb np j o np' g r g' E H. apply make_job_inv in E as (_ & _ & _ & _ & _ & _ & _ & Hf & _). exact (run_job_cases _ _ _ _ Hf H). Qed.
Print Assumptions C52_ends_of_a_job.

(** The next job is run exactly if no error escaped from this one. *)
Theorem C52_remaining_jobs :
  forall F (A : Arith F) S (G : Rng F S) g (js : list (job F S)) rs, run_jobs g js rs ->
  (List.length rs <= List.length js)%nat /\
  forall i r, nth_error rs i = Some r -> (i + 1 < List.length js)%nat ->
    ((i + 1 < List.length rs)%nat <-> r_raised r = None).
Proof.
  intros F A S G g js rs H. apply run_jobs_length in H as [H1 H2]. split; [exact H1|]. intros i r E Hi.
  rewrite Nat.add_1_r in *. apply H2; auto.
Qed.
Print Assumptions C52_remaining_jobs.

(** If every failure is a runtime or value error, every job is run and
    finalized. *)
Theorem C52_all_jobs_finalized :
  forall F (A : Arith F) S (G : Rng F S) N (GN : NpRng N) (l : list (file F * dict (value F))) nb np (rs : list (ran F S)),
  serial l nb np rs -> (forall r e, In r rs -> ~ aborted r e) ->
  List.length rs = List.length l /\ forall r, In r rs -> m_finalized (r_model r) = true.
Proof. intros F A S G N GN. exact (all_finalized (A:=A)). Qed.
Print Assumptions C52_all_jobs_finalized.

(** A job that is run a second time makes no update and is reported as failing
    in its last stage, since its model is finalized already; the model is left
    as it was. *)
Theorem C52_run_again :
  forall F (A : Arith F) S (G : Rng F S) N (GN : NpRng N) f c nb np (j : job F S) o np' g r g' g1 r1 g2,
  make_job f c nb np = Ok (j, o, np') -> run_job g j r g' -> completed r ->
  run_job g1 (mkJob (r_model r) (j_end j)) r1 g2 ->
  r_updates r1 = O /\ r_output r1 = [] /\ r_codes r1 = [(1, 0); (2, 1)]%Z /\ r_raised r1 = None /\ r_model r1 = r_model r.
Proof. intros F A S G N GN f c nb np j o np' g r g' g1 r1 g2 E. apply make_job_inv in E as (_ & _ & _ & _ & _ & _ & _ & Hf & _).
  exact (run_again g j r g' g1 r1 g2 Hf). Qed.
Print Assumptions C52_run_again.

(** If the construction of any job fails, no job is run. *)
Theorem C52_construction_failure_stops_all :
  forall F (A : Arith F) S (G : Rng F S) N (GN : NpRng N) (l : list (file F * dict (value F))) nb np f c e,
  In (f, c) l -> (forall nb np, make_job (S:=S) f c nb np = Err e) ->
  forall rs, ~ serial l nb np rs.
Proof. intros F A S G N GN. exact (construction_failure (A:=A)). Qed.
Print Assumptions C52_construction_failure_stops_all.

(** Not-a-number in the routing exponent makes an update fail with a runtime
    error, a step limit of zero with an index error, and a file without a
    duration makes construction fail. *)
Definition nan_file : file sfloat := Mapping (small [("seed", VInt 1); ("theta_water", VFloat S754_nan)]).
Definition limit_file : file sfloat := Mapping (small [("seed", VInt 1); ("stepmax", VInt 0)]).
Definition fails_with (f : file sfloat) (p : exn -> bool) : bool :=
  match f64_job f one_step with
  | Ok (j, _, _) =>
      fltb (s_time (m_st (j_model j))) (j_end j) &&
      match model_update (A:=F64) (G:=lcg) (use_rng 7 (j_model j)) with Err e => p e | Ok _ => false end
  | Err _ => false
  end.
Example C52_failures :
  fails_with nan_file (fun e => match e with RuntimeError => true | _ => false end) = true /\
  fails_with limit_file (fun e => match e with IndexError => true | _ => false end) = true /\
  f64_job nan_file [] = Err ValueError.
Proof. split; [|split]; vm_compute; reflexivity. Qed.

(** The run of a failing job. *)
Example C52_failing_runs : forall f p, fails_with f p = true ->
  exists j o np' r g' e, f64_job f one_step = Ok (j, o, np') /\ run_job (A:=F64) (G:=lcg) 7 j r g' /\ p e = true /\
    (catchable e -> failed_cleanly r) /\ (~ catchable e -> aborted r e).
Proof.
  intros f p H. unfold fails_with in H. destruct (f64_job f one_step) as [[[j o] np']|e0] eqn:E; [|discriminate].
  apply make_job_inv in E as X. destruct X as (_ & _ & _ & _ & _ & _ & _ & Hf & _).
  apply andb_true_iff in H as [H1 H2].
  destruct (model_update (A:=F64) (G:=lcg) (use_rng 7 (j_model j))) as [|e] eqn:Eu; [discriminate|].
  pose proof (loop_fail (A:=F64) (G:=lcg) _ 7 _ e 7 (m_st (j_model j)) H1 Eu) as HL.
  destruct (caught e) eqn:Ec.
  - exists j, o, np', (mkRan 0 [] [(1, 1); (2, 0)] None (mkModel (m_in (j_model j)) (m_P (j_model j)) (m_st (j_model j)) true)), 7, e.
    split; [reflexivity|]. split; [|split; [exact H2|split]].
    + eapply run_caught; [exact HL|exact Ec|]. exact (finalize_open (mkModel (m_in (j_model j)) (m_P (j_model j)) (m_st (j_model j)) (m_finalized (j_model j))) Hf).
    + repeat split.
    + intros K. exfalso. apply K, caught_iff, Ec.
  - exists j, o, np', (mkRan 0 [] [] (Some e) (mkModel (m_in (j_model j)) (m_P (j_model j)) (m_st (j_model j)) (m_finalized (j_model j)))), 7, e.
    split; [reflexivity|]. split; [|split; [exact H2|split]].
    + eapply run_escaped; [exact HL|exact Ec].
    + intros K. apply caught_iff in K. congruence.
    + repeat split. exact Hf.
Qed.
