(** The log of a run. *)
From Coq Require Import ZArith NArith List Bool String Reals Lra Lia.
From Verif Require Import Base RLemmas Shared SharedSpec Params State Water Sed RunProofs Iter Inputs Init InitSpec InitProofs
  Session SessionProofs MirrorFlow JobsProofs Dict Text Config ConfigSpec ConfigProofs Props_Config Examples Props_Init Props_Iter Log LogSpec LogProofs LogText.
Import ListNotations.
Local Open Scope string_scope.
Local Open Scope Z_scope.

(** ** C77 *)

(** Logging has no effect on the model: the program with its messages does
    what the program without them does, at any verbosity. *)
Theorem C77_logging_is_passive :
  forall (F : Type) (A : Arith F) (S : Type) (G : Rng F S) (N : Type) (GN : NpRng N) (v : Z) (e : surroundings),
    (forall m : model (F:=F) S, snd (model_update_log v e m) = model_update m) /\
    (forall open (m : model (F:=F) S), snd (model_finalize_log v open m) = model_finalize m) /\
    (forall c inp (nb : S) (np : N) n, inputs_of c = Ok inp ->
       (e_saving e && e_exists e && negb (e_clobber e) = false) ->
       snd (run_model_log v e c nb np n) = run_model inp nb np n) /\
    (forall c inp ck defer (nb : S) (np : N), inputs_of c = Ok inp ->
       snd (resume_log v e defer c ck nb np) = resume inp ck (e_saving e && negb defer && negb (e_exists e)) nb np).
Proof.
  intros. split; [exact (model_update_snd v e)|]. split; [exact (model_finalize_snd v)|]. split.
  - intros c inp nb np n. exact (run_model_snd v e c inp nb np n).
  - intros c inp ck defer nb np. exact (resume_snd v e c inp ck nb np defer).
Qed.
Print Assumptions C77_logging_is_passive.

(** A less verbose model writes what a more verbose one writes, with lines left
    out; it ends in the same way. *)
Theorem C77_verbosity_only_adds_lines :
  forall (F : Type) (A : Arith F) (S : Type) (G : Rng F S) (N : Type) (GN : NpRng N) (v v' : Z) (e : surroundings),
    v <= v' ->
    (forall m : model (F:=F) S, leaves_out (fst (model_update_log v e m)) (fst (model_update_log v' e m))) /\
    (forall open (m : model (F:=F) S), leaves_out (fst (model_finalize_log v open m)) (fst (model_finalize_log v' open m))) /\
    (forall c (nb : S) (np : N) n,
       leaves_out (fst (run_model_log v e c nb np n)) (fst (run_model_log v' e c nb np n)) /\
       snd (run_model_log v e c nb np n) = snd (run_model_log v' e c nb np n)) /\
    (forall defer c ck (nb : S) (np : N),
       leaves_out (fst (resume_log v e defer c ck nb np)) (fst (resume_log v' e defer c ck nb np))).
Proof.
  intros F A S G N GN v v' e H. assert (Hv : forall k, 0 <= k <= 2 -> k <= v -> k <= v') by (intros; lia).
  split; [intros m; apply (q_model_update v v' e Hv)|]. split; [intros open m; apply (q_finalize v v' Hv)|]. split.
  - intros c nb np n. destruct (q_run_model v v' e Hv c nb np n) as [K1 K2]. auto.
  - intros defer c ck nb np. apply (q_resume v v' e Hv).
Qed.
Print Assumptions C77_verbosity_only_adds_lines.

(** There are no further messages beyond verbosity 2. *)
Theorem C77_two_is_most :
  forall (F : Type) (A : Arith F) (S : Type) (G : Rng F S) (N : Type) (GN : NpRng N) (v : Z) (e : surroundings),
    2 <= v ->
    (forall m : model (F:=F) S, model_update_log v e m = model_update_log 2 e m) /\
    (forall c (nb : S) (np : N) n, run_model_log v e c nb np n = run_model_log 2 e c nb np n).
Proof.
  intros F A S G N GN v e H.
  assert (H1 : forall k, 0 <= k <= 2 -> k <= v -> k <= 2) by (intros; lia).
  assert (H2 : forall k, 0 <= k <= 2 -> k <= 2 -> k <= v) by (intros; lia).
  split.
  - intros m. destruct (q_model_update (A:=A) (G:=G) v 2 e H1 m) as [E K1]. destruct (q_model_update (A:=A) (G:=G) 2 v e H2 m) as [_ K2].
    destruct (model_update_log v e m), (model_update_log 2 e m). cbn in *. f_equal; [apply lo_antisym|]; assumption.
  - intros c nb np n. destruct (q_run_model (A:=A) (G:=G) v 2 e H1 c nb np n) as [E K1]. destruct (q_run_model (A:=A) (G:=G) 2 v e H2 c nb np n) as [_ K2].
    destruct (run_model_log v e c nb np n), (run_model_log 2 e c nb np n). cbn in *. f_equal; [apply lo_antisym|]; assumption.
Qed.
Print Assumptions C77_two_is_most.

(** Every completed update reports its time once, at any verbosity, with the
    time and number of the step just made; on the screen exactly when the
    verbosity is positive.  An update that raises reports no time. *)
Theorem C77_one_time_line_per_update :
  forall (F : Type) (A : Arith F) (S : Type) (G : Rng F S) (v : Z) (e : surroundings) (P : params F) (st : state F S),
    (forall st' o, update P st = Ok (st', o) ->
       s_time st' = fadd (s_time st) (p_dt P) /\ s_time_iter st' = s_time_iter st + 1 /\
       lines_of time_in_file (fst (update_log v e P st)) = [(s_time st', s_time_iter st')] /\
       lines_of on_screen (fst (update_log v e P st)) =
         (if 0 <? v then [TimeIs (s_time st') (s_time_iter st')] else [])) /\
    (forall x, update P st = Err x ->
       lines_of time_in_file (fst (update_log v e P st)) = [] /\
       lines_of on_screen (fst (update_log v e P st)) = []).
Proof.
  intros F A S G v e P st. split.
  - intros st' o E. destruct (FrameProofs.update_frame P st st' o E) as (_ & _ & _ & _ & _ & _ & T1 & T2).
    destruct (time_line v e P st st' o E) as [K1 K2]. auto.
  - intros x E. exact (time_failed v e P st x E).
Qed.
Print Assumptions C77_one_time_line_per_update.

(** The log of a whole run lists the times from 0 on, one step after the
    other; in exact arithmetic step k is at k time steps. *)
Theorem C77_times_of_a_run :
  forall (F : Type) (A : Arith F) (S : Type) (G : Rng F S) (N : Type) (GN : NpRng N) (v : Z) (e : surroundings)
    c inp (nb : S) (np np' : N) m o n st o',
    inputs_of c = Ok inp -> e_saving e && e_exists e && negb (e_clobber e) = false ->
    new_model inp nb np = Ok (m, o, np') -> updates (m_P m) n (m_st m) = Ok (st, o') ->
    lines_of time_in_file (fst (run_model_log v e c nb np n)) =
    map (fun k => (Nat.iter k (fun t => fadd t (p_dt (m_P m))) (fz 0), Z.of_nat k)) (seq 0 (Datatypes.S n)).
Proof.
  intros F A S G N GN v e c inp nb np np' m o n st o' I H E U.
  change (lines_of time_in_file (fst ?x)) with (sel time_in_file x).
  unfold run_model_log. rewrite sel_bind, (new_model_snd v e c inp nb np I H), E.
  destruct (sel_new v e time_in_file ltac:(reflexivity) ltac:(reflexivity) c inp nb np np' m o I H E) as (z & _ & K).
  rewrite K, config_silent by reflexivity.
  rewrite sel_bind, updates_snd, U, silent_ret, app_nil_r, (times_updates v e (m_P m) n _ _ _ U).
  assert (T : s_time (m_st m) = fz 0 /\ s_time_iter (m_st m) = 0).
  { unfold new_model in E. apply rbind_Ok in E as ([m0 np0] & E1 & E). apply construct_fresh in E1 as (_ & _ & _ & T2 & T1 & _).
    destruct (write_output (m_P m0) (m_st m0)) as [st0 o0] eqn:W. injection E as <- <- <-. cbn [m_st].
    apply write_keeps in W as (W1 & W2 & _). rewrite W1, W2. auto. }
  destruct T as [T1 T2]. rewrite T1, T2.
  replace (said time_in_file v true 0 (seed_text z)) with (@nil (F * Z)) by (unfold said; cbn; rewrite if_same; reflexivity).
  replace (sel time_in_file (log_model_time v (m_st m))) with [(s_time (m_st m), s_time_iter (m_st m))]
    by (unfold sel, log_model_time, lines_of; cbn; destruct (0 <? v); reflexivity).
  rewrite T1, T2. reflexivity.
Qed.
Print Assumptions C77_times_of_a_run.

Theorem C77_times_of_a_run_exact :
  forall (S : Type) (G : Rng R S) (N : Type) (GN : NpRng N) (v : Z) (e : surroundings)
    c inp (nb : S) (np np' : N) m o n st o',
    inputs_of (F:=R) (A:=RX) c = Ok inp -> e_saving e && e_exists e && negb (e_clobber e) = false ->
    new_model (A:=RX) inp nb np = Ok (m, o, np') -> updates (A:=RX) (m_P m) n (m_st m) = Ok (st, o') ->
    lines_of time_in_file (fst (run_model_log (A:=RX) v e c nb np n)) =
    map (fun k => ((INR k * p_dt (m_P m))%R, Z.of_nat k)) (seq 0 (Datatypes.S n)).
Proof.
  intros S G N GN v e c inp nb np np' m o n st o' I H E U.
  rewrite (C77_times_of_a_run R RX S G N GN v e c inp nb np np' m o n st o' I H E U).
  apply map_ext. intros k. f_equal. induction k as [|k IH]; [cbn; ring|].
  change (Nat.iter (Datatypes.S k) ?f ?x) with (f (Nat.iter k f x)). cbv beta. rewrite IH, S_INR. cbn [fadd RX RA]. ring.
Qed.
Print Assumptions C77_times_of_a_run_exact.

(** From verbosity 1 on the log announces each record with its number, each
    checkpoint and each lowering of the bed, and announces none that is not
    made; nothing of this is announced by an update that raises before the
    end of the sediment routing. *)
Theorem C77_output_is_announced :
  forall (F : Type) (A : Arith F) (S : Type) (G : Rng F S) (v : Z) (e : surroundings) (P : params F) (st st' : state F S) o,
    1 <= v -> update P st = Ok (st', o) ->
    lines_of (note_in_file "Saving data to output file: ") (fst (update_log v e P st)) =
      map (fun i => "Saving data to output file: " ++ zfill 5 (pystr (Z.to_N i))) (record_indices o) /\
    List.length (lines_of (exactly_in_file "Saving checkpoint") (fst (update_log v e P st))) = List.length (checkpoints_in o) /\
    List.length (lines_of (exactly_in_file "Applying subsidence") (fst (update_log v e P st))) =
      (if p_toggle_subsidence P && fleb (p_start_subsidence P) (s_time st) then 1 else 0)%nat.
Proof. intros F A S G v e P st st' o. exact (saving_lines v e P st st' o). Qed.
Print Assumptions C77_output_is_announced.

(** The only warning of an update is about unequal intervals: once for each
    checkpoint, at any verbosity. *)
Theorem C77_warning_lines :
  forall (F : Type) (A : Arith F) (S : Type) (G : Rng F S) (v : Z) (e : surroundings) (P : params F) (st st' : state F S) o,
    update P st = Ok (st', o) ->
    lines_of warning_in_file (fst (update_log v e P st)) =
      (if negb (feqb (p_checkpoint_dt P) (p_save_dt P)) then map (fun _ => interval_warning) (checkpoints_in o) else []).
Proof. intros F A S G v e P st st' o. exact (warning_lines v e P st st' o). Qed.
Print Assumptions C77_warning_lines.

(** The log of a new model lists every variable of the configuration with its
    value, once and in order, and the seed once.  The seed found there repeats
    the run, whatever the generators were. *)
Theorem C77_log_records_the_configuration :
  forall (F : Type) (A : Arith F) (S : Type) (G : Rng F S) (N : Type) (GN : NpRng N) (v : Z) (e : surroundings)
    c inp (nb : S) (np np' : N) m o,
    0 <= v -> inputs_of c = Ok inp -> e_saving e && e_exists e && negb (e_clobber e) = false ->
    new_model inp nb np = Ok (m, o, np') ->
    lines_of config_in_file (fst (new_model_log v e false c nb np)) = c /\
    exists z, lines_of (note_in_file "Random seed is: ") (fst (new_model_log v e false c nb np)) =
        ["Random seed is: " ++ pystrZ z ++ " "] /\
      forall (nb2 : S) (np2 : N) n, run_model inp nb np n = run_model (seti_seed (Some z) inp) nb2 np2 n.
Proof.
  intros F A S G N GN v e c inp nb np np' m o Hv I H E. split.
  - destruct (sel_new v e config_in_file ltac:(reflexivity) ltac:(reflexivity) c inp nb np np' m o I H E) as (z & _ & K).
    unfold sel in K. rewrite K. change (lines_of config_in_file (fst ?x)) with (sel config_in_file x).
    rewrite config_lines by exact Hv.
    replace (said config_in_file v true 0 (seed_text z)) with (@nil (string * value F)) by (unfold said; cbn; rewrite if_same; reflexivity).
    replace (sel config_in_file (log_model_time v (m_st m))) with (@nil (string * value F))
      by (unfold sel, log_model_time, lines_of; cbn; destruct (0 <? v); reflexivity).
    apply app_nil_r.
  - destruct (sel_new v e (note_in_file "Random seed is: ")) with (5 := E) (3 := I) (4 := H) as (z & Ez & K).
    { intros t P. cbn [note_in_file]. rewrite P. reflexivity. }
    { reflexivity. }
    exists z. split.
    + unfold sel in K. rewrite K. change (lines_of ?g (fst ?x)) with (sel g x). rewrite config_silent by reflexivity.
      replace (sel (note_in_file "Random seed is: ") (log_model_time v (m_st m))) with (@nil string)
        by (unfold sel, log_model_time, lines_of; cbn; destruct (0 <? v); reflexivity).
      unfold said. apply Z.leb_le in Hv. rewrite Hv. cbn [andb note_in_file]. unfold seed_text. rewrite prefix_app. reflexivity.
    + intros nb2 np2 n. unfold new_model in E. apply rbind_Ok in E as ([m0 np0] & E1 & E).
      destruct (write_output (m_P m0) (m_st m0)) as [st o0]. injection E as <- <- <-. cbn [m_in] in Ez. rewrite <- Ez.
      exact (run_model_again inp nb nb2 np np2 n m0 np0 E1).
Qed.
Print Assumptions C77_log_records_the_configuration.

(** Different seeds give different lines. *)
Theorem C77_seed_line_tells_the_seed :
  forall z z', "Random seed is: " ++ pystrZ z ++ " " = "Random seed is: " ++ pystrZ z' ++ " " -> z = z'.
Proof. exact seed_text_inj. Qed.
Print Assumptions C77_seed_line_tells_the_seed.

(** With a negative verbosity, which the configuration accepts, the seed and
    the configuration are not in the log. *)
Theorem C77_negative_verbosity_refuted :
  forall (F : Type) (A : Arith F) (S : Type) (G : Rng F S) (N : Type) (GN : NpRng N) (v : Z) (e : surroundings)
    c inp (nb : S) (np np' : N) m o,
    v < 0 -> inputs_of c = Ok inp -> e_saving e && e_exists e && negb (e_clobber e) = false ->
    new_model inp nb np = Ok (m, o, np') ->
    lines_of config_in_file (fst (new_model_log v e false c nb np)) = [] /\
    lines_of (note_in_file "Random seed is: ") (fst (new_model_log v e false c nb np)) = [].
Proof.
  intros F A S G N GN v e c inp nb np np' m o Hv I H E.
  assert (V0 : (0 <=? v) = false) by (apply Z.leb_gt; lia). assert (V1 : (0 <? v) = false) by (apply Z.ltb_ge; lia).
  assert (C : forall c, fst (config_log (F:=F) v c) = []).
  { induction c0 as [|kv c0 IH]; [reflexivity|]. cbn [config_log]. unfold lbind, log_config. rewrite V0.
    destruct (config_log v c0) as [l r] eqn:Q. cbn in *. exact IH. }
  split.
  - destruct (sel_new v e config_in_file ltac:(reflexivity) ltac:(reflexivity) c inp nb np np' m o I H E) as (z & _ & K).
    unfold sel in K. rewrite K, C. unfold said, log_model_time. rewrite V0, V1. reflexivity.
  - destruct (sel_new v e (note_in_file "Random seed is: ")) with (5 := E) (3 := I) (4 := H) as (z & Ez & K).
    { intros t P. cbn [note_in_file]. rewrite P. reflexivity. }
    { reflexivity. }
    unfold sel in K. rewrite K, C. unfold said, log_model_time. rewrite V0, V1. reflexivity.
Qed.
Print Assumptions C77_negative_verbosity_refuted.

(** The log of a resumed model does not list the configuration; it starts at
    the time of the checkpoint. *)
Theorem C77_log_of_a_resumed_model :
  forall (F : Type) (A : Arith F) (S : Type) (G : Rng F S) (N : Type) (GN : NpRng N) (v : Z) (e : surroundings)
    c inp ck defer (nb : S) (np np' : N) m,
    inputs_of c = Ok inp ->
    resume inp ck (e_saving e && negb defer && negb (e_exists e)) nb np = Ok (m, np') ->
    lines_of config_in_file (fst (resume_log v e defer c ck nb np)) = [] /\
    lines_of time_in_file (fst (resume_log v e defer c ck nb np)) = [(c_time ck, c_time_iter ck)].
Proof.
  intros F A S G N GN v e c inp ck defer nb np np' m I E. split.
  - destruct (sel_resume v e config_in_file ltac:(reflexivity) ltac:(reflexivity) c inp ck defer nb np np' m I E) as (z & _ & K).
    unfold sel in K. rewrite K. unfold said, log_model_time. cbn. rewrite if_same. destruct (0 <? v); reflexivity.
  - destruct (sel_resume v e time_in_file ltac:(reflexivity) ltac:(reflexivity) c inp ck defer nb np np' m I E) as (z & _ & K).
    unfold sel in K. rewrite K. unfold said, log_model_time. cbn. rewrite if_same.
    unfold resume in E. apply rbind_Ok in E as ([m0 np0] & _ & E). apply rbind_Ok in E as (st & E2 & E). injection E as <- <-.
    cbn [m_st]. assert (T : s_time st = c_time ck /\ s_time_iter st = c_time_iter ck).
    { unfold load_checkpoint in E2. destruct (c_save_time_since_data ck); [discriminate|]. apply Ok_inj in E2. subst st.
      match goal with |- context [if ?b then _ else _] => destruct b end; split; reflexivity. }
    destruct T as [<- <-]. destruct (0 <? v); reflexivity.
Qed.
Print Assumptions C77_log_of_a_resumed_model.

(** The seed line of a resumed model is not the seed of its random numbers: a
    model without a seed in its configuration draws one and logs it, but the
    generator continues from the checkpoint.  Resuming twice gives the same
    state under different seeds in the logs. *)
Theorem C77_seed_of_a_resumed_model_refuted :
  forall (F : Type) (A : Arith F) (S : Type) (G : Rng F S) (N : Type) (GN : NpRng N) (v : Z) (e : surroundings)
    c inp ck defer (nb : S) (np np2 np' : N) m,
    0 <= v -> inputs_of c = Ok inp -> i_seed inp = None -> fst (randint np) <> fst (randint np2) ->
    let missing := e_saving e && negb defer && negb (e_exists e) in
    resume inp ck missing nb np = Ok (m, np') ->
    exists m2 np3, resume inp ck missing nb np2 = Ok (m2, np3) /\
      m_st m2 = m_st m /\ m_P m2 = m_P m /\ s_rng (m_st m) = c_rng ck /\
      lines_of (note_in_file "Random seed is: ") (fst (resume_log v e defer c ck nb np2)) <>
      lines_of (note_in_file "Random seed is: ") (fst (resume_log v e defer c ck nb np)).
Proof.
  intros F A S G N GN v e c inp ck defer nb np np2 np' m Hv I Sd D missing E.
  assert (L : forall np np' m, resume inp ck missing nb np = Ok (m, np') ->
            lines_of (note_in_file "Random seed is: ") (fst (resume_log v e defer c ck nb np)) = [seed_text (fst (randint np))]).
  { clear - Hv I Sd. intros np np' m E.
    destruct (sel_resume v e (note_in_file "Random seed is: ")) with (3 := I) (4 := E) as (z & Ez & K).
    { intros t P. cbn [note_in_file]. rewrite P. reflexivity. }
    { reflexivity. }
    assert (z = fst (randint np)) as <-.
    { unfold resume in E. apply rbind_Ok in E as ([m0 np0] & E1 & E). apply rbind_Ok in E as (st & E2 & E). injection E as <- <-.
      cbn [m_in] in Ez. apply construct_drawn in E1 as (z' & Ez' & K'). rewrite Ez' in Ez. injection Ez as <-. exact (K' Sd). }
    unfold sel in K. rewrite K.
    replace (lines_of (note_in_file "Random seed is: ") (fst (log_model_time v (m_st m)))) with (@nil string)
      by (unfold log_model_time, lines_of; cbn; destruct (0 <? v); reflexivity).
    unfold said. apply Z.leb_le in Hv. rewrite Hv. cbn [andb note_in_file]. unfold seed_text. rewrite prefix_app. reflexivity. }
  pose proof (L _ _ _ E) as L1. rewrite L1.
  unfold resume in E. apply rbind_Ok in E as ([m0 np0] & E1 & E). apply rbind_Ok in E as (st & E2 & E). injection E as <- <-.
  destruct (construct_other inp nb np m0 np0 E1) as (_ & K). destruct (K nb np2) as (m2 & np3 & s & C & C1 & C2 & C3).
  assert (L2 : load_checkpoint ck missing (m_st m2) = Ok st /\ s_rng st = c_rng ck).
  { rewrite C2. clear - E2. unfold load_checkpoint in *. destruct (c_save_time_since_data ck); [discriminate|].
    apply Ok_inj in E2. subst st. destruct missing; split; reflexivity. }
  destruct L2 as [L2 L3].
  assert (E' : resume inp ck missing nb np2 = Ok (mkModel (m_in m2) (m_P m2) st (m_finalized m2), np3)).
  { unfold resume. rewrite C. cbn [rbind]. rewrite L2. reflexivity. }
  exists (mkModel (m_in m2) (m_P m2) st (m_finalized m2)), np3. split; [exact E'|]. split; [reflexivity|]. split; [exact C1|].
  split; [exact L3|]. rewrite (L _ _ _ E'). intros H. apply D. symmetry. apply seed_text_inj. congruence.
Qed.
Print Assumptions C77_seed_of_a_resumed_model_refuted.

(** Finalizing a finalized model raises, but the log says it is finalized
    again; updating it raises and leaves no trace in the log. *)
Theorem C77_log_of_a_finalized_model :
  forall (F : Type) (A : Arith F) (S : Type) (G : Rng F S) (v : Z) (e : surroundings) open (m : model (F:=F) S),
    0 <= v -> m_finalized m = true ->
    model_finalize_log v open m = ([ToFile (Note "Finalize the model run")], Err RuntimeError) /\
    model_update_log v e m = ([], Err RuntimeError).
Proof.
  intros F A S G v e open m Hv H. apply Z.leb_le in Hv. unfold model_finalize_log, model_update_log, log_info.
  rewrite H, Hv. split; reflexivity.
Qed.
Print Assumptions C77_log_of_a_finalized_model.

(** At verbosity 2 an update logs "Initializing water iteration" once more
    than it makes water iterations: the sediment routing says the same. *)
Theorem C77_initializing_water_lines_refuted :
  forall (F : Type) (A : Arith F) (S : Type) (G : Rng F S) (v : Z) (e : surroundings) (P : params F) (st st' : state F S) o,
    2 <= v -> update P st = Ok (st', o) ->
    List.length (lines_of (exactly_in_file "Initializing water iteration") (fst (update_log v e P st))) =
    (Z.to_nat (p_itermax P) + 1)%nat.
Proof. intros F A S G v e P st st' o. exact (init_update v e P st st' o). Qed.
Print Assumptions C77_initializing_water_lines_refuted.

(** The step number of a time line is written out up to 999999; from a million
    on different steps have the same text. *)
Theorem C77_step_numbers :
  (forall n, (n < 1000000)%N -> pyg n = pystr n) /\
  (forall n m, (n < 1000000)%N -> (m < 1000000)%N -> pyg n = pyg m -> n = m).
Proof.
  split; [exact pyg_small|]. intros n m Hn Hm. rewrite !pyg_small by assumption. apply pystr_inj.
Qed.
Print Assumptions C77_step_numbers.
Theorem C77_step_numbers_beyond_a_million_refuted :
  pyg 1000000 = "1e+06" /\ pyg 1000001 = "1e+06" /\ pyg 1234567 = "1.23457e+06".
Proof. vm_compute. repeat split. Qed.
Print Assumptions C77_step_numbers_beyond_a_million_refuted.

(** From a million on the text has six digits, trailing zeros left out, of the
    nearest number that six digits can write (halfway, the one with an even
    last digit), with the point after the first digit. *)
Theorem C77_step_numbers_beyond_a_million :
  forall n, (1000000 <= n)%N -> exists m e t k c rest,
    (100000 <= m < 1000000)%N /\ (6 <= e)%N /\ nearest n (10 ^ (e - 5)) m /\
    (m = t * 10 ^ k)%N /\ (t mod 10 <> 0)%N /\ pystr t = String c rest /\
    pyg n = String c (match rest with EmptyString => "" | _ => "." ++ rest end) ++ "e+" ++ zfill 2 (pystr e).
Proof. exact pyg_large. Qed.
Print Assumptions C77_step_numbers_beyond_a_million.
Example C77_halfway : pyg 1000005 = "1e+06" /\ pyg 1000015 = "1.00002e+06" /\ pyg 1000025 = "1.00002e+06" /\
  pyg 9999996 = "1e+07" /\ nearest 1000015 10 100002 /\ ~ nearest 1000005 10 100001.
Proof.
  split; [vm_compute; reflexivity|]. split; [vm_compute; reflexivity|]. split; [vm_compute; reflexivity|].
  split; [vm_compute; reflexivity|]. unfold nearest. split.
  - split; [lia|]. split; [lia|]. intros _. reflexivity.
  - intros (_ & _ & K). discriminate K. right. reflexivity.
Qed.

(** A model whose logger is new writes each line once to its own file, and no
    other file changes. *)
Theorem C77_own_log_file :
  forall (F : Type) (w : logs F) name (l : list (message F)),
    handlers w name = 0%nat -> lines w name = [] ->
    lines (emits name l (init_logger name w)) name = l /\
    forall other, other <> name -> lines (emits name l (init_logger name w)) other = lines w other.
Proof.
  intros F w name l H0 H1. destruct (emits_lines name l (init_logger name w)) as (_ & E & O). split.
  - rewrite E. cbn. rewrite String.eqb_refl, H0, H1. cbn. clear. induction l; cbn; congruence.
  - intros other Ho. rewrite O by exact Ho. reflexivity.
Qed.
Print Assumptions C77_own_log_file.

(** A second model made in the same folder in the same second shares the
    logger: from then on every line of either model is in the file twice. *)
Theorem C77_same_second_refuted :
  forall (F : Type) (w : logs F) name (l1 l2 : list (message F)),
    handlers w name = 0%nat -> lines w name = [] ->
    lines (emits name l2 (init_logger name (emits name l1 (init_logger name w)))) name =
    (l1 ++ flat_map (fun m => [m; m]) l2)%list.
Proof.
  intros F w name l1 l2 H0 H1. destruct (emits_lines name l1 (init_logger name w)) as (E0 & E1 & _).
  destruct (emits_lines name l2 (init_logger name (emits name l1 (init_logger name w)))) as (_ & E & _).
  rewrite E. cbn [init_logger handlers lines]. rewrite E0, E1. cbn. rewrite String.eqb_refl, H0, H1. cbn. f_equal.
  clear. induction l1; cbn; congruence.
Qed.
Print Assumptions C77_same_second_refuted.

(** ** Concrete cases *)

(** The default configuration runs, so the hypotheses about new models and
    about completed updates are met at any verbosity. *)
Definition ex_surroundings : surroundings :=
  mkSurr "2.1.7" "3.10" "Linux" "DeltaModel" "input.yml" false ["eta"] true true false false.
Example C77_example_run : forall n,
  exists c m o np' st o',
    inputs_of (F:=R) (A:=RX) c = Ok documented_defaults /\ i_seed documented_defaults = None /\
    e_saving ex_surroundings && e_exists ex_surroundings && negb (e_clobber ex_surroundings) = false /\
    new_model (A:=RX) (G:=half_rng) (GN:=count_rng) documented_defaults tt 0%Z = Ok (m, o, np') /\
    updates (A:=RX) (G:=half_rng) (m_P m) n (m_st m) = Ok (st, o').
Proof.
  intros n. destruct C39_defaults_run as (D & _ & K).
  unfold configure in D. apply rbind_Ok in D as ([c u] & D1 & D2).
  destruct (K unit Z half_rng count_rng tt 0%Z n half_rng_range half_rng_pos) as (st & o & E).
  unfold run_model in E. apply rbind_Ok in E as ([[m o1] np'] & E1 & E). apply rbind_Ok in E as ([st1 o'] & E2 & E).
  exists c, m, o1, np', st1, o'. repeat split; try assumption.
Qed.
(** So is the hypothesis about completed updates ... *)
Example C77_example_update : exists (P : params R) (st st' : state R unit) o, update (A:=RX) (G:=half_rng) P st = Ok (st', o).
Proof.
  destruct (C77_example_run 1) as (c & m & o & np' & st & o' & _ & _ & _ & _ & U).
  cbn [updates] in U. apply rbind_Ok in U as ([x ox] & E1 & _). exists (m_P m), (m_st m), x, ox. exact E1.
Qed.
(** ... and those about resumed models, with two different drawn seeds. *)
Example C77_example_resumed : forall missing, exists ck m np',
  resume (A:=RX) (G:=half_rng) (GN:=count_rng) documented_defaults ck missing tt 0%Z = Ok (m, np') /\
  fst (randint (NpRng:=count_rng) 0%Z) <> fst (randint (NpRng:=count_rng) 1%Z).
Proof.
  intros missing. destruct (C77_example_run 0) as (c & m & o & np' & st & o' & _ & _ & _ & E & _).
  unfold new_model in E. apply rbind_Ok in E as ([m0 np0] & E1 & _).
  exists (save_the_checkpoint (set_save_time_since_data (Fin 0%R) (m_st m0))).
  unfold resume. rewrite E1. cbn [rbind]. unfold load_checkpoint. cbn [save_the_checkpoint c_save_time_since_data s_save_time_since_data set_save_time_since_data rbind].
  do 2 eexists. split; [reflexivity|]. cbn. lia.
Qed.
(** Two models with one logger. *)
Example C77_example_files :
  let w := mkLogs (F:=R) (fun _ => 0%nat) (fun _ => []) in
  let a := Note "a" in let b := Note "b" in
  lines (emits "out" [b] (init_logger "out" (emits "out" [a] (init_logger "out" w)))) "out" = [a; b; b].
Proof. reflexivity. Qed.
Example C77_example_texts : pystrZ (-12) = "-12" /\ pyg 999999 = "999999" /\ pyg 1999996 = "2e+06" /\ zfill 5 (pystr 7) = "00007".
Proof. vm_compute. repeat split. Qed.
