(** Properties C29 (attributes), C32, C35, C36, C45 and C57. *)
From Coq Require Import ZArith List Bool Reals Lra Lia Floats.SpecFloat.
From Flocq Require Import Core.
From Verif Require Import Base RLemmas Shared SharedSpec Params State Water WaterSpec Sed SedSpec RunProofs
  Iter IterSpec FrameProofs IterProofs Examples Inputs Init InitSpec InitProofs Session SessionSpec ResumeProofs SessionProofs
  AttrProofs Props_Iter Props_Init.
Import ListNotations.
Local Open Scope Z_scope.

(** ** C32 *)
(** In any sequence of calls on a model that is not finalized: a call after a
    finalize raises and changes nothing; before it, an update does one step
    and does not finalize, and finalize succeeds and changes nothing else. *)
Theorem C32_life_cycle :
  forall (F : Type) (A : Arith F) (S : Type) (G : Rng F S) (m m' : model (F:=F) S) tr pre c a r b post,
    calls m tr m' -> m_finalized m = false -> tr = pre ++ (c, a, r, b) :: post ->
    ((exists x, In x pre /\ call_of x = Finalize) -> r = Raised RuntimeError /\ b = a) /\
    (~ (exists x, In x pre /\ call_of x = Finalize) ->
      match c with
      | Update => m_finalized b = false /\
          match update (m_P a) (m_st a) with
          | Ok (st, o) => r = Returned o /\ m_P b = m_P a /\ m_in b = m_in a /\ m_st b = st
          | Err e => r = Raised e
          end
      | Finalize => r = Returned [] /\ b = mkModel (m_in a) (m_P a) (m_st a) true
      end).
Proof. intros F A S G m m' tr pre c a r b post. exact (life_cycle m tr m' pre c a r b post). Qed.
Print Assumptions C32_life_cycle.

(** A model is finalized exactly when finalize has been called. *)
Theorem C32_finalized_iff_called :
  forall (F : Type) (A : Arith F) (S : Type) (G : Rng F S) (m m' : model (F:=F) S) tr,
    calls m tr m' -> m_finalized m = false ->
    (m_finalized m' = true <-> exists x, In x tr /\ call_of x = Finalize).
Proof. intros F A S G m m' tr. exact (calls_state m tr m'). Qed.
Print Assumptions C32_finalized_iff_called.

Example C32_hypotheses : exists (m m' : model (F:=R) unit) o,
  calls (A:=RX) (G:=half_rng) m [(Update, m, Returned o, m'); (Finalize, m', Returned [], mkModel (m_in m') (m_P m') (m_st m') true);
    (Update, mkModel (m_in m') (m_P m') (m_st m') true, Raised RuntimeError, mkModel (m_in m') (m_P m') (m_st m') true)]
    (mkModel (m_in m') (m_P m') (m_st m') true) /\ m_finalized m = false.
Proof.
  change RX with (RA (fun x => x)). destruct (runnable_runs (G:=half_rng) (GN:=count_rng) (exI (A:=RX)) tt 0 1 exI_runnable half_rng_range half_rng_pos) as (st & o & E).
  apply run_model_inv in E as (m & np & st1 & o0 & o1 & Ec & Ew & Eu & _).
  cbn [updates] in Eu. apply rbind_Ok in Eu as ([st2 o2] & Eu & _).
  exists (mkModel (m_in m) (m_P m) st1 false), (mkModel (m_in m) (m_P m) st2 false), o2. split; [|reflexivity].
  econstructor. { apply update_returns. unfold model_update. cbn [m_finalized m_P m_st]. rewrite Eu. reflexivity. }
  econstructor. { apply finalize_returns. reflexivity. }
  econstructor. { apply update_refused; reflexivity. }
  constructor.
Qed.

(** ** C35 *)
(** Any checkpoint written by a run can be resumed, with the output file
    present or missing, and the resumed model then follows the uninterrupted
    one: after any number of further updates both fail in the same way or
    show the same fields, clock and random state.  For every arithmetic,
    random generator and configuration whose save interval is a number. *)
Theorem C35_resume_continues_the_trajectory :
  forall (F : Type) (A : Arith F) (S N : Type) (G : Rng F S) (GN : NpRng N) (c : inputs F) nb np k st o ck nb' np' missing,
    run_model (G:=G) (GN:=GN) c nb np k = Ok (st, o) -> In (Checkpoint ck) o -> fnan (i_save_dt c) = false ->
    exists r np2, resume (GN:=GN) c ck missing nb' np' = Ok (r, np2) /\ m_finalized r = false /\
      forall n, alike (fun x y => same_point (fst x) (fst y))
        (run_model (G:=G) (GN:=GN) c nb np (Z.to_nat (c_time_iter ck) + n)) (updates (m_P r) n (m_st r)).
Proof. intros F A S N G GN c nb np k st o ck nb' np' missing. exact (resumed_run c nb np k st o ck nb' np' missing). Qed.
Print Assumptions C35_resume_continues_the_trajectory.

(** The checkpoint of a run shows the run after the number of updates it
    names. *)
Theorem C35_checkpoint_of_a_run :
  forall (F : Type) (A : Arith F) (S N : Type) (G : Rng F S) (GN : NpRng N) (c : inputs F) nb np k st o ck,
    run_model (G:=G) (GN:=GN) c nb np k = Ok (st, o) -> In (Checkpoint ck) o ->
    exists x ox, 0 <= c_time_iter ck <= Z.of_nat k /\
      run_model (G:=G) (GN:=GN) c nb np (Z.to_nat (c_time_iter ck)) = Ok (x, ox) /\ ck = save_the_checkpoint x.
Proof. intros F A S N G GN c nb np k st o ck. exact (run_checkpoint c nb np k st o ck). Qed.
Print Assumptions C35_checkpoint_of_a_run.

(** ** C36 *)
(** When the time since the last record is a whole number of seconds, a
    resumed run writes the records of the uninterrupted run: same indices
    (counted from zero again when the file was missing), times and contents. *)
Theorem C36_same_records_when_whole :
  forall (F : Type) (A : Arith F) (S N : Type) (G : Rng F S) (GN : NpRng N) (c : inputs F) nb np k st o ck x nb' np' missing,
    run_model (G:=G) (GN:=GN) c nb np k = Ok (st, o) -> In (Checkpoint ck) o -> fnan (i_save_dt c) = false ->
    c_save_time_since_data ck = Fin x -> fz (ftrunc x) = x ->
    exists r np2 ox, resume (GN:=GN) c ck missing nb' np' = Ok (r, np2) /\
      rmap snd (run_model (G:=G) (GN:=GN) c nb np (Z.to_nat (c_time_iter ck))) = Ok ox /\
      forall n, alike (fun a b => exists oa, snd a = ox ++ oa /\
          Forall2 (same_record (if missing then c_save_iter ck else 0)) (shown_records oa) (shown_records (snd b)))
        (run_model (G:=G) (GN:=GN) c nb np (Z.to_nat (c_time_iter ck) + n)) (updates (m_P r) n (m_st r)).
Proof. intros F A S N G GN c nb np k st o ck x nb' np' missing. exact (resumed_records c nb np k st o ck x nb' np' missing). Qed.
Print Assumptions C36_same_records_when_whole.

(** The first update after a resume writes a checkpoint. *)
Theorem C36_first_update_writes_a_checkpoint :
  forall (F : Type) (A : Arith F) (S N : Type) (G : Rng F S) (GN : NpRng N) (c : inputs F) nb np k st o ck nb' np' missing r np2 st' o',
    run_model (G:=G) (GN:=GN) c nb np k = Ok (st, o) -> In (Checkpoint ck) o -> fnan (i_save_dt c) = false ->
    resume (GN:=GN) c ck missing nb' np' = Ok (r, np2) -> update (m_P r) (m_st r) = Ok (st', o') ->
    p_save_checkpoint (m_P r) = true -> fnan (p_checkpoint_dt (m_P r)) = false ->
    In (Checkpoint (save_the_checkpoint st')) o'.
Proof.
  intros F A S N G GN c nb np k st o ck nb' np' missing r np2 st' o'.
  exact (first_checkpoint c nb np k st o ck nb' np' missing r np2 st' o').
Qed.
Print Assumptions C36_first_update_writes_a_checkpoint.

(** In general the first record of a resumed run is never early, and with
    time steps of a second or more it is at most one step late. *)
Theorem C36_next_record_at_most_one_step_late :
  forall (S N : Type) (G : Rng R S) (GN : NpRng N) (c : inputs R) nb np k st o ck nb' np' missing r np2,
    run_model (A:=RX) (G:=G) (GN:=GN) c nb np k = Ok (st, o) -> In (Checkpoint ck) o -> (0 < i_u0 c)%R ->
    resume (A:=RX) (GN:=GN) c ck missing nb' np' = Ok (r, np2) ->
    exists ox, rmap snd (run_model (A:=RX) (G:=G) (GN:=GN) c nb np (Z.to_nat (c_time_iter ck))) = Ok ox /\
    forall n a oa, run_model (A:=RX) (G:=G) (GN:=GN) c nb np (Z.to_nat (c_time_iter ck) + n) = Ok (a, ox ++ oa) ->
      (forall b ob, updates (A:=RX) (m_P r) n (m_st r) = Ok (b, ob) -> records ob <> [] -> records oa <> []) /\
      ((1 <= p_dt (m_P r))%R -> records oa <> [] ->
       forall b ob, updates (A:=RX) (m_P r) (n + 1) (m_st r) = Ok (b, ob) -> records ob <> []).
Proof.
  intros S N G GN c nb np k st o ck nb' np' missing r np2 E H Hu Er. change RX with (RA (fun x => x)) in *.
  destruct (c_save_time_since_data ck) as [|x] eqn:Ex.
  { exfalso. apply resume_inv in Er as (m0 & _ & _ & _ & _ & El). unfold load_checkpoint in El. rewrite Ex in El. discriminate. }
  destruct (resumed_timing c nb np k st o ck nb' np' missing r np2 x E H Hu Ex Er) as (H0 & Hd & ox & Eo & HT).
  exists ox. split; [exact Eo|]. intros n a oa Ea.
  assert (Hf : (IZR (Ztrunc x) <= x < IZR (Ztrunc x) + 1)%R).
  { rewrite Ztrunc_floor by auto. split; [apply Zfloor_lb|apply Zfloor_ub]. }
  destruct (HT n) as [HT1 HT2]. specialize (HT1 a oa Ea). split.
  - intros b ob Eb Hb. specialize (HT2 b ob Eb). intros Ha. apply Hb. apply HT2. apply HT1 in Ha. destruct Ha; [auto|right; lra].
  - intros H1 Ha b ob Eb. destruct (HT (n + 1)%nat) as [_ HT3]. specialize (HT3 b ob Eb). rewrite HT3. intros K. apply Ha. apply HT1.
    right. destruct K as [K|K]; [lia|]. rewrite plus_INR in K. cbn [INR] in K. lra.
Qed.
Print Assumptions C36_next_record_at_most_one_step_late.

(** The default configuration with a velocity of 7 m/s (a time step of
    2142.86 s), saving every 4285.5 s with a checkpoint at every step. *)
Definition exD : inputs R := seti_save_dt (42855 / 10)%R (seti_checkpoint_dt (Some 1%R) (seti_u0 7%R (exI (A:=RX)))).
Lemma exD_runnable : runnable exD.
Proof.
  assert (accepted exD) by (constructor; cbn; try lra; try lia; intros t E; discriminate).
  constructor; auto; cbn; try lra; try lia; intros t E; discriminate.
Qed.
Lemma exD_step (m : model unit) np : construct (A:=RX) (G:=half_rng) (GN:=count_rng) exD tt 0 = Ok (m, np) ->
  p_dt (m_P m) = (15000 / 7)%R /\ p_save_dt (m_P m) = (42855 / 10)%R /\ p_checkpoint_dt (m_P m) = 1%R /\ p_save_checkpoint (m_P m) = true.
Proof.
  intros E. pose proof (construct_outcome (G:=half_rng) (GN:=count_rng) exD tt 0) as K. change RX with (RA (fun x => x)) in *. rewrite E in K.
  destruct K as (_ & _ & _ & z & _ & _ & _ & _ & HD & _).
  pose proof (de_cols _ _ HD) as [D2 _]. destruct (de_N0 _ _ HD) as (n & Dn & D4).
  assert (HW : p_W (m_P m) = 14).
  { apply (rounded_unique (700 / 50)%R); [exact D2|]. split; [|intros _; reflexivity]. replace (IZR 14 - 700 / 50)%R with 0%R by lra. rewrite Rabs_R0. lra. }
  assert (Hn : n = 4).
  { apply (rounded_unique (200 / 50)%R); [exact Dn|]. split; [|intros _; reflexivity]. replace (IZR 4 - 200 / 50)%R with 0%R by lra. rewrite Rabs_R0. lra. }
  rewrite HW, Hn in D4. change (Z.max 3 (Z.min 4 (14 / 4))) with 3 in D4.
  destruct (de_dt _ _ HD) as [_ Hdt]. rewrite D4 in Hdt. pose proof (de_copied _ _ HD) as HC. decompose [and] HC.
  split; [rewrite Hdt; cbn; lra|]. split; [auto|]. split; [exact (de_checkpoint_dt _ _ HD)|auto].
Qed.

(** A record can be one step late: after a checkpoint at the first step the
    uninterrupted run saves at the next step and the resumed run does not. *)
Theorem C36_record_can_be_late :
  exists c ck st1 o1 r np2, runnable c /\
    run_model (A:=RX) (G:=half_rng) (GN:=count_rng) c tt 0 1 = Ok (st1, o1) /\ In (Checkpoint ck) o1 /\ c_time_iter ck = 1 /\
    resume (A:=RX) (G:=half_rng) (GN:=count_rng) c ck false tt 0 = Ok (r, np2) /\
    (exists st2 o2, run_model (A:=RX) (G:=half_rng) (GN:=count_rng) c tt 0 2 = Ok (st2, o1 ++ o2) /\ records o2 <> []) /\
    (exists st2 o2, updates (A:=RX) (G:=half_rng) (m_P r) 1 (m_st r) = Ok (st2, o2) /\ records o2 = []).
Proof.
  change RX with (RA (fun x => x)).
  destruct (runnable_runs (G:=half_rng) (GN:=count_rng) exD tt 0 1 exD_runnable half_rng_range half_rng_pos) as (st1 & o1 & E1).
  destruct (runnable_runs (G:=half_rng) (GN:=count_rng) exD tt 0 2 exD_runnable half_rng_range half_rng_pos) as (st2 & o2 & E2).
  pose proof E1 as Ei. apply run_model_inv in Ei as (m & np & sta & oa & ob & Ec & Ew & Eu & Eo).
  destruct (exD_step m np Ec) as (Hdt & Hsv & Hcd & Hck).
  pose proof (construct_fresh (A:=RA (fun x => x)) exD tt 0 m np Ec) as (F1 & F2 & _).
  assert (Hs0 : s_save_time_since_data sta = Fin 0%R /\ s_save_time_since_checkpoint sta = Fin 0%R).
  { split.
    - apply write_records in Ew as (_ & [(_ & _ & _ & H3)|(H1 & _)]); [auto|]. rewrite F1 in H1. discriminate.
    - apply write_checkpoints in Ew as (_ & [(_ & _ & _ & H3)|(H1 & _)]); [auto|]. rewrite F2, Hck in H1. destruct H1; discriminate. }
  destruct Hs0 as [Hs0 Hc0]. cbn [updates] in Eu. apply rbind_Ok in Eu as ([stb oc] & Eu & Eu'). injection Eu' as -> <-.
  pose proof (since_keeps (m_P m) sta st1 oc Eu 0%R Hs0) as Hs1. rewrite Hdt, Hsv in Hs1.
  assert (Hs2 : s_save_time_since_data st1 = Fin (15000 / 7)%R).
  { destruct Hs1 as [(Hx & _)|(_ & _ & ->)]; [lra|]. f_equal. lra. }
  assert (Hin : In (Checkpoint (save_the_checkpoint st1)) o1).
  { pose proof (proj2 (written _ _ _ _ Eu)) as Hwr. apply advance_since in Eu as (st0 & Eu & _ & _ & _ & Hc1). rewrite Hc0 in Hc1. cbn in Hc1.
    apply write_checkpoints in Eu as (_ & [(_ & _ & Hk & _)|(Hk & _)]).
    - rewrite Eo, app_nil_r. apply in_or_app. right. clear -Hk Hwr.
      assert (Hex : exists c, In (Checkpoint c) oc).
      { clear Hwr. induction oc as [|[|c] oc IH]; cbn in *; [discriminate|destruct (IH Hk) as [c K]; eauto|eauto]. }
      destruct Hex as [c Hc]. rewrite <- (Hwr c Hc). exact Hc.
    - exfalso. rewrite Hck, Hc1, Hcd, Hdt in Hk. destruct Hk as [Hk|Hk]; [|discriminate]. apply ext_geb_Fin_f in Hk. lra. }
  pose proof (run_iter exD tt 0 1 st1 o1 E1) as Hit.
  destruct (resume_related exD tt 0 1 m np st1 o1 tt 0 false Ec E1 eq_refl) as (r & np2 & Er & HP & _ & HR & _ & _).
  exists exD, (save_the_checkpoint st1), st1, o1, r, np2.
  destruct (resumed_timing exD tt 0 1 st1 o1 (save_the_checkpoint st1) tt 0 false r np2 (15000 / 7)%R E1 Hin) as (_ & _ & ox & Eox & HT); auto.
  { cbn. lra. }
  cbn [c_time_iter save_the_checkpoint] in *. rewrite Hit in *. change (Z.to_nat (Z.of_nat 1)) with 1%nat in *.
  rewrite E1 in Eox. cbn in Eox. injection Eox as <-. destruct (HT 1%nat) as [T1 T2]. rewrite HP, Hdt, Hsv in T1, T2. cbn [INR] in T1, T2.
  split; [exact exD_runnable|]. split; [exact E1|]. split; [exact Hin|]. split; [reflexivity|]. split; [exact Er|].
  change 2%nat with (1 + 1)%nat in E2. rewrite (run_model_app exD tt 0 1 1 m np st1 o1 Ec E1) in E2.
  apply rbind_Ok in E2 as ([st3 o3] & E3 & E2). injection E2 as -> <-. split.
  - exists st2, o3. assert (E4 : run_model (A:=RA (fun x => x)) (G:=half_rng) (GN:=count_rng) exD tt 0 2 = Ok (st2, o1 ++ o3)).
    { change 2%nat with (1 + 1)%nat. rewrite (run_model_app exD tt 0 1 1 m np st1 o1 Ec E1), E3. reflexivity. }
    split; [exact E4|]. intros K. apply (T1 st2 o3 E4) in K. destruct K as [K|K]; [discriminate|lra].
  - pose proof (updates_alike (G:=half_rng) (m_P m) 0 1 _ _ HR) as K. rewrite E3 in K. rewrite <- HP in K.
    destruct (updates (G:=half_rng) (m_P r) 1 (m_st r)) as [[b ob']|] eqn:Eb; [|destruct K].
    exists b, ob'. split; [reflexivity|]. apply (T2 b ob'); [rewrite <- HP; exact Eb|]. right.
    assert (Ht : Ztrunc (15000 / 7) = 2142).
    { rewrite Ztrunc_floor by lra. apply Zfloor_imp. cbn. lra. }
    rewrite Ht. lra.
Qed.
Print Assumptions C36_record_can_be_late.

(** ** C45 *)
Theorem C45_round_trip :
  forall (F : Type) (A : Arith F) (S : Type) (s : setting) (x : F) (m m' : model (F:=F) S),
    assign s x m = Ok m' -> s <> ChannelWidth -> s <> Concentration -> read s m' = x.
Proof.
  intros F A S s x m m' E H1 H2. apply assign_read in E. destruct s; auto; congruence.
Qed.
Print Assumptions C45_round_trip.

Theorem C45_channel_width_rounded_and_clamped :
  forall (S N : Type) (G : Rng R S) (GN : NpRng N) (c : inputs R) x (m m' : model S),
    reached (A:=RX) (G:=G) (GN:=GN) c m -> assign (A:=RX) ChannelWidth x m = Ok m' ->
    exists n, rounded (x / i_dx c)%R n /\
      read (A:=RX) ChannelWidth m' = (IZR (Z.max 3 (Z.min n (p_W (m_P m) / 4))) * i_dx c)%R.
Proof. intros S N G GN c x m m'. exact (assign_width c x m m'). Qed.
Print Assumptions C45_channel_width_rounded_and_clamped.

(** The concentration attribute is set as a fraction and read in percent. *)
Theorem C45_concentration_reads_hundredfold :
  forall (S : Type) x (m m' : model S), assign (A:=RX) Concentration x m = Ok m' ->
    read (A:=RX) Concentration m' = (100 * x)%R /\ p_C0 (m_P m') = x.
Proof. intros S x m m'. exact (assign_concentration x m m'). Qed.
Print Assumptions C45_concentration_reads_hundredfold.

(** Setting one attribute leaves the others, except that the inlet attributes
    change the time step. *)
Theorem C45_other_attributes_unchanged :
  forall (S N : Type) (G : Rng R S) (GN : NpRng N) (c : inputs R) s t x (m m' : model S),
    reached (A:=RX) (G:=G) (GN:=GN) c m -> assign (A:=RX) s x m = Ok m' -> s <> t ->
    (t = TimeStep -> inlet_setting s = false) -> read (A:=RX) t m' = read (A:=RX) t m.
Proof. intros S N G GN c s t x m m'. exact (assign_others c s t x m m'). Qed.
Print Assumptions C45_other_attributes_unchanged.

Theorem C45_inlet_quantities_follow :
  forall (S N : Type) (G : Rng R S) (GN : NpRng N) (c : inputs R) s x (m m' : model S),
    reached (A:=RX) (G:=G) (GN:=GN) c m -> assign (A:=RX) s x m = Ok m' -> inlet_setting s = true ->
    inlet_consistent (m_in m') (m_P m').
Proof. intros S N G GN c s x m m' H E Hs. exact (proj1 (assign_consistent c s x m m' H E Hs)). Qed.
Print Assumptions C45_inlet_quantities_follow.

(** Which values are taken and how others are refused. *)
Theorem C45_values_taken :
  forall (S N : Type) (G : Rng R S) (GN : NpRng N) (c : inputs R) s x (m : model S),
    reached (A:=RX) (G:=G) (GN:=GN) c m ->
    (takes s x -> exists m', assign (A:=RX) s x m = Ok m') /\
    (out_of_range s x -> assign (A:=RX) s x m = Err ValueError) /\
    (zero_refused s x -> assign (A:=RX) s x m = Err ZeroDivisionError).
Proof. intros S N G GN c s x m. exact (assign_outcome c s x m). Qed.
Print Assumptions C45_values_taken.

(** Only the sea level attribute touches the fields. *)
Theorem C45_fields_unchanged :
  forall (F : Type) (A : Arith F) (S : Type) s x (m m' : model (F:=F) S), assign s x m = Ok m' ->
    m_st m' = (match s with SeaLevel => set_H_SL x (m_st m) | _ => m_st m end) /\ m_finalized m' = m_finalized m.
Proof. intros F A S s x m m'. exact (assign_state s x m m'). Qed.
Print Assumptions C45_fields_unchanged.

(** ** C29: attribute changes *)
Definition exS : inputs R := seti_toggle_subsidence true (exI (A:=RX)).
Lemma exS_runnable : runnable exS.
Proof.
  assert (accepted exS) by (constructor; cbn; try lra; try lia; intros t E; discriminate).
  constructor; auto; cbn; try lra; try lia; intros t E; discriminate.
Qed.
Lemma exS_new : exists m, reached (A:=RX) (G:=half_rng) (GN:=count_rng) exS m /\ m_finalized m = false /\
  exists m0 np, construct (A:=RX) (G:=half_rng) (GN:=count_rng) exS tt 0 = Ok (m0, np) /\ m_P m = m_P m0.
Proof.
  destruct (runnable_ready (G:=half_rng) (GN:=count_rng) exS tt 0 exS_runnable) as (m & np & E & _).
  change RX with (RA (fun x => x)).
  destruct (new_model (A:=RA (fun x => x)) (G:=half_rng) (GN:=count_rng) exS tt 0) as [[[m1 o] np1]|] eqn:En.
  - exists m1. split; [eapply reached_new; exact En|]. apply new_model_inv in En as (m0 & E0 & EP & _ & Ef & _). eauto 6.
  - unfold new_model in En. rewrite E in En. cbn [rbind] in En. destruct (write_output (m_P m) (m_st m)). discriminate.
Qed.

(** A new model subsides at the configured rate, and any sequence of updates
    and changes of the time step, sea level, sea-level rate and bedload
    fraction keeps the rate. *)
Theorem C29_rate_kept :
  forall (S N : Type) (G : Rng R S) (GN : NpRng N) (c : inputs R) nb np (m : model S) o np' l m',
    new_model (A:=RX) (G:=G) (GN:=GN) c nb np = Ok (m, o, np') -> i_toggle_subsidence c = true ->
    session (A:=RX) l m m' -> Forall gentle l -> rate_kept (i_subsidence_rate c) (m_P m').
Proof.
  intros S N G GN c nb np m o np' l m' E Ht Hs Hl. change RX with (RA (fun x => x)) in *.
  pose proof (reached_new c _ _ _ _ _ E) as HR. apply new_model_inv in E as (m0 & E0 & EP & _).
  destruct (fresh_rate c nb np m0 np' E0) as [Hd Hk]. apply (session_rate c l m m'); auto; rewrite EP; auto.
Qed.
Print Assumptions C29_rate_kept.

(** One assignment: the inlet attributes change the time step but not the
    amount subsided per step, so the rate changes by the inverse factor. *)
Theorem C29_rate_after_assignment :
  forall (S N : Type) (G : Rng R S) (GN : NpRng N) (c : inputs R) s x (m m' : model S) rate,
    reached (A:=RX) (G:=G) (GN:=GN) c m -> i_toggle_subsidence c = true -> rate_kept rate (m_P m) ->
    p_dt (m_P m) <> 0%R -> assign (A:=RX) s x m = Ok m' ->
    rate_kept (new_rate s rate (m_P m) (m_P m')) (m_P m').
Proof. intros S N G GN c s x m m' rate. exact (assign_rate c s x m m' rate). Qed.
Print Assumptions C29_rate_after_assignment.

(** The claim that attribute changes keep the rate fails: doubling the
    velocity of the example doubles the rate. *)
Theorem C29_velocity_keeps_rate_refuted :
  exists (c : inputs R) (m m' : model unit), reached (A:=RX) (G:=half_rng) (GN:=count_rng) c m /\ i_toggle_subsidence c = true /\
    rate_kept (i_subsidence_rate c) (m_P m) /\ assign (A:=RX) FlowVelocity (2 * read (A:=RX) FlowVelocity m)%R m = Ok m' /\
    rate_kept (2 * i_subsidence_rate c)%R (m_P m') /\ ~ rate_kept (i_subsidence_rate c) (m_P m').
Proof.
  change RX with (RA (fun x => x)).
  destruct exS_new as (m & HR & _ & m0 & np & Ec & EP). change RX with (RA (fun x => x)) in *.
  destruct (fresh_rate exS tt 0 m0 np Ec) as [Hd Hk]. specialize (Hk eq_refl). rewrite <- EP in Hd, Hk.
  pose proof (construct_outcome (G:=half_rng) (GN:=count_rng) exS tt 0) as K. rewrite Ec in K.
  destruct K as (_ & _ & _ & z & _ & _ & _ & _ & HD & _). rewrite <- EP in HD.
  assert (Hu : read (A:=RA (fun x => x)) FlowVelocity m = 1%R). { destruct (de_copied _ _ HD) as (_ & _ & Hu0 & _). exact Hu0. }
  destruct (assign_outcome exS FlowVelocity (2 * read (A:=RA (fun x => x)) FlowVelocity m)%R m HR) as [H1 _].
  destruct H1 as (m' & E). { cbn [takes]. rewrite Hu. lra. }
  exists exS, m, m'. split; [exact HR|]. split; [reflexivity|]. split; [exact Hk|]. split; [exact E|].
  pose proof (assign_rate exS _ _ _ _ _ HR eq_refl Hk Hd E) as K. cbn [new_rate inlet_setting] in K. unfold new_rate in K. cbn [inlet_setting] in K.
  destruct (assign_consistent exS _ _ _ _ HR E eq_refl) as [HI Hd'].
  assert (HN : p_N0 (m_P m') = p_N0 (m_P m)).
  { pose proof (reached_wired _ _ HR) as W. pose proof (reached_wired _ _ (reached_assign exS _ _ _ _ HR E)) as W'.
    rewrite (wi_width _ _ W), (wi_width _ _ W'). 
    assert (p_W (m_P m') = p_W (m_P m)) as -> by (eapply assign_untouched; [|exact E]; repeat split).
    cbn [assign] in E. apply set_velocity_inv in E as [_ E]. apply rebuild_inv in E as (P' & _ & ->). reflexivity. }
  assert (Hin : i_u0 (m_in m') = 2%R /\ i_h0 (m_in m') = 5%R /\ i_dx (m_in m') = 50%R /\ i_C0_percent (m_in m') = (1 / 10)%R).
  { pose proof (assign_others exS FlowVelocity Concentration _ m m' HR E ltac:(discriminate) ltac:(discriminate)) as C1.
    pose proof (assign_read FlowVelocity _ m m' E) as C2. cbn [read] in C1, C2.
    pose proof (reached_wired _ _ (reached_assign exS _ _ _ _ HR E)) as W'. destruct (wi_build _ _ W') as [(B1 & _) _ _ _ _ (B2 & B3) _].
    pose proof (assign_others exS FlowVelocity FlowDepth _ m m' HR E ltac:(discriminate) ltac:(discriminate)) as C3. cbn [read] in C3.
    unfold get_channel_flow_velocity in *. unfold get_channel_flow_depth in C3. unfold get_influx_sediment_concentration in C1.
    destruct (de_copied _ _ HD) as (_ & Hh & _). rewrite <- B2, <- B3, C2, C3, B1. cbn [read] in Hu. unfold get_channel_flow_velocity in Hu. rewrite Hu.
    pose proof (reached_wired _ _ HR) as W. pose proof (wi_C0 _ _ W) as Wc. pose proof (de_C0 _ _ HD) as Dc.
    split; [lra|]. split; [rewrite Hh; reflexivity|]. split; [reflexivity|]. rewrite C1. rewrite Wc in Dc. cbn in Dc. lra. }
  destruct Hin as (I1 & I2 & I3 & I4).
  assert (Hdt : p_dt (m_P m) = (2 * p_dt (m_P m'))%R).
  { pose proof (ic_step _ _ HI) as S1. destruct (ic_sediment _ _ HI) as (_ & S2 & _). destruct (ic_water _ _ HI) as (S3 & S4 & _).
    pose proof (ic_volume _ _ HI) as S5. pose proof (ic_concentration _ _ HI) as S6. rewrite S2, S4, S3, S5, S6, I1, I2, I3, I4, HN in S1.
    destruct (de_dt _ _ HD) as [_ T1]. destruct (de_N0 _ _ HD) as (n & _ & Kn). assert (3 <= p_N0 (m_P m)) by lia.
    assert (0 < IZR (p_N0 (m_P m)))%R by (apply IZR_lt; lia).
    rewrite mult_IZR in S1. cbn in T1. rewrite T1.
    apply (Rmult_eq_reg_r (IZR (p_N0 (m_P m)))); [|lra]. lra. }
  assert (K2 : rate_kept (2 * i_subsidence_rate exS)%R (m_P m')).
  { replace (2 * i_subsidence_rate exS)%R with (i_subsidence_rate exS * p_dt (m_P m) / p_dt (m_P m'))%R by (rewrite Hdt; field; exact Hd'). exact K. }
  split; [exact K2|]. intros K3. specialize (K2 (p_L0 (m_P m')) 0). specialize (K3 (p_L0 (m_P m')) 0). rewrite K2 in K3.
  unfold lowering in K3. rewrite Z.ltb_irrefl in K3. apply Rmult_eq_reg_r in K3; [|exact Hd']. cbn in K3. lra.
Qed.
Print Assumptions C29_velocity_keeps_rate_refuted.

(** ** C57 *)
(** Whatever attributes are set, the thresholds for erosion and deposition
    stay those of the configured velocity, and the basin depth, active layer,
    inlet cells and cell types stay those of the new model. *)
Theorem C57_values_no_attribute_updates :
  forall (S N : Type) (G : Rng R S) (GN : NpRng N) (c : inputs R) (m : model S) nb np m0 np',
    construct (A:=RX) (G:=G) (GN:=GN) c nb np = Ok (m0, np') -> reached (A:=RX) (G:=G) (GN:=GN) c m ->
    p_U_dep_mud (m_P m) = (i_coeff_U_dep_mud c * i_u0 c)%R /\ p_U_ero_mud (m_P m) = (i_coeff_U_ero_mud c * i_u0 c)%R /\
    p_U_ero_sand (m_P m) = (i_coeff_U_ero_sand c * i_u0 c)%R /\
    p_hb (m_P m) = p_hb (m_P m0) /\ p_active_layer_thickness (m_P m) = p_active_layer_thickness (m_P m0) /\
    p_inlet (m_P m) = p_inlet (m_P m0) /\ s_cell_type (m_st m) = s_cell_type (m_st m0).
Proof. intros S N G GN c m nb np m0 np'. exact (reached_stale c m nb np m0 np'). Qed.
Print Assumptions C57_values_no_attribute_updates.

(** Water and sediment keep entering through as many cells as the configured
    channel has, however the channel width is changed. *)
Theorem C57_inlet_cells_as_configured :
  forall (S N : Type) (G : Rng R S) (GN : NpRng N) (c : inputs R) nb np (m0 : model S) np' m,
    construct (A:=RX) (G:=G) (GN:=GN) c nb np = Ok (m0, np') -> 5 <= p_W (m_P m0) ->
    reached (A:=RX) (G:=G) (GN:=GN) c m -> Z.of_nat (length (p_inlet (m_P m))) = p_N0 (m_P m0).
Proof. intros S N G GN c nb np m0 np' m. exact (inlet_cells c nb np m0 np' m). Qed.
Print Assumptions C57_inlet_cells_as_configured.

(** After the time step is set, the sediment volume fed in a step is the feed
    rate times the time step only if the time step did not change. *)
Theorem C57_time_step_and_sediment_feed :
  forall (S : Type) (c : inputs R) x (m m' : model S), inlet_consistent c (m_P m) -> p_Qs0 (m_P m) <> 0%R ->
    assign (A:=RX) TimeStep x m = Ok m' ->
    (IZR (p_Np_sed (m_P m')) * p_Vp_sed (m_P m') = read (A:=RX) TimeStep m' * p_Qs0 (m_P m') <-> x = read (A:=RX) TimeStep m)%R.
Proof.
  intros S c x m m' HI HQ E. apply time_step_stale in E as (E1 & E2 & E3 & E4 & E5 & E6). cbn [read]. unfold get_time_step.
  destruct (ic_sediment _ _ HI) as (_ & _ & H1). pose proof (ic_step _ _ HI) as H2. rewrite E6, E2, H1, E1, E4, <- H2. split.
  - intros K. apply Rmult_eq_reg_r in K; auto.
  - intros ->. reflexivity.
Qed.
Print Assumptions C57_time_step_and_sediment_feed.

(** The bedload fraction attribute does not reach the sediment router, which
    keeps the previous value until an inlet attribute or the time step is
    set. *)
Theorem C57_bedload_fraction_not_passed_on :
  forall (S : Type) x (m m' : model S), assign (A:=RX) BedloadFraction x m = Ok m' ->
    p_f_bedload (m_P m') = x /\ p_f_bedload_router (m_P m') = p_f_bedload_router (m_P m).
Proof. intros S x m m'. exact (bedload_stale x m m'). Qed.
Print Assumptions C57_bedload_fraction_not_passed_on.

(** A reached model on which every attribute can be set, for C45, C29, C57. *)
Example C45_C57_hypotheses : exists m : model unit, reached (A:=RX) (G:=half_rng) (GN:=count_rng) exS m /\
  (forall s, exists m', assign (A:=RX) s (1 / 2)%R m = Ok m') /\
  (exists m0 np, construct (A:=RX) (G:=half_rng) (GN:=count_rng) exS tt 0 = Ok (m0, np) /\ 5 <= p_W (m_P m0)) /\
  (exists m1 m', assign (A:=RX) FlowVelocity 3%R m = Ok m1 /\ inlet_consistent (m_in m1) (m_P m1) /\ p_Qs0 (m_P m1) <> 0%R /\
     assign (A:=RX) TimeStep 1000%R m1 = Ok m') /\
  session (A:=RX) (G:=half_rng) [] m m /\ gentle (TimeStep, 1000%R).
Proof.
  change RX with (RA (fun x => x)). destruct exS_new as (m & HR & _ & m0 & np & Ec & EP). change RX with (RA (fun x => x)) in *.
  exists m. split; [exact HR|]. split.
  { intros s. apply (proj1 (assign_outcome exS s (1 / 2)%R m HR)). destruct s; cbn; auto; lra. }
  split. { exists m0, np. split; [exact Ec|]. pose proof (construct_outcome (G:=half_rng) (GN:=count_rng) exS tt 0) as K. rewrite Ec in K.
    destruct K as (_ & _ & _ & z & _ & _ & _ & _ & HD & _). apply (rounded_ge (700 / 50)%R); [exact (proj1 (de_cols _ _ HD))|]. lra. }
  split. { destruct (proj1 (assign_outcome exS FlowVelocity 3%R m HR)) as (m1 & E); [cbn; lra|].
    exists m1. destruct (assign_consistent exS _ _ _ _ HR E eq_refl) as [HI Hd].
    destruct (proj1 (assign_outcome exS TimeStep 1000%R m1 (reached_assign exS _ _ _ _ HR E)) Logic.I) as (m2 & E2).
    exists m2. split; [exact E|]. split; [exact HI|]. split; [|exact E2]. intros HQ.
    pose proof (reached_wired _ _ (reached_assign exS _ _ _ _ HR E)) as [[_ B1 B2 B3 B4 _ _] _ _ _ _ _ _ _].
    pose proof (ic_step _ _ HI) as K. rewrite HQ, Rmult_0_r, (ic_volume _ _ HI) in K.
    destruct (ic_width _ _ HI) as (n & _ & Kn). assert (3 <= p_N0 (m_P m1)) by lia. pose proof (passes_ge (p_N0 (m_P m1)) H).
    symmetry in K. apply Rmult_integral in K as [K|K]; [lra|]. apply Rmult_integral in K as [K|K]; [contradiction|].
    apply Rmult_integral in K. lra. }
  split; [constructor|]. split; [reflexivity|]. cbn. intros _. lra.
Qed.
