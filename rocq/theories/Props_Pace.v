(** Property C83 (speed of the water and concentration of the sediment set the
    pace of a run).  Exact real arithmetic. *)
From Coq Require Import ZArith List Bool Reals Lra Lia.
From Verif Require Import Base RLemmas Shared Params State Inputs Iter IterSpec Init InitSpec InitProofs Water Sed
  QuietSpec QuietProofs PaceSpec PaceProofs PaceSed PaceInit PaceStart MirrorFlow Examples Props_Init.
Import ListNotations.
Local Open Scope R_scope.

(** Any model in any state: water [a] times as fast and sediment [b] times as
    fast make the same delta, update by update, with the same random numbers,
    the same exceptions and the same records and checkpoints, the clock
    running [b] times as slow. *)
Theorem C83_any_model :
  forall (S : Type) (G : Rng R S) (a b : R) (P : params R) (n : nat) (st : state R S),
    0 < a -> 0 < b ->
    updates (A:=RX) (paced_params a b P) n (paced a b st) = paced_result a b (updates (A:=RX) P n st).
Proof. intros S G a b P n st Ha Hb. now apply updates_paced. Qed.
Print Assumptions C83_any_model.

(** The constants and first fields of the model made from the configuration at
    another pace are those of the model at that pace.  The inlet speed may
    only be changed when the bed has no slope. *)
Theorem C83_models :
  forall (S N : Type) (G : Rng R S) (GN : NpRng N) (a b : R) (c : inputs R) (nb : S) (np : N),
    0 < a -> 0 < b -> i_S0 c = 0 \/ a = 1 ->
    construct (A:=RX) (paced_config a b c) nb np
    = match construct (A:=RX) c nb np with
      | Ok (m, np') => Ok (paced_model a b m, np')
      | Err e => Err e
      end.
Proof.
  intros S N G GN a b c nb np Ha Hb HS. change RX with XA. rewrite construct_pace by assumption.
  now destruct (construct (A:=XA) c nb np) as [[m np'] | e].
Qed.
Print Assumptions C83_models.

(** Whole runs from the configuration. *)
Theorem C83_runs :
  forall (S N : Type) (G : Rng R S) (GN : NpRng N) (a b : R) (c : inputs R) (nb : S) (np : N) (n : nat),
    0 < a -> 0 < b -> i_S0 c = 0 \/ a = 1 ->
    run_model (A:=RX) (GN:=GN) (paced_config a b c) nb np n
    = paced_result a b (run_model (A:=RX) (GN:=GN) c nb np n).
Proof. intros S N G GN a b c nb np n Ha Hb HS. change RX with XA. now apply run_model_pace. Qed.
Print Assumptions C83_runs.

(** The concentration alone: without sea-level rise and subsidence, [k] times
    the concentration makes the same delta after every update, carries [k]
    times the sand flux, and needs a [k]-th of the time for it. *)
Theorem C83_concentration_alone :
  forall (S N : Type) (G : Rng R S) (GN : NpRng N) (k : R) (c : inputs R) (nb : S) (np : N) (n : nat),
    0 < k -> i_SLR c = 0 -> i_toggle_subsidence c = false ->
    match run_model (A:=RX) (GN:=GN) c nb np n,
          run_model (A:=RX) (GN:=GN) (seti_C0_percent (k * i_C0_percent c) c) nb np n with
    | Ok (st, _), Ok (st', _) =>
        s_time st' = s_time st / k /\ (forall i j, s_qs st' i j = k * s_qs st i j) /\
        (forall i j, s_eta st' i j = s_eta st i j /\ s_depth st' i j = s_depth st i j /\
           s_stage st' i j = s_stage st i j /\ s_sand_frac st' i j = s_sand_frac st i j /\
           s_ux st' i j = s_ux st i j /\ s_uy st' i j = s_uy st i j /\ s_uw st' i j = s_uw st i j /\
           s_qx st' i j = s_qx st i j /\ s_qy st' i j = s_qy st i j /\ s_qw st' i j = s_qw st i j /\
           s_cell_type st' i j = s_cell_type st i j) /\
        s_H_SL st' = s_H_SL st /\ s_time_iter st' = s_time_iter st /\ s_rng st' = s_rng st
    | Err e, Err e' => e' = e
    | _, _ => False
    end.
Proof.
  intros S N G GN k c nb np n Hk H1 H2.
  set (d := seti_start_subsidence (i_start_subsidence c / k)
              (seti_subsidence_rate (k * i_subsidence_rate c) (seti_C0_percent (k * i_C0_percent c) c))).
  assert (Ed : run_model (A:=RX) (GN:=GN) (seti_C0_percent (k * i_C0_percent c) c) nb np n = run_model (A:=RX) (GN:=GN) d nb np n).
  { symmetry. change RX with XA. unfold d. rewrite run_model_start by exact H2. apply run_rate. exact H2. }
  assert (Hd : same_inputs (paced_config 1 k c) d).
  { unfold same_inputs, d, paced_config. rewrite H1. rewrite Rmult_1_l, Rmult_0_r.
    unfold Rdiv. rewrite Rinv_1, Rmult_1_r.
    clear - H1. destruct c. cbn in *. subst. reflexivity. }
  rewrite Ed. clearbody d. clear Ed H1 H2.
  pose proof (run_quiet (A:=XA) (G:=G) (GN:=GN) (paced_config 1 k c) d nb np n Hd) as K.
  rewrite run_model_pace in K by (auto; lra). change RX with XA.
  destruct (run_model (A:=XA) (GN:=GN) c nb np n) as [[st o] | e]; destruct (run_model (A:=XA) (GN:=GN) d nb np n) as [[st' o'] | e'];
    cbn [paced_result same_outcome] in K; try contradiction; [| now symmetry].
  unfold same_state in K. cbn [fst] in K. unfold same_but_counters in K.
  split; [| split; [| split; [| split; [| split]]]].
  - symmetry. exact (f_equal s_time K).
  - intros i j. symmetry. exact (f_equal (fun x => s_qs x i j) K).
  - intros i j.
    assert (Z : forall g : grid R, scaled 1 g i j = g i j) by (intros g; unfold scaled; ring).
    repeat split; symmetry.
    + exact (f_equal (fun x => s_eta x i j) K).
    + exact (f_equal (fun x => s_depth x i j) K).
    + exact (f_equal (fun x => s_stage x i j) K).
    + exact (f_equal (fun x => s_sand_frac x i j) K).
    + rewrite <- Z. exact (f_equal (fun x => s_ux x i j) K).
    + rewrite <- Z. exact (f_equal (fun x => s_uy x i j) K).
    + rewrite <- Z. exact (f_equal (fun x => s_uw x i j) K).
    + rewrite <- Z. exact (f_equal (fun x => s_qx x i j) K).
    + rewrite <- Z. exact (f_equal (fun x => s_qy x i j) K).
    + rewrite <- Z. exact (f_equal (fun x => s_qw x i j) K).
    + exact (f_equal (fun x => s_cell_type x i j) K).
  - symmetry. exact (f_equal s_H_SL K).
  - symmetry. exact (f_equal s_time_iter K).
  - symmetry. exact (f_equal s_rng K).
Qed.
Print Assumptions C83_concentration_alone.

(** On a sloping bed the speed of the water does more than set the pace: the
    weight given to the slope of the water surface falls with its square. *)
Theorem C83_speed_on_a_slope :
  forall (S N : Type) (G : Rng R S) (GN : NpRng N) (a b : R) (c : inputs R) (nb : S) (np np1 np2 : N) (m m' : model S),
    0 < a -> 0 < b -> i_S0 c <> 0 -> a <> 1 ->
    construct (A:=RX) c nb np = Ok (m, np1) -> construct (A:=RX) (paced_config a b c) nb np = Ok (m', np2) ->
    p_gamma (m_P m') = p_gamma (m_P m) / (a * a) /\ p_gamma (m_P m') <> p_gamma (m_P m).
Proof.
  intros S N G GN a b c nb np np1 np2 m m' Ha Hb HS Ha1 E E'. change RX with XA in *.
  pose proof (construct_outcome (G:=G) c nb np) as H. rewrite E in H.
  pose proof (construct_outcome (G:=G) (paced_config a b c) nb np) as H'. rewrite E' in H'.
  destruct H as (HA & HV & _ & z & _ & _ & _ & _ & HD & _). destruct H' as (_ & _ & _ & z' & _ & _ & _ & _ & HD' & _).
  apply de_gamma in HD. apply de_gamma in HD'. rewrite gi_S0, gi_dx, gi_u0 in HD'.
  assert (Hu : i_u0 c <> 0) by (intros K; apply HV; left; exact K).
  destruct (ac_dx c HA) as [Hdx _].
  assert (Eg : p_gamma (m_P m') = p_gamma (m_P m) / (a * a)) by (rewrite HD, HD'; field; lra).
  split; [exact Eg |]. rewrite Eg. intros K.
  assert (Hg : p_gamma (m_P m) <> 0).
  { rewrite HD. intros Z. apply (Rmult_eq_compat_r (i_u0 c * i_u0 c)) in Z. 
    replace (981 / 100 * i_S0 c * i_dx c / (i_u0 c * i_u0 c) * (i_u0 c * i_u0 c)) with (981 / 100 * i_S0 c * i_dx c) in Z by (field; assumption).
    assert (i_S0 c * i_dx c = 0) as Z' by lra. apply Rmult_integral in Z'. destruct Z'; lra. }
  assert (K' : p_gamma (m_P m) * (a * a - 1) = 0).
  { apply (Rmult_eq_compat_r (a * a)) in K.
    replace (p_gamma (m_P m) / (a * a) * (a * a)) with (p_gamma (m_P m)) in K by (field; lra). lra. }
  apply Rmult_integral in K'. destruct K' as [K' | K']; [contradiction |]. nra.
Qed.
Print Assumptions C83_speed_on_a_slope.

(** The example configuration meets the hypotheses: its runs complete, at
    three times the pace of the sediment, and with the concentration alone
    raised (there is no sea-level rise and no subsidence). *)
Example C83_hypotheses :
  (exists st o, run_model (A:=RX) (G:=half_rng) (GN:=count_rng) (exI (A:=RX)) tt 0%Z 4 = Ok (st, o) /\
     run_model (A:=RX) (G:=half_rng) (GN:=count_rng) (paced_config 1 3 (exI (A:=RX))) tt 0%Z 4
     = Ok (paced 1 3 st, map (paced_output 1 3) o)) /\
  i_SLR (exI (A:=RX)) = 0 /\ i_toggle_subsidence (exI (A:=RX)) = false /\
  exists st' o', run_model (A:=RX) (G:=half_rng) (GN:=count_rng)
     (seti_C0_percent (3 * i_C0_percent (exI (A:=RX))) (exI (A:=RX))) tt 0%Z 4 = Ok (st', o').
Proof.
  destruct (C56_runnable_configurations_run unit Z half_rng count_rng (exI (A:=RX)) tt 0%Z 4 exI_runnable half_rng_range half_rng_pos)
    as (st & o & E).
  split; [| split; [reflexivity | split; [reflexivity |]]].
  - exists st, o. split; [exact E |]. rewrite C83_runs by (try lra; right; reflexivity). rewrite E. reflexivity.
  - assert (K := C83_concentration_alone unit Z half_rng count_rng 3 (exI (A:=RX)) tt 0%Z 4 ltac:(lra) eq_refl eq_refl).
    rewrite E in K.
    destruct (run_model (A:=RX) (G:=half_rng) (GN:=count_rng) (seti_C0_percent (3 * i_C0_percent (exI (A:=RX))) (exI (A:=RX))) tt 0%Z 4)
      as [[st' o'] | e]; [now exists st', o' | contradiction].
Qed.

(** A flat bed, the water twice as fast and the sediment three times. *)
Definition flat : inputs R := seti_S0 0 (exI (A:=RX)).
Lemma flat_runnable : runnable flat.
Proof.
  assert (K : accepted flat) by (constructor; cbn; try lra; try lia; intros t E; discriminate).
  constructor; try exact K; cbn; try lra; try lia. intros x E. discriminate.
Qed.
Example C83_flat : exists st o,
  run_model (A:=RX) (G:=half_rng) (GN:=count_rng) flat tt 0%Z 4 = Ok (st, o) /\
  run_model (A:=RX) (G:=half_rng) (GN:=count_rng) (paced_config 2 3 flat) tt 0%Z 4
  = Ok (paced 2 3 st, map (paced_output 2 3) o).
Proof.
  destruct (C56_runnable_configurations_run unit Z half_rng count_rng flat tt 0%Z 4 flat_runnable half_rng_range half_rng_pos)
    as (st & o & E).
  exists st, o. split; [exact E |]. rewrite C83_runs by (try lra; left; reflexivity). rewrite E. reflexivity.
Qed.
(** A sloping bed, the water twice as fast: both models can be made. *)
Example C83_slope : exists m np1 m' np2,
  i_S0 (exI (A:=RX)) <> 0 /\
  construct (A:=RX) (G:=half_rng) (GN:=count_rng) (exI (A:=RX)) tt 0%Z = Ok (m, np1) /\
  construct (A:=RX) (G:=half_rng) (GN:=count_rng) (paced_config 2 1 (exI (A:=RX))) tt 0%Z = Ok (m', np2).
Proof.
  destruct (runnable_ready (G:=half_rng) (GN:=count_rng) (exI (A:=RX)) tt 0%Z exI_runnable) as (m & np1 & E & _).
  assert (K : accepted (paced_config 2 1 (exI (A:=RX)))) by (constructor; cbn; try lra; try lia; intros t Et; discriminate).
  assert (K' : runnable (paced_config 2 1 (exI (A:=RX)))).
  { constructor; try exact K; cbn; try lra; try lia. intros x Ex. discriminate. }
  destruct (runnable_ready (G:=half_rng) (GN:=count_rng) (paced_config 2 1 (exI (A:=RX))) tt 0%Z K') as (m' & np2 & E' & _).
  exists m, np1, m', np2. split; [cbn; lra |]. split; [exact E | exact E'].
Qed.
