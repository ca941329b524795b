(** Property C86 (horizontal distances set the scale of a delta).  Exact real
    arithmetic. *)
From Coq Require Import ZArith List Bool Reals Lra Lia.
From Verif Require Import Base RLemmas Shared Params State Inputs Iter IterSpec Init InitSpec InitProofs Water Sed
  VecLemmas PaceSpec PaceProofs WiderSpec WiderProofs WiderInit Examples Props_Init.
Import ListNotations.
Local Open Scope R_scope.

(** Any model in any state: on cells [k] times as wide the same delta grows,
    update by update, with the same random numbers, the same exceptions and the
    same records and checkpoints, in [k] times the time. *)
Theorem C86_any_model :
  forall (S : Type) (G : Rng R S) (k : R) (P : params R) (n : nat) (st st' : state R S),
    0 < k -> wider k st st' ->
    wider_result k (updates (A:=RX) P n st) (updates (A:=RX) (wider_params k P) n st').
Proof. intros S G k P n st st' Hk H. change RX with XA. now apply updates_wider. Qed.
Print Assumptions C86_any_model.

(** The model made from the configuration on wider cells has these constants
    and fields; it starts with the same sand fractions. *)
Theorem C86_models :
  forall (S N : Type) (G : Rng R S) (GN : NpRng N) (k : R) (c : inputs R) (nb : S) (np : N),
    0 < k ->
    match construct (A:=RX) c nb np, construct (A:=RX) (wider_config k c) nb np with
    | Ok (m, np1), Ok (m', np1') =>
        np1' = np1 /\ m_in m' = wider_config k (m_in m) /\ m_P m' = wider_params k (m_P m) /\
        wider k (m_st m) (m_st m') /\ s_sand_frac (m_st m') = s_sand_frac (m_st m) /\
        s_active_layer (m_st m') = s_active_layer (m_st m)
    | Err e, Err e' => e' = e
    | _, _ => False
    end.
Proof.
  intros S N G GN k c nb np Hk. change RX with XA. rewrite (construct_wider k Hk c nb np).
  destruct (construct (A:=XA) c nb np) as [[m np1] | e]; cbn [rmp fst snd]; [| reflexivity].
  cbn [widen_model m_in m_P m_st]. repeat split.
Qed.
Print Assumptions C86_models.

(** Whole runs from the configuration. *)
Theorem C86_runs :
  forall (S N : Type) (G : Rng R S) (GN : NpRng N) (k : R) (c : inputs R) (nb : S) (np : N) (n : nat),
    0 < k ->
    wider_result k (run_model (A:=RX) (GN:=GN) c nb np n) (run_model (A:=RX) (GN:=GN) (wider_config k c) nb np n).
Proof. intros S N G GN k c nb np n Hk. change RX with XA. now apply run_model_wider. Qed.
Print Assumptions C86_runs.

(** The sand fractions stay the same too, as long as no cell received so
    little mud in the step that only one of the two volumes exceeds 10^-6. *)
Theorem C86_sand_fraction :
  forall (S : Type) (G : Rng R S) (k : R) (P : params R) (st st' st1 st1' : state R S) o o',
    0 < k -> wider k st st' ->
    s_sand_frac st' = s_sand_frac st -> s_active_layer st' = s_active_layer st ->
    update (A:=RX) P st = Ok (st1, o) -> update (A:=RX) (wider_params k P) st' = Ok (st1', o') ->
    (forall i j, 1 / 1000000 < s_Vp_dep_mud st1 i j <-> 1 / 1000000 < k * k * s_Vp_dep_mud st1 i j) ->
    s_sand_frac st1' = s_sand_frac st1 /\ s_active_layer st1' = s_active_layer st1.
Proof.
  intros S G k P st st' st1 st1' o o' Hk H Hf Hl E E' HV. change RX with XA in *.
  exact (sand_fraction_wider k Hk P st st' st1 st1' o o' H Hf Hl E E' HV).
Qed.
Print Assumptions C86_sand_fraction.

(** That exception is real: the composition of a step's deposit is taken over
    when its mud exceeds a fixed volume, whatever the size of the cells. *)
Definition little_mud (v : R) (st : state R unit) : state R unit :=
  set_Vp_dep_mud (fun _ _ => v) (set_Vp_dep_sand (fun _ _ => 0) (set_sand_frac (fun _ _ => 1) st)).
Theorem C86_sand_fraction_refuted :
  forall (P : params R) (st : state R unit),
    exists st1 st2 : state R unit,
      wider 2 st1 st2 /\ s_sand_frac st2 = s_sand_frac st1 /\ s_active_layer st2 = s_active_layer st1 /\
      s_eta0 st1 = s_eta st1 /\
      (forall i j, s_sand_frac (compute_sand_frac (A:=RX) P st1) i j = 1) /\
      (forall i j, s_sand_frac (compute_sand_frac (A:=RX) (wider_params 2 P) st2) i j = 0).
Proof.
  intros P st. change RX with XA.
  exists (little_mud (5 / 10000000) (set_eta0 (s_eta st) st)).
  exists (widen 2 (fun _ _ => 1) (s_active_layer st) (little_mud (5 / 10000000) (set_eta0 (s_eta st) st))).
  split; [apply widen_wider |]. split; [reflexivity |]. split; [reflexivity |]. split; [reflexivity |].
  assert (E : forall Q, existsb (fun c : Z * Z => fltb (Arith:=XA) (fsub (Arith:=XA) (s_eta st (fst c) (snd c)) (s_eta st (fst c) (snd c))) (fz (Arith:=XA) 0))
              (cells (p_L Q) (p_W (F:=R) Q)) = false).
  { intros Q. induction (cells (p_L Q) (p_W Q)) as [| x l IH]; [reflexivity |]. cbn [existsb]. rewrite IH, orb_false_r. ra.
    destruct (Rltb_spec (s_eta st (fst x) (snd x) - s_eta st (fst x) (snd x)) 0) as [K | K]; [exfalso; lra | reflexivity]. }
  split; intros i j; unfold compute_sand_frac; rewrite !gmemo_id.
  - cbn [little_mud set_sand_frac set_active_layer set_eta0 set_Vp_dep_mud set_Vp_dep_sand
      s_sand_frac s_active_layer s_eta s_eta0 s_Vp_dep_mud s_Vp_dep_sand]. rewrite E. ra. change (flit (A:=XA) 1 1000000) with (1 / 1000000).
    destruct (Rltb_spec 0 0) as [K | _]; [exfalso; lra |].
    destruct (Rltb_spec (1 / 1000000) (5 / 10000000)) as [K | _]; [exfalso; lra | reflexivity].
  - cbn [widen little_mud set_sand_frac set_active_layer set_eta0 set_Vp_dep_mud set_Vp_dep_sand
      s_sand_frac s_active_layer s_eta s_eta0 s_Vp_dep_mud s_Vp_dep_sand]. unfold scaled. rewrite E. ra. change (flit (A:=XA) 1 1000000) with (1 / 1000000).
    destruct (Rltb_spec 0 (2 * 2 * 0)) as [K | _]; [exfalso; lra |].
    destruct (Rltb_spec (1 / 1000000) (2 * 2 * (5 / 10000000))) as [_ | K]; [| exfalso; lra]. cbn [orb]. field.
Qed.
Print Assumptions C86_sand_fraction_refuted.

(** Heights do not scale like this: the depth below which a cell counts as
    dry is 0.1 m for every channel deeper than 1 m. *)
Theorem C86_heights_refuted :
  forall (S N : Type) (G : Rng R S) (GN : NpRng N) (a h : R) (c : inputs R) (nb : S) (np np1 np2 : N) (m m' : model S),
    1 < a -> 1 <= i_h0 c -> h = a * i_h0 c ->
    construct (A:=RX) c nb np = Ok (m, np1) -> construct (A:=RX) (seti_h0 h c) nb np = Ok (m', np2) ->
    p_h0 (m_P m') = a * p_h0 (m_P m) /\ p_dry_depth (m_P m') = p_dry_depth (m_P m).
Proof.
  intros S N G GN a h c nb np np1 np2 m m' Ha Hh Eh E E'. change RX with XA in *.
  pose proof (construct_outcome (G:=G) c nb np) as H. rewrite E in H.
  pose proof (construct_outcome (G:=G) (seti_h0 h c) nb np) as H'. rewrite E' in H'.
  destruct H as (HA & HV & _ & z & _ & _ & _ & _ & HD & _). destruct H' as (_ & _ & _ & z' & _ & _ & _ & _ & HD' & _).
  pose proof (de_dry _ _ HD) as D. pose proof (de_dry _ _ HD') as D'.
  cbn [seti_h0 i_h0] in D'. 
  split.
  - destruct (de_copied _ _ HD) as (_ & C1 & _). destruct (de_copied _ _ HD') as (_ & C2 & _).
    rewrite C1, C2. exact Eh.
  - rewrite D, D'. rewrite !Rmin_left; [reflexivity | lra |]. nra.
Qed.
Print Assumptions C86_heights_refuted.

(** The example configuration: its run completes, and on cells twice as wide
    it is the same delta in twice the time. *)
Example C86_hypotheses :
  exists st o st' o',
    run_model (A:=RX) (G:=half_rng) (GN:=count_rng) (exI (A:=RX)) tt 0%Z 4 = Ok (st, o) /\
    run_model (A:=RX) (G:=half_rng) (GN:=count_rng) (wider_config 2 (exI (A:=RX))) tt 0%Z 4 = Ok (st', o') /\
    s_eta st' = s_eta st /\ s_time st' = 2 * s_time st.
Proof.
  destruct (C56_runnable_configurations_run unit Z half_rng count_rng (exI (A:=RX)) tt 0%Z 4 exI_runnable half_rng_range half_rng_pos)
    as (st & o & E).
  assert (K := C86_runs unit Z half_rng count_rng 2 (exI (A:=RX)) tt 0%Z 4 ltac:(lra)). rewrite E in K.
  destruct (run_model (A:=RX) (G:=half_rng) (GN:=count_rng) (wider_config 2 (exI (A:=RX))) tt 0%Z 4) as [[st' o'] | e]; [| contradiction].
  destruct K as [K _]. exists st, o, st', o'. split; [exact E |]. split; [reflexivity |].
  split; [exact (wi_eta _ _ _ K) | exact (wi_time _ _ _ K)].
Qed.
(** Its channel made twice as deep. *)
Example C86_heights_hypotheses : exists m m' np1 np2,
  1 <= i_h0 (exI (A:=RX)) /\ construct (A:=RX) (G:=half_rng) (GN:=count_rng) (exI (A:=RX)) tt 0%Z = Ok (m, np1) /\
  construct (A:=RX) (G:=half_rng) (GN:=count_rng) (seti_h0 (2 * i_h0 (exI (A:=RX))) (exI (A:=RX))) tt 0%Z = Ok (m', np2) /\
  p_h0 (m_P m') = 2 * p_h0 (m_P m) /\ p_dry_depth (m_P m') = p_dry_depth (m_P m).
Proof.
  assert (Hh : 1 <= i_h0 (exI (A:=RX))) by (cbn; lra).
  assert (Hr : runnable (seti_h0 (2 * i_h0 (exI (A:=RX))) (exI (A:=RX)))).
  { pose proof exI_runnable as K. destruct K as [HA K1 K2 K3 K4 K5 K6 K7 K8 K9]. constructor; try assumption; [|cbn; lra].
    destruct HA. constructor; assumption. }
  destruct (runnable_ready (G:=half_rng) (GN:=count_rng) (exI (A:=RX)) tt 0%Z exI_runnable) as (m & np1 & E & _).
  destruct (runnable_ready (G:=half_rng) (GN:=count_rng) _ tt 0%Z Hr) as (m' & np2 & E' & _).
  exists m, m', np1, np2. split; [exact Hh|]. split; [exact E|]. split; [exact E'|].
  exact (C86_heights_refuted unit Z half_rng count_rng 2 _ (exI (A:=RX)) tt 0%Z np1 np2 m m' ltac:(lra) Hh eq_refl E E').
Qed.
