(** Property C90 (settings that switch smoothing or diffusion off).  Exact
    arithmetic. *)
From Coq Require Import ZArith List Bool Reals Lra Lia.
From Verif Require Import Base RLemmas Shared SharedSpec Params State Inputs Iter IterSpec Init InitSpec InitProofs Water Sed Diffusion
  GrainSpec GrainProofs NeutralSpec NeutralProofs Examples Props_Init.
Import ListNotations.
Local Open Scope R_scope.

(** With the smoothing of the water surface switched off in one of three ways,
    its settings change nothing: the same fields, records, checkpoints and
    exceptions. *)
Theorem C90_smoothing_switched_off :
  forall (S N : Type) (G : Rng R S) (GN : NpRng N) (passes : Z) (weight : R) (c : inputs R) (nb : S) (np : N) (n : nat),
    0 <= weight -> 0 <= i_Csmooth c -> smoothing_off passes weight c ->
    run_model (A:=RX) (smoothing_settings passes weight c) nb np n = run_model (A:=RX) c nb np n.
Proof. intros. apply whole_smoothing; assumption. Qed.
Print Assumptions C90_smoothing_switched_off.

(** With a diffusion coefficient of zero, the diffusion of the bed leaves every
    bed as it is. *)
Theorem C90_diffusion_switched_off :
  forall (S N : Type) (G : Rng R S) (GN : NpRng N) (c : inputs R) (nb : S) (np np' : N) m (st : state R S),
    i_alpha c = 0 -> construct (A:=RX) c nb np = Ok (m, np') ->
    s_eta (topo_diffusion (A:=RX) (m_P m) st) = s_eta st.
Proof. intros S N G GN c nb np np' m st Ha E. apply no_multiplier. exact (no_alpha c nb np m np' Ha E). Qed.
Print Assumptions C90_diffusion_switched_off.

(** The example configuration with all the weight on a cell's own value runs,
    with any number of passes. *)
Lemma neutral_runnable : runnable (seti_alpha 0 (seti_Csmooth 1 (exI (A:=RX)))).
Proof.
  pose proof exI_runnable as K. destruct K as [HA K1 K2 K3 K4 K5 K6 K7 K8 K9].
  constructor; try assumption. destruct HA. constructor; try assumption. cbn. lra.
Qed.
Example C90_hypotheses :
  let c := seti_alpha 0 (seti_Csmooth 1 (exI (A:=RX))) in
  exists st o, run_model (A:=RX) (G:=half_rng) (GN:=count_rng) c tt 0%Z 4 = Ok (st, o) /\
    run_model (A:=RX) (G:=half_rng) (GN:=count_rng) (smoothing_settings 7 1 c) tt 0%Z 4 = Ok (st, o) /\
    smoothing_settings 7 1 c <> c.
Proof.
  intro c. destruct (C56_runnable_configurations_run unit Z half_rng count_rng c tt 0%Z 4 neutral_runnable half_rng_range half_rng_pos)
    as (st & o & E). exists st, o. split; [exact E|]. split.
  - rewrite <- E. apply (C90_smoothing_switched_off unit Z half_rng count_rng 7 1 c tt 0%Z 4); [lra|cbn; lra|]. left. split; reflexivity.
  - intros K. apply (f_equal i_Nsmooth) in K. cbn in K. discriminate K.
Qed.
Example C90_diffusion_hypotheses :
  exists m np', construct (A:=RX) (G:=half_rng) (GN:=count_rng) (seti_alpha 0 (seti_Csmooth 1 (exI (A:=RX)))) tt 0%Z = Ok (m, np') /\
    forall st : state R unit, s_eta (topo_diffusion (A:=RX) (m_P m) st) = s_eta st.
Proof.
  destruct (C56_runnable_configurations_run unit Z half_rng count_rng _ tt 0%Z 0 neutral_runnable half_rng_range half_rng_pos) as (st & o & E).
  unfold run_model, new_model in E.
  destruct (construct (A:=RX) (G:=half_rng) (GN:=count_rng) (seti_alpha 0 (seti_Csmooth 1 (exI (A:=RX)))) tt 0%Z) as [[m np']|e] eqn:K; [|discriminate E].
  exists m, np'. split; [reflexivity|]. intros s. exact (C90_diffusion_switched_off unit Z half_rng count_rng (seti_alpha 0 (seti_Csmooth 1 (exI (A:=RX)))) tt 0%Z np' m s eq_refl K).
Qed.
