(** Property C89 (runs with one kind of sediment).  Every rounding of real
    arithmetic allowed by [Rounding], exact arithmetic among them. *)
From Coq Require Import ZArith List Bool Reals Lra Lia.
From Verif Require Import Base RLemmas Shared SharedSpec Params State Inputs Iter IterSpec Init InitSpec InitProofs Water Sed
  GrainSpec GrainProofs Examples Props_Init.
Import ListNotations.
Local Open Scope R_scope.

(** Without bed load, the settings for sand and for the diffusion of the bed
    change nothing: the same fields, records, checkpoints and exceptions. *)
Theorem C89_mud_only_ignores_sand_settings :
  forall (rnd : R -> R) (HR : Rounding rnd) (S N : Type) (G : Rng R S) (GN : NpRng N)
    (theta erosion alpha : R) (c : inputs R) (nb : S) (np : N) (n : nat),
    i_f_bedload c = 0 ->
    run_model (A:=RA rnd) (sand_settings theta erosion alpha c) nb np n = run_model (A:=RA rnd) c nb np n.
Proof. intros. apply whole_sand; assumption. Qed.
Print Assumptions C89_mud_only_ignores_sand_settings.

(** With bed load alone, the settings for mud change nothing. *)
Theorem C89_sand_only_ignores_mud_settings :
  forall (rnd : R -> R) (HR : Rounding rnd) (S N : Type) (G : Rng R S) (GN : NpRng N)
    (theta deposition erosion lag : R) (c : inputs R) (nb : S) (np : N) (n : nat),
    i_f_bedload c = 1 ->
    run_model (A:=RA rnd) (mud_settings theta deposition erosion lag c) nb np n = run_model (A:=RA rnd) c nb np n.
Proof. intros. apply whole_mud; assumption. Qed.
Print Assumptions C89_sand_only_ignores_mud_settings.

(** Without bed load, after any number of time steps every cell has the sand
    fraction of the undisturbed bed or none at all. *)
Theorem C89_mud_only_fractions :
  forall (rnd : R -> R) (HR : Rounding rnd) (S N : Type) (G : Rng R S) (GN : NpRng N)
    (c : inputs R) (nb : S) (np : N) (n : nat) (st : state R S) (o : list (output R S)),
    i_f_bedload c = 0 -> rnd (i_sand_frac_bc c) = i_sand_frac_bc c ->
    run_model (A:=RA rnd) c nb np n = Ok (st, o) -> one_or_other (i_sand_frac_bc c) 0 st.
Proof. intros rnd HR S N G GN c nb np n st o. apply whole_mud_alone. exact HR. Qed.
Print Assumptions C89_mud_only_fractions.

(** With bed load alone, every cell has that fraction or is all sand. *)
Theorem C89_sand_only_fractions :
  forall (rnd : R -> R) (HR : Rounding rnd) (S N : Type) (G : Rng R S) (GN : NpRng N)
    (c : inputs R) (nb : S) (np : N) (n : nat) (st : state R S) (o : list (output R S)),
    i_f_bedload c = 1 -> rnd (i_sand_frac_bc c) = i_sand_frac_bc c ->
    run_model (A:=RA rnd) c nb np n = Ok (st, o) -> one_or_other (i_sand_frac_bc c) 1 st.
Proof. intros rnd HR S N G GN c nb np n st o. apply whole_sand_alone. exact HR. Qed.
Print Assumptions C89_sand_only_fractions.

(** Any model without bed load, in any state whose fractions are of the two
    kinds: no time step deposits sand, and the fractions stay of these kinds. *)
Theorem C89_mud_only_steps :
  forall (rnd : R -> R) (HR : Rounding rnd) (S : Type) (G : Rng R S) (P : params R)
    (tr : list (state R S * list (output R S))) (st st' : state R S),
    p_f_bedload P = 0 -> one_or_other (p_sand_frac_bc P) 0 st -> run (A:=RA rnd) P st tr st' ->
    Forall (fun x => no_sand (fst x) /\ one_or_other (p_sand_frac_bc P) 0 (fst x)) tr.
Proof. intros rnd HR S G P tr st st' Hf H0 H. exact (proj1 (run_mud_alone rnd P Hf tr st st' H H0)). Qed.
Print Assumptions C89_mud_only_steps.

(** The same with bed load alone: no time step deposits mud. *)
Theorem C89_sand_only_steps :
  forall (rnd : R -> R) (HR : Rounding rnd) (S : Type) (G : Rng R S) (P : params R)
    (tr : list (state R S * list (output R S))) (st st' : state R S),
    p_f_bedload P = 1 -> one_or_other (p_sand_frac_bc P) 1 st -> run (A:=RA rnd) P st tr st' ->
    Forall (fun x => no_mud (fst x) /\ one_or_other (p_sand_frac_bc P) 1 (fst x)) tr.
Proof. intros rnd HR S G P tr st st' Hf H0 H. exact (proj1 (run_sand_alone rnd P Hf tr st st' H H0)). Qed.
Print Assumptions C89_sand_only_steps.

(** The example configuration without bed load runs, also with other settings
    for sand, which its model does get; the same with bed load alone. *)
Lemma one_grain_runnable x : 0 <= x <= 1 -> runnable (seti_f_bedload x (exI (A:=RX))).
Proof.
  intros H. pose proof exI_runnable as K. destruct K as [HA K1 K2 K3 K4 K5 K6 K7 K8 K9].
  constructor; try assumption. destruct HA. constructor; try assumption; exact H.
Qed.
Example C89_mud_only_hypotheses :
  let c := seti_f_bedload 0 (exI (A:=RX)) in
  exists st o, run_model (A:=RX) (G:=half_rng) (GN:=count_rng) c tt 0%Z 4 = Ok (st, o) /\
    run_model (A:=RX) (G:=half_rng) (GN:=count_rng) (sand_settings 7 8 9 c) tt 0%Z 4 = Ok (st, o) /\
    one_or_other (i_sand_frac_bc c) 0 st /\ sand_settings 7 8 9 c <> c.
Proof.
  intro c. destruct (C56_runnable_configurations_run unit Z half_rng count_rng c tt 0%Z 4 (one_grain_runnable 0 ltac:(lra)) half_rng_range half_rng_pos)
    as (st & o & E). exists st, o. split; [exact E|]. split; [|split].
  - rewrite <- E. exact (C89_mud_only_ignores_sand_settings (fun x => x) _ unit Z half_rng count_rng 7 8 9 c tt 0%Z 4 eq_refl).
  - exact (C89_mud_only_fractions (fun x => x) _ unit Z half_rng count_rng c tt 0%Z 4 st o eq_refl eq_refl E).
  - intros K. apply (f_equal i_alpha) in K. cbn in K. lra.
Qed.
Example C89_sand_only_hypotheses :
  let c := seti_f_bedload 1 (exI (A:=RX)) in
  exists st o, run_model (A:=RX) (G:=half_rng) (GN:=count_rng) c tt 0%Z 4 = Ok (st, o) /\
    run_model (A:=RX) (G:=half_rng) (GN:=count_rng) (mud_settings 7 8 9 10 c) tt 0%Z 4 = Ok (st, o) /\
    one_or_other (i_sand_frac_bc c) 1 st /\ mud_settings 7 8 9 10 c <> c.
Proof.
  intro c. destruct (C56_runnable_configurations_run unit Z half_rng count_rng c tt 0%Z 4 (one_grain_runnable 1 ltac:(lra)) half_rng_range half_rng_pos)
    as (st & o & E). exists st, o. split; [exact E|]. split; [|split].
  - rewrite <- E. exact (C89_sand_only_ignores_mud_settings (fun x => x) _ unit Z half_rng count_rng 7 8 9 10 c tt 0%Z 4 eq_refl).
  - exact (C89_sand_only_fractions (fun x => x) _ unit Z half_rng count_rng c tt 0%Z 4 st o eq_refl eq_refl E).
  - intros K. apply (f_equal i_sed_lag) in K. cbn in K. lra.
Qed.
