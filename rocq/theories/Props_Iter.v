(** Properties C27-C31, C33, C34 (time step, clock, output schedule). *)
From Coq Require Import ZArith List Bool Reals Lra Lia Floats.SpecFloat.
From Verif Require Import Base RLemmas Shared SharedSpec Params State Water WaterSpec Sed SedSpec
  Diffusion Iter IterSpec FrameProofs IterProofs Examples Props_Sed.
Import ListNotations.
Local Open Scope Z_scope.

(** ** The example runs for any number of steps *)
Lemma ex_model_ready : model_ready (exP (A:=RX)) (exst (A:=RX) tt).
Proof. split; [exact ex_ready|]. split; [exact ex_sed_ready|exact ex_divisors]. Qed.
Lemma ex_updates n : exists st' o,
  updates (A:=RX) (G:=half_rng) (exP (A:=RX)) n (exst (A:=RX) tt) = Ok (st', o).
Proof.
  destruct (updates_total (G:=half_rng) (exP (A:=RX)) n (exst (A:=RX) tt) ex_model_ready half_rng_range half_rng_pos)
    as (st' & o & E & _). eauto.
Qed.
Lemma ex_run n : exists tr st', length tr = n /\
  run (A:=RX) (G:=half_rng) (exP (A:=RX)) (exst (A:=RX) tt) tr st'.
Proof.
  destruct (ex_updates n) as (st' & o & E). apply updates_run in E as (tr & H & Hl & _). eauto.
Qed.

(** ** C27 *)
Theorem C27_fractions_stay_in_unit_interval :
  forall (rnd : R -> R), Rounding rnd -> forall (S : Type) (G : Rng R S) (P : params R)
    (st st' : state R S) tr,
    run (A:=RA rnd) P st tr st' -> (0 <= p_sand_frac_bc P <= 1)%R -> fractions_ok st ->
    Forall (fun x => fractions_ok (fst x)) tr /\ fractions_ok st'.
Proof. intros rnd HR S G P st st' tr. exact (run_fractions rnd P tr st st'). Qed.
Print Assumptions C27_fractions_stay_in_unit_interval.

(** A cell keeps the boundary value as long as no step leaves a deposit in it
    (erosion restores the boundary value). *)
Theorem C27_boundary_value_until_first_deposit :
  forall (rnd : R -> R), Rounding rnd -> forall (S : Type) (G : Rng R S) (P : params R)
    (st st' : state R S) tr i j,
    run (A:=RA rnd) P st tr st' ->
    s_sand_frac st i j = p_sand_frac_bc P -> s_active_layer st i j = p_sand_frac_bc P ->
    Forall (fun x => ~ deposited (rnd (1 / 1000000)%R) (fst x) i j) tr ->
    s_sand_frac st' i j = p_sand_frac_bc P /\ s_active_layer st' i j = p_sand_frac_bc P.
Proof. intros rnd HR S G P st st' tr i j. exact (run_undisturbed rnd P tr st st' i j). Qed.
Print Assumptions C27_boundary_value_until_first_deposit.

Example C27_hypotheses : (0 <= p_sand_frac_bc (exP (A:=RX)) <= 1)%R /\ fractions_ok (exst (A:=RX) tt) /\
  exists tr st', length tr = 5%nat /\ run (A:=RX) (G:=half_rng) (exP (A:=RX)) (exst (A:=RX) tt) tr st'.
Proof.
  split; [cbn; lra|]. split; [intros i j; cbn; lra|]. apply ex_run.
Qed.
(** Binary64, one update: sand fraction (in per mille) of the rows 0..4. *)
Example C27_example :
  match update (A:=F64) (G:=lcg) exP (exst (A:=F64) 42) with
  | Ok (st, _) => map (fun i => map (fun j => sf_rint (SFmul sf_prec sf_emax (s_sand_frac st i j) (sf_of_Z 1000)))
                     [1; 2; 3; 4; 5]) [0; 1; 2; 3; 4]
  | Err _ => []
  end = [[500; 500; 500; 500; 500]; [500; 1000; 500; 500; 500];
         [1000; 500; 500; 500; 500]; [500; 0; 500; 500; 0]; [500; 500; 500; 500; 500]].
Proof. vm_compute. reflexivity. Qed.

(** ** C28 *)
Theorem C28_sand_fraction_update_rule :
  forall (S : Type) (G : Rng R S) (P : params R) (st st' : state R S) o i j,
    update (A:=RX) P st = Ok (st', o) -> (0 <= p_active_layer_thickness P)%R ->
    inb (p_L P) (p_W P) i j -> fraction_rule P st st' i j.
Proof. intros S G P st st' o i j. exact (update_fraction_rule P st st' o i j). Qed.
Print Assumptions C28_sand_fraction_update_rule.
(** The binary64 run of [C27_example] shows all cases but deep erosion. *)
Example C28_hypotheses : (0 <= p_active_layer_thickness (exP (A:=RX)))%R /\ exists st' o,
  updates (A:=RX) (G:=half_rng) (exP (A:=RX)) 1 (exst (A:=RX) tt) = Ok (st', o).
Proof. split; [cbn; lra|apply ex_updates]. Qed.

(** ** C29 *)
Theorem C29_subsidence :
  forall (S : Type) (G : Rng R S) (P : params R) (st st' : state R S) o rate,
    update (A:=RX) P st = Ok (st', o) -> (forall i j, p_sigma P i j = lowering P rate i) ->
    exists st2, solve_water_and_sediment_timestep (A:=RX) P st = Ok st2 /\
      forall i j, ~ inlet_cell P i j ->
        (subsides P st -> s_eta st' i j = s_eta st2 i j - lowering P rate i)%R /\
        (~ subsides P st -> s_eta st' i j = s_eta st2 i j).
Proof. intros S G P st st' o rate. exact (update_subsidence P st st' o rate). Qed.
Print Assumptions C29_subsidence.

(** Every step up to the start time is dry of subsidence and every later one
    subsides: the k-th update (from 0) subsides exactly if the start time is
    at most k time steps after the initial time. *)
Theorem C29_first_subsiding_step :
  forall (S : Type) (G : Rng R S) (P : params R) (k : nat) (st st' : state R S) o,
    p_toggle_subsidence P = true -> updates (A:=RX) P k st = Ok (st', o) ->
    (subsides P st' <-> (p_start_subsidence P <= s_time st + INR k * p_dt P)%R).
Proof.
  intros S G P k st st' o Ht E. destruct (updates_clock P k st st' o E) as (_ & H & _).
  unfold subsides. rewrite H. tauto.
Qed.
Print Assumptions C29_first_subsiding_step.

(** The example with subsidence of 1/10000 m/s from time 10000 on. *)
Definition ex_subP {F} {A : Arith F} : params F :=
  setp_toggle_subsidence true (setp_start_subsidence (fz 10000)
    (setp_sigma (fun i _ => if i <? 2 then fz 0 else fmul (flit 1 10000) (fz 15000)) exP)).
Example C29_hypotheses :
  (forall i j, p_sigma (ex_subP (A:=RX)) i j = lowering (ex_subP (A:=RX)) (1 / 10000) i) /\
  ~ subsides (ex_subP (A:=RX)) (exst (A:=RX) tt) /\
  exists st' o, updates (A:=RX) (G:=half_rng) (ex_subP (A:=RX)) 1 (exst (A:=RX) tt) = Ok (st', o) /\
    subsides (ex_subP (A:=RX)) st'.
Proof.
  split; [intros i j; unfold lowering; cbn; destruct (i <? 2); reflexivity|].
  split; [unfold subsides; cbn; lra|].
  destruct (updates_total (G:=half_rng) (ex_subP (A:=RX)) 1 (exst (A:=RX) tt)) as (st' & o & E & _);
    [split; [|split]; [destruct ex_ready|destruct ex_sed_ready|destruct ex_divisors]; constructor; assumption|exact half_rng_range|exact half_rng_pos|].
  exists st', o. split; [exact E|].
  destruct (updates_clock _ _ _ _ _ E) as (_ & H & _). split; [reflexivity|].
  rewrite H. cbn. lra.
Qed.
(** Binary64: cell (3, 1) and land cell (1, 0) after two updates, with and
    without subsidence (millimetres of difference). *)
Example C29_example :
  match updates (A:=F64) (G:=lcg) exP 2 (exst (A:=F64) 42), updates (A:=F64) (G:=lcg) ex_subP 2 (exst (A:=F64) 42) with
  | Ok (a, _), Ok (b, _) => map (fun c => sf_rint (SFmul sf_prec sf_emax (sf_of_Z 1000)
      (SFsub sf_prec sf_emax (s_eta a (fst c) (snd c)) (s_eta b (fst c) (snd c))))) [(3, 1); (4, 3); (1, 0); (0, 3)]
  | _, _ => []
  end = [1500; 1500; 0; 0].
Proof. vm_compute. reflexivity. Qed.

(** ** C30 *)
Theorem C30_end_of_step :
  forall (rnd : R -> R), Rounding rnd -> forall (S : Type) (G : Rng R S) (P : params R)
    (st st' : state R S) tr,
    run (A:=RA rnd) P st tr st' ->
    Forall (fun p => step_end rnd P (fst p) (snd p)) (steps_of st tr).
Proof.
  intros rnd HR S G P st st' tr. apply (run_steps rnd P). intros a b o. exact (update_step_end rnd P a b o).
Qed.
Print Assumptions C30_end_of_step.

Theorem C30_depth_non_negative :
  forall (rnd : R -> R), Rounding rnd -> forall (S : Type) (G : Rng R S) (P : params R)
    (st st' : state R S) tr,
    run (A:=RA rnd) P st tr st' -> (0 <= p_h0 P)%R ->
    Forall (fun x => forall i j, 0 <= s_depth (fst x) i j)%R tr.
Proof.
  intros rnd HR S G P st st' tr H H0.
  pose proof (run_steps rnd P (fun _ b => forall i j, 0 <= s_depth b i j)%R) as HS.
  assert (HU : forall st st' o, update (A:=RA rnd) P st = Ok (st', o) -> forall i j, (0 <= s_depth st' i j)%R).
  { intros a b o E i j. destruct (update_step_end rnd P a b o E) as [_ Hd Hi _ _ _ _ _ _].
    destruct (Z.eq_dec i 0) as [Ei|Ei]; [destruct (in_dec Z.eq_dec j (p_inlet P)) as [Ej|Ej]|].
    - destruct (Hi i j) as [-> _]; [split|]; auto.
    - rewrite Hd by (intros []; auto). apply Rmax_r.
    - rewrite Hd by (intros []; auto). apply Rmax_r. }
  clear HS. revert st H. induction tr as [|[s1 o1] tr IH]; intros st H; constructor; inversion H; subst; eauto.
Qed.
Print Assumptions C30_depth_non_negative.

(** In exact arithmetic no number of updates can fail. *)
Theorem C30_updates_never_fail :
  forall (S : Type) (G : Rng R S) (P : params R) (n : nat) (st : state R S),
    model_ready P st -> uniform_range G -> (forall s, 0 < fst (draw s))%R ->
    exists st' o, updates (A:=RX) P n st = Ok (st', o) /\ model_ready P st'.
Proof. intros S G P n st. exact (updates_total P n st). Qed.
Print Assumptions C30_updates_never_fail.

Example C30_hypotheses : model_ready (exP (A:=RX)) (exst (A:=RX) tt) /\ uniform_range half_rng /\
  (forall s : unit, 0 < fst (draw (Rng:=half_rng) s))%R /\ (0 <= p_h0 (exP (A:=RX)))%R /\
  exists tr st', length tr = 7%nat /\ run (A:=RX) (G:=half_rng) (exP (A:=RX)) (exst (A:=RX) tt) tr st'.
Proof.
  split; [exact ex_model_ready|]. split; [exact half_rng_range|]. split; [exact half_rng_pos|].
  split; [cbn; lra|]. apply ex_run.
Qed.

(** With a rising sea the stage reported after a step can lie below the sea
    level reported with it: binary64, one update. *)
Theorem C30_stage_below_reported_sea_level :
  match update (A:=F64) (G:=lcg) (setp_SLR (sf_of_Z 1) exP) (exst (A:=F64) 42) with
  | Ok (st, _) => SFltb (s_stage st 4 3) (s_H_SL st)
  | Err _ => false
  end = true.
Proof. vm_compute. reflexivity. Qed.
Print Assumptions C30_stage_below_reported_sea_level.

(** ** C31 *)
Theorem C31_clock_and_sea_level :
  forall (S : Type) (G : Rng R S) (P : params R) (n : nat) (st st' : state R S) o,
    updates (A:=RX) P n st = Ok (st', o) ->
    s_time_iter st' = s_time_iter st + Z.of_nat n /\
    (s_time st' = s_time st + INR n * p_dt P)%R /\
    (s_H_SL st' = s_H_SL st + p_SLR P * (INR n * p_dt P))%R.
Proof. intros S G P n st st' o. exact (updates_clock P n st st' o). Qed.
Print Assumptions C31_clock_and_sea_level.

Example C31_hypotheses : exists st' o,
  updates (A:=RX) (G:=half_rng) (exP (A:=RX)) 10 (exst (A:=RX) tt) = Ok (st', o).
Proof. apply ex_updates. Qed.
(** In binary64 the accumulated clock drifts: ten steps of a tenth are not 1. *)
Example C31_binary64_drift :
  SFeqb (s_time (Nat.iter 10 (advance_clock (A:=F64) (setp_dt (flit (A:=F64) 1 10) exP)) (exst (A:=F64) 0)))
        (sf_of_Z 1) = false.
Proof. vm_compute. reflexivity. Qed.

(** ** C33 *)
(** [st0] is the model at the end of construction, [st1] the model handed to
    the user after the first output. *)
Theorem C33_save_schedule :
  forall (S : Type) (G : Rng R S) (P : params R) (st0 st1 st' : state R S) o0 o n,
    (0 < p_save_dt P)%R -> (0 < p_dt P)%R ->
    s_save_time_since_data st0 = Inf -> s_save_iter st0 = 0 ->
    write_output (A:=RX) P st0 = (st1, o0) -> updates (A:=RX) P n st1 = Ok (st', o) ->
    let rs := records (o0 ++ o) in
    (exists later, rs = (0, s_time st0) :: later) /\
    map fst rs = zseq 0 (length rs) /\
    spaced (p_save_dt P) (p_save_dt P + p_dt P)%R (map snd rs) /\
    s_save_time_since_data st' = Fin (s_time st' - last (map snd rs) 0)%R /\
    (0 <= s_time st' - last (map snd rs) 0 < p_save_dt P)%R.
Proof.
  intros S G P st0 st1 st' o0 o n Hs Hd Hi Hz E0 E. cbv zeta.
  apply write_records in E0 as (B0 & [(B1 & B2 & B3 & B4)|(B1 & _)]); [|rewrite Hi in B1; discriminate].
  destruct (updates_records P n Hs Hd st1 st' o (s_time st0)) as (I1 & I2 & I3 & [I4 I5]); auto.
  { split; rewrite B0; [rewrite B4; f_equal|]; lra. }
  rewrite records_app, B2, Hz. cbn [app]. split; [eauto|]. cbn [map fst snd length zseq].
  rewrite I1, B3, Hz. rewrite last_cons. auto.
Qed.
Print Assumptions C33_save_schedule.

Theorem C33_record_shows_the_model :
  forall (F : Type) (A : Arith F) (S : Type) (G : Rng F S) (P : params F) (st st' : state F S) o k t shown,
    update P st = Ok (st', o) -> In (Record_ k t shown) o ->
    t = s_time st' /\ same_but_counters shown st'.
Proof.
  intros F A S G P st st' o k t shown E H. destruct (written P st st' o E) as [H1 _].
  destruct (H1 k t shown H) as (H2 & H3 & _). auto.
Qed.
Print Assumptions C33_record_shows_the_model.

(** ** C34 *)
Theorem C34_checkpoint_schedule :
  forall (S : Type) (G : Rng R S) (P : params R) (st0 st1 st' : state R S) o0 o n,
    p_save_checkpoint P = true -> (0 < p_checkpoint_dt P)%R -> (0 < p_dt P)%R ->
    s_save_time_since_checkpoint st0 = Inf ->
    write_output (A:=RX) P st0 = (st1, o0) -> updates (A:=RX) P n st1 = Ok (st', o) ->
    let cs := checkpoints (o0 ++ o) in
    (exists later, cs = s_time st0 :: later) /\
    spaced (p_checkpoint_dt P) (p_checkpoint_dt P + p_dt P)%R cs /\
    (0 <= s_time st' - last cs 0 < p_checkpoint_dt P)%R.
Proof.
  intros S G P st0 st1 st' o0 o n Hon Hs Hd Hi E0 E. cbv zeta.
  apply write_checkpoints in E0 as (B0 & [(B1 & _ & B2 & B4)|([B1|B1] & _)]);
    [|rewrite Hi in B1; discriminate|congruence].
  destruct (updates_checkpoints P n Hon Hs Hd st1 st' o (s_time st0)) as (I3 & [I4 I5]); auto.
  { split; rewrite B0; [rewrite B4; f_equal|]; lra. }
  rewrite checkpoints_app, B2. cbn [app]. split; [eauto|]. rewrite last_cons. auto.
Qed.
Print Assumptions C34_checkpoint_schedule.

Theorem C34_no_checkpoint_when_off :
  forall (S : Type) (G : Rng R S) (P : params R) (st0 st1 st' : state R S) o0 o n,
    p_save_checkpoint P = false ->
    write_output (A:=RX) P st0 = (st1, o0) -> updates (A:=RX) P n st1 = Ok (st', o) ->
    checkpoints (o0 ++ o) = [].
Proof.
  intros S G P st0 st1 st' o0 o n Hoff E0 E. rewrite checkpoints_app, (updates_no_checkpoint P n Hoff st1 st' o E).
  apply write_checkpoints in E0 as (_ & [(_ & B & _)|(_ & B & _)]); [congruence|]. rewrite B. reflexivity.
Qed.
Print Assumptions C34_no_checkpoint_when_off.

Theorem C34_checkpoint_holds_the_model :
  forall (F : Type) (A : Arith F) (S : Type) (G : Rng F S) (P : params F) (st st' : state F S) o c,
    update P st = Ok (st', o) -> In (Checkpoint c) o ->
    c = mkCkp (s_time st') (s_time_iter st') (s_save_iter st') (s_save_time_since_data st')
      (s_eta st') (s_depth st') (s_stage st') (s_uw st') (s_ux st') (s_uy st')
      (s_qw st') (s_qx st') (s_qy st') (s_sand_frac st') (s_active_layer st') (s_H_SL st') (s_rng st').
Proof. intros F A S G P st st' o c E H. destruct (written P st st' o E) as [_ H1]. exact (H1 c H). Qed.
Print Assumptions C34_checkpoint_holds_the_model.

(** A model fresh from construction, with checkpoints every 20000 s: exact
    runs of any length exist; in binary64 five updates of 15000 s give records
    at 0, 30000, 60000 and checkpoints at 0, 30000, 60000. *)
Definition fresh {F} {A : Arith F} {S} (st : state F S) : state F S :=
  set_save_time_since_data Inf (set_save_time_since_checkpoint Inf st).
Definition ex_ckP {F} {A : Arith F} : params F := setp_save_checkpoint true (setp_checkpoint_dt (fz 20000) exP).

Example C33_C34_hypotheses : (0 < p_save_dt (ex_ckP (A:=RX)))%R /\ (0 < p_checkpoint_dt (ex_ckP (A:=RX)))%R /\
  (0 < p_dt (ex_ckP (A:=RX)))%R /\
  exists st1 o0 st' o, write_output (A:=RX) (ex_ckP (A:=RX)) (fresh (A:=RX) (exst (A:=RX) tt)) = (st1, o0) /\
    updates (A:=RX) (G:=half_rng) (ex_ckP (A:=RX)) 9 st1 = Ok (st', o).
Proof.
  split; [cbn; lra|]. split; [cbn; lra|]. split; [cbn; lra|].
  do 2 eexists. 
  edestruct (updates_total (G:=half_rng) (ex_ckP (A:=RX)) 9) as (st' & o & E & _);
    [|exact half_rng_range|exact half_rng_pos|exists st', o; split; [reflexivity|exact E]].
  split; [|split]; [destruct ex_ready|destruct ex_sed_ready|destruct ex_divisors]; constructor; assumption.
Qed.
Example C33_C34_example :
  let (st1, o0) := write_output (A:=F64) ex_ckP (fresh (A:=F64) (exst (A:=F64) 42)) in
  match updates (A:=F64) (G:=lcg) ex_ckP 4 st1 with
  | Ok (_, o) => (map (fun r => (fst r, sf_trunc (snd r))) (records (o0 ++ o)), map sf_trunc (checkpoints (o0 ++ o)))
  | Err _ => ([], [])
  end = ([(0, 0); (1, 30000); (2, 60000)], [0; 30000; 60000]).
Proof. vm_compute. reflexivity. Qed.
