(** Properties C38, C41, C42, C43, C56 and the default interval of C34
    (construction of a model). *)
From Coq Require Import ZArith List Bool Reals Lra Lia Floats.SpecFloat.
From Flocq Require Import Core.
From Verif Require Import Base RLemmas Shared SharedSpec Params State Water WaterSpec Sed SedSpec
  Iter IterSpec IterProofs Examples Inputs Init InitSpec InitProofs Props_Iter.
Import ListNotations.
Local Open Scope Z_scope.

(** ** Example configuration: default.yml on a 600 m x 700 m domain *)
Section Ex.
  Context {F : Type} {A : Arith F}.
  Definition exI : inputs F := {|
    i_Length := fz 600; i_Width := fz 700; i_dx := fz 50; i_L0_meters := fz 150;
    i_S0 := flit 15 100000; i_itermax := 3; i_Np_water := 4; i_u0 := fz 1; i_N0_meters := fz 200;
    i_h0 := fz 5; i_hb := None; i_H_SL := fz 0; i_SLR := fz 0; i_Np_sed := 4; i_f_bedload := flit 1 2;
    i_active_layer_thickness := None; i_C0_percent := flit 1 10; i_Csmooth := flit 9 10;
    i_toggle_subsidence := false; i_subsidence_rate := flit 2 1000000000; i_start_subsidence := fz 150000;
    i_save_dt := fz 30000; i_checkpoint_dt := None; i_save_checkpoint := true;
    i_omega_sfc := flit 1 10; i_omega_flow := flit 9 10; i_Nsmooth := 5; i_theta_water := fz 1;
    i_coeff_theta_sand := fz 2; i_coeff_theta_mud := fz 1; i_beta := fz 3; i_sed_lag := fz 1;
    i_coeff_U_dep_mud := flit 3 10; i_coeff_U_ero_mud := flit 3 2; i_coeff_U_ero_sand := flit 105 100;
    i_alpha := flit 1 10; i_stepmax := None; i_sand_frac_bc := flit 1 2; i_seed := Some 10 |}.
End Ex.
(** A numpy generator that counts. *)
#[export] Instance count_rng : NpRng Z := fun n => (n, n + 1).

Lemma exI_accepted : accepted (exI (A:=RX)).
Proof. constructor; cbn; try lra; try lia. intros t E. discriminate. Qed.
Lemma exI_runnable : runnable (exI (A:=RX)).
Proof.
  constructor; try exact exI_accepted; cbn; try lra; try lia. intros x E. discriminate.
Qed.
Lemma exI_not_vanishing : ~ vanishing (exI (A:=RX)).
Proof. intros [H|[H|[H|H]]]; cbn in H; try lra; lia. Qed.

(** ** C41 *)
Theorem C41_setters_accept_exactly_their_range :
  forall (rnd : R -> R), Rounding rnd -> let A := RA rnd in
    accepts (set_Length (A:=A)) seti_Length (fun x _ => 0 < x)%R /\
    accepts (set_Width (A:=A)) seti_Width (fun x _ => 0 < x)%R /\
    accepts (set_dx (A:=A)) seti_dx (fun x c => 0 < x /\ x <= i_Length c /\ x <= i_Width c)%R /\
    accepts (set_L0_meters (A:=A)) seti_L0_meters (fun x _ => 0 <= x)%R /\
    accepts (set_itermax (F:=R)) seti_itermax (fun n _ => 0 <= n) /\
    accepts (set_Np_water (F:=R)) seti_Np_water (fun n _ => 0 < n) /\
    accepts (set_N0_meters (A:=A)) seti_N0_meters (fun x _ => 0 < x)%R /\
    accepts (set_Np_sed (F:=R)) seti_Np_sed (fun n _ => 0 < n) /\
    accepts (set_f_bedload (A:=A)) seti_f_bedload (fun x _ => 0 <= x <= 1)%R /\
    accepts (fun x => set_active_layer_thickness (A:=A) (Some x)) (fun x => seti_active_layer_thickness (Some x)) (fun x _ => 0 <= x)%R /\
    accepts (set_C0_percent (A:=A)) seti_C0_percent (fun x _ => 0 <= x)%R /\
    accepts (set_Csmooth (A:=A)) seti_Csmooth (fun x _ => 0 <= x)%R /\
    accepts (set_If (A:=A)) (fun x _ => Some x) (fun x _ => 0 < x <= 1)%R.
Proof. intros rnd HR. exact (setters_accept rnd). Qed.
Print Assumptions C41_setters_accept_exactly_their_range.

(** A whole configuration is stored unchanged (apart from the two defaults
    that depend on other values) when every value is in range, and rejected
    otherwise. *)
Theorem C41_configuration_stored_or_rejected :
  forall (rnd : R -> R), Rounding rnd -> forall c : inputs R,
    match process_input_to_model (A:=RA rnd) c with
    | Ok c' => accepted c /\ c' = resolved rnd c
    | Err e => e = ValueError /\ ~ accepted c
    end.
Proof. intros rnd HR. exact (process_spec rnd). Qed.
Print Assumptions C41_configuration_stored_or_rejected.

(** The checks let a NaN through. *)
Theorem C41_nan_is_accepted :
  forall c : inputs sfloat,
    set_Csmooth (A:=F64) S754_nan c = Ok (seti_Csmooth S754_nan c) /\
    set_f_bedload (A:=F64) S754_nan c = Ok (seti_f_bedload S754_nan c) /\
    set_dx (A:=F64) S754_nan c = Ok (seti_dx S754_nan c).
Proof. intros c. unfold set_Csmooth, set_f_bedload, set_dx. cbn. repeat split. destruct (i_Length c), (i_Width c); reflexivity. Qed.
Print Assumptions C41_nan_is_accepted.

Example C41_hypotheses : accepted (exI (A:=RX)) /\ ~ accepted (seti_dx 601%R (exI (A:=RX))) /\
  ~ accepted (seti_f_bedload (11 / 10)%R (exI (A:=RX))).
Proof.
  split; [exact exI_accepted|]. split; intros [H1 H2 H3 H4 H5 H6 H7 H8 H9 H10 H11 H12]; cbn in *; lra.
Qed.

(** ** C42 *)
(** Construction succeeds exactly when every value is in range, nothing the
    constants divide by is zero and the step limit is not negative; the
    constants are then the documented ones. *)
Theorem C42_construction_outcome :
  forall (S N : Type) (G : Rng R S) (GN : NpRng N) (c : inputs R) (nb : S) (np : N),
    match construct (A:=RX) c nb np with
    | Ok (m, _) => accepted c /\ ~ vanishing c /\ (forall x, i_stepmax c = Some x -> -1 <= Ztrunc x) /\
        derived c (m_P m)
    | Err ZeroDivisionError => accepted c /\ vanishing c
    | Err ValueError => ~ accepted c \/
        accepted c /\ ~ vanishing c /\ exists x, i_stepmax c = Some x /\ Ztrunc x <= -2
    | Err _ => False
    end.
Proof.
  intros S N G GN c nb np. pose proof (construct_outcome c nb np) as H.
  change RX with (RA (fun x => x)). destruct (construct c nb np) as [[m np']|e].
  - destruct H as (H1 & H2 & H3 & z & H4 & H5 & H6 & H7 & H8 & _). auto.
  - destruct H as [[-> H]|[(-> & H)|(-> & H)]]; auto.
Qed.
Print Assumptions C42_construction_outcome.

(** The documented bounds. *)
Theorem C42_sizes_and_time_step :
  forall (c : inputs R) (P : params R), derived c P ->
    1 <= p_L P /\ 1 <= p_W P /\ 1 <= p_L0 P <= Z.max 1 (p_L P / 4) /\
    3 <= p_N0 P <= Z.max 3 (p_W P / 4) /\ 1 <= p_N_crossdiff P /\
    (0 < i_u0 c -> 0 < p_dt P)%R /\
    (p_dt P * (p_Qw0 P * (i_C0_percent c / 100)) = IZR (p_N0 P * p_N0 P) / 10 * (i_h0 c * (i_dx c * i_dx c)))%R.
Proof.
  intros c P [[_ H1] [_ H2] (n & _ & H3) (n' & _ & H4) H5 H6 H7 H8 H9 H10 H11 H12 H13 H14 H15 [H16 _] H17 [_ H18] H19 H20 H21 H22 H23 H24 H25 H26 H27 H28].
  repeat split; try lia; try tauto. rewrite <- H13, H16, H14. reflexivity.
Qed.
Print Assumptions C42_sizes_and_time_step.

(** A negative inlet velocity is accepted and gives a negative time step. *)
Theorem C42_negative_velocity_gives_negative_time_step :
  forall (c : inputs R) (P : params R), derived c P -> ~ vanishing c -> (i_u0 c < 0)%R -> (p_dt P < 0)%R.
Proof.
  intros c P HD Hv Hu. pose proof (de_dt_sign _ _ HD) as K. pose proof (de_dt _ _ HD) as [K1 _].
  destruct (Rtotal_order (p_dt P) 0) as [|[E|E]]; auto; exfalso; [|apply K in E; lra].
  pose proof (de_dVs _ _ HD) as K2. rewrite E, Rmult_0_l in K1. rewrite <- K1 in K2. symmetry in K2.
  destruct (de_N0 _ _ HD) as (n & _ & Kn). assert (3 <= p_N0 P) by lia.
  assert (Hh : (i_h0 c <> 0)%R) by (intros E'; apply Hv; right; left; auto).
  pose proof (de_multiplier _ _ HD) as _.
  apply Rmult_integral in K2 as [K2|K2].
  - pose proof (passes_ge (p_N0 P) H). lra.
  - apply Rmult_integral in K2 as [K2|K2]; [auto|].
    destruct (de_rows _ _ HD) as [[Hr _] Hr1].
    assert (i_dx c = 0)%R by (apply Rmult_integral in K2; tauto). rewrite H0 in *.
    (* a zero cell size cannot give at least one row *)
    unfold Rdiv in Hr. rewrite Rinv_0, Rmult_0_r, Rminus_0_r in Hr. apply Rabs_le_inv in Hr.
    apply IZR_le in Hr1. lra.
Qed.
Print Assumptions C42_negative_velocity_gives_negative_time_step.

Example C42_hypotheses : exists m np', construct (A:=RX) (G:=half_rng) (exI (A:=RX)) tt 0 = Ok (m, np') /\
  derived (exI (A:=RX)) (m_P m).
Proof.
  destruct (runnable_ready (G:=half_rng) (exI (A:=RX)) tt 0 exI_runnable) as (m & np' & E & _).
  exists m, np'. split; [exact E|]. pose proof (construct_outcome (G:=half_rng) (exI (A:=RX)) tt 0) as H.
  change RX with (RA (fun x => x)) in *. rewrite E in H. destruct H as (_ & _ & _ & z & _ & _ & _ & _ & H & _). exact H.
Qed.
Example C42_binary64 :
  match construct (A:=F64) (G:=lcg) exI 7 0 with
  | Ok (m, _) => (p_L (m_P m), p_W (m_P m), p_L0 (m_P m), p_N0 (m_P m), p_stepmax (m_P m), sf_trunc (p_dt (m_P m)))
  | Err _ => (0, 0, 0, 0, 0, 0)
  end = (12, 14, 3, 3, 52, 15000) /\
  construct (A:=F64) (G:=lcg) (seti_C0_percent (fz 0) exI) 7 0 = Err ZeroDivisionError.
Proof. vm_compute. split; reflexivity. Qed.

(** ** C43 *)
Theorem C43_layout :
  forall (S N : Type) (G : Rng R S) (GN : NpRng N) (c : inputs R) (nb : S) (np np' : N) (m : model S),
    construct (A:=RX) c nb np = Ok (m, np') -> 5 <= p_W (m_P m) ->
    exists first, layout (m_P m) (m_st m) first.
Proof.
  intros S N G GN c nb np np' m E HW. pose proof (construct_outcome c nb np) as H.
  change RX with (RA (fun x => x)) in E. rewrite E in H.
  destruct H as (_ & _ & _ & z & _ & _ & _ & _ & _ & _ & H & _). auto.
Qed.
Print Assumptions C43_layout.

Theorem C43_initial_fields :
  forall (S N : Type) (G : Rng R S) (GN : NpRng N) (c : inputs R) (nb : S) (np np' : N) (m : model S),
    construct (A:=RX) c nb np = Ok (m, np') -> initial c (m_P m) (m_st m).
Proof.
  intros S N G GN c nb np np' m E. pose proof (construct_outcome c nb np) as H.
  change RX with (RA (fun x => x)) in E. rewrite E in H.
  destruct H as (_ & _ & _ & z & _ & _ & _ & _ & _ & H & _). exact H.
Qed.
Print Assumptions C43_initial_fields.

(** The basin has ocean exactly when the land strip ends within the radius
    of the domain; otherwise every cell below the strip is boundary. *)
Theorem C43_ocean_exists_iff :
  forall (S N : Type) (G : Rng R S) (GN : NpRng N) (c : inputs R) (nb : S) (np np' : N) (m : model S),
    construct (A:=RX) c nb np = Ok (m, np') -> let P := m_P m in 5 <= p_W P ->
    ((exists i j, inb (p_L P) (p_W P) i j /\ s_cell_type (m_st m) i j = OCEAN) <->
     (IZR (Z.max (p_L0 P) 3 - 3) < Rmin (IZR (p_L P - 5)) (IZR (p_W P) / 2 - 5))%R).
Proof.
  intros S N G GN c nb np np' m E P HW. pose proof (construct_outcome c nb np) as H.
  change RX with (RA (fun x => x)) in E. rewrite E in H.
  destruct H as (_ & _ & _ & z & _ & _ & _ & _ & HD & _ & HL & _). destruct (HL HW) as [first HL'].
  destruct (de_L0 _ _ HD) as (n & _ & Kn).
  apply (ocean_iff _ _ first); auto; fold P in Kn |- *; [apply (de_rows _ _ HD)|lia].
Qed.
Print Assumptions C43_ocean_exists_iff.

Theorem C43_small_grids_have_no_ocean :
  forall (S N : Type) (G : Rng R S) (GN : NpRng N) (c : inputs R) (nb : S) (np np' : N) (m : model S) i j,
    construct (A:=RX) c nb np = Ok (m, np') -> p_L (m_P m) <= 5 \/ p_W (m_P m) <= 10 ->
    p_L0 (m_P m) <= i -> s_cell_type (m_st m) i j = EDGE.
Proof.
  intros S N G GN c nb np np' m i j E Hs Hi. pose proof (construct_outcome c nb np) as H.
  change RX with (RA (fun x => x)) in E. rewrite E in H.
  destruct H as (_ & _ & _ & z & _ & _ & _ & _ & _ & _ & _ & _ & H). apply H; auto. apply outside_true.
  eapply Rle_trans; [|apply sqrt_pos].
  destruct Hs as [Hs|Hs]; [eapply Rle_trans; [apply Rmin_l|]; apply IZR_le; lia|].
  eapply Rle_trans; [apply Rmin_r|]. apply IZR_le in Hs. lra.
Qed.
Print Assumptions C43_small_grids_have_no_ocean.

(** The example: 12 x 14 cells; land (2) and channel (c), ocean (o) and
    boundary (e) as one number per row. *)
Example C43_binary64 :
  match construct (A:=F64) (G:=lcg) exI 7 0 with
  | Ok (m, _) => map (fun i => map (s_cell_type (m_st m) i) (zrange 14)) [0; 2; 3; 4; 5; 11]
  | Err _ => []
  end =
  [[-2; -2; -2; -2; -2; 1; 1; 1; -2; -2; -2; -2; -2; -2];
   [-2; -2; -2; -2; -2; 1; 1; 1; -2; -2; -2; -2; -2; -2];
   [-1; -1; -1; -1; -1; 0; 0; 0; -1; -1; -1; -1; -1; -1];
   [-1; -1; -1; -1; -1; 0; 0; 0; -1; -1; -1; -1; -1; -1];
   [-1; -1; -1; -1; -1; -1; -1; -1; -1; -1; -1; -1; -1; -1];
   [-1; -1; -1; -1; -1; -1; -1; -1; -1; -1; -1; -1; -1; -1]].
Proof. vm_compute. reflexivity. Qed.
Example C43_hypotheses : exists m np', construct (A:=RX) (G:=half_rng) (exI (A:=RX)) tt 0 = Ok (m, np') /\
  5 <= p_W (m_P m).
Proof.
  destruct C42_hypotheses as (m & np' & E & HD). exists m, np'. split; auto.
  eapply rounded_ge; [apply (de_cols _ _ HD)|]. cbn. lra.
Qed.

(** ** C38 *)
Theorem C38_seed_determines_the_run :
  forall (F : Type) (A : Arith F) (S N : Type) (G : Rng F S) (GN : NpRng N) (c : inputs F) z,
    i_seed c = Some z ->
    forall (nb nb' : S) (np np' : N) (n : nat), run_model c nb np n = run_model c nb' np' n.
Proof. intros F A S N G GN c z. exact (run_model_seeded c z). Qed.
Print Assumptions C38_seed_determines_the_run.

(** A run without a seed is repeated by giving the seed the model recorded. *)
Theorem C38_recorded_seed_repeats_the_run :
  forall (F : Type) (A : Arith F) (S N : Type) (G : Rng F S) (GN : NpRng N) (c : inputs F)
    (nb nb' : S) (np np' r : N) (n : nat) (m : model S),
    construct c nb np = Ok (m, r) ->
    (exists z, i_seed (m_in m) = Some z /\ (i_seed c = None -> z = fst (randint np))) /\
    run_model c nb np n = run_model (seti_seed (i_seed (m_in m)) c) nb' np' n.
Proof.
  intros F A S N G GN c nb nb' np np' r n m E. split; [|exact (run_model_again c nb nb' np np' n m r E)].
  exact (construct_drawn c nb np m r E).
Qed.
Print Assumptions C38_recorded_seed_repeats_the_run.

Example C38_example : let c := seti_seed None (exI (A:=F64)) in
  match construct (A:=F64) (G:=lcg) c 7 5, construct (A:=F64) (G:=lcg) (exI (A:=F64)) 7 5 with
  | Ok (m, _), Ok (m', _) => i_seed (m_in m) = Some 5 /\ s_rng (m_st m) = 5 /\ s_rng (m_st m') = 10
  | _, _ => False
  end.
Proof. vm_compute. repeat split. Qed.

(** ** C56 *)
Theorem C56_runnable_configurations_run :
  forall (S N : Type) (G : Rng R S) (GN : NpRng N) (c : inputs R) (nb : S) (np : N) (n : nat),
    runnable c -> uniform_range G -> (forall s : S, 0 < fst (draw s))%R ->
    exists st o, run_model (A:=RX) c nb np n = Ok (st, o).
Proof. intros S N G GN c nb np n. exact (runnable_runs c nb np n). Qed.
Print Assumptions C56_runnable_configurations_run.

Example C56_hypotheses : runnable (exI (A:=RX)) /\ uniform_range half_rng /\
  (forall s : unit, 0 < fst (draw (Rng:=half_rng) s))%R.
Proof. split; [exact exI_runnable|]. split; [exact half_rng_range|exact half_rng_pos]. Qed.

(** ** C33, C34 from the configuration *)
(** The interval between checkpoints defaults to the interval between
    records. *)
Theorem C34_schedule_of_a_run :
  forall (S N : Type) (G : Rng R S) (GN : NpRng N) (c : inputs R) (nb : S) (np : N) (n : nat) st o,
    run_model (A:=RX) c nb np n = Ok (st, o) -> i_save_checkpoint c = true -> (0 < i_u0 c)%R ->
    let every := match i_checkpoint_dt c with Some t => t | None => i_save_dt c end in
    (0 < every)%R ->
    let cs := checkpoints o in
    exists dt, (0 < dt)%R /\ (exists later, cs = 0%R :: later) /\ spaced every (every + dt)%R cs /\
      (0 <= s_time st - last cs 0 < every)%R.
Proof.
  intros S N G GN c nb np n st o E Hc Hu every He cs. 
  apply run_model_inv in E as (m & np' & st1 & o0 & o1 & E0 & Ew & Eu & ->).
  pose proof (construct_outcome c nb np) as H.
  change RX with (RA (fun x => x)) in E0. rewrite E0 in H.
  destruct H as (_ & _ & _ & z & _ & _ & _ & _ & HD & HI & _).
  pose proof (in_clock _ _ _ HI) as (T1 & T2 & T3 & T4 & T5 & T6).
  pose proof (de_checkpoint_dt _ _ HD) as D1. fold every in D1.
  pose proof (de_dt_sign _ _ HD) as D2.
  pose proof (de_copied _ _ HD) as (_ & _ & _ & _ & _ & _ & _ & _ & _ & _ & _ & _ & _ & _ & _ & _ & _ & _ & _ & _ & D3).
  exists (p_dt (m_P m)). split; [tauto|].
  assert (B1 : (0 < p_checkpoint_dt (m_P m))%R) by (rewrite D1; exact He).
  assert (B2 : (0 < p_dt (m_P m))%R) by tauto. rewrite Hc in D3.
  destruct (C34_checkpoint_schedule S G (m_P m) (m_st m) st1 st o0 o1 n D3 B1 B2 T6 Ew Eu) as (K1 & K2 & K3).
  rewrite T1 in K1. rewrite D1 in K2, K3. auto.
Qed.
Print Assumptions C34_schedule_of_a_run.

Theorem C33_schedule_of_a_run :
  forall (S N : Type) (G : Rng R S) (GN : NpRng N) (c : inputs R) (nb : S) (np : N) (n : nat) st o,
    run_model (A:=RX) c nb np n = Ok (st, o) -> (0 < i_u0 c)%R -> (0 < i_save_dt c)%R ->
    let rs := records o in
    exists dt, (0 < dt)%R /\ (exists later, rs = (0, 0%R) :: later) /\ map fst rs = zseq 0 (length rs) /\
      spaced (i_save_dt c) (i_save_dt c + dt)%R (map snd rs) /\
      (0 <= s_time st - last (map snd rs) 0 < i_save_dt c)%R /\ (s_time st = INR n * dt)%R.
Proof.
  intros S N G GN c nb np n st o E Hu He rs.
  apply run_model_inv in E as (m & np' & st1 & o0 & o1 & E0 & Ew & Eu & ->).
  pose proof (construct_outcome c nb np) as H.
  change RX with (RA (fun x => x)) in E0. rewrite E0 in H.
  destruct H as (_ & _ & _ & z & _ & _ & _ & _ & HD & HI & _).
  pose proof (in_clock _ _ _ HI) as (T1 & T2 & T3 & T4 & T5 & T6).
  pose proof (de_dt_sign _ _ HD) as D2.
  pose proof (de_copied _ _ HD) as (_ & _ & _ & _ & _ & _ & _ & _ & _ & _ & _ & _ & _ & _ & _ & _ & _ & _ & _ & D3 & _).
  exists (p_dt (m_P m)). split; [tauto|].
  assert (B1 : (0 < p_save_dt (m_P m))%R) by (rewrite D3; exact He).
  assert (B2 : (0 < p_dt (m_P m))%R) by tauto.
  destruct (C33_save_schedule S G (m_P m) (m_st m) st1 st o0 o1 n B1 B2 T5 T3 Ew Eu) as (K1 & K2 & K3 & K4 & K5).
  rewrite T1 in K1. rewrite D3 in K3, K5. split; auto. split; auto. split; auto. split; auto.
  apply updates_clock in Eu as (_ & Et & _). apply write_records in Ew as (B0 & _).
  rewrite Et, B0, T1. ring.
Qed.
Print Assumptions C33_schedule_of_a_run.

Example C34_run_hypotheses : exists st o, run_model (A:=RX) (G:=half_rng) (exI (A:=RX)) tt 0 7 = Ok (st, o) /\
  i_save_checkpoint (exI (A:=RX)) = true /\ (0 < i_u0 (exI (A:=RX)))%R /\ (0 < i_save_dt (exI (A:=RX)))%R.
Proof.
  destruct (C56_runnable_configurations_run unit Z half_rng count_rng (exI (A:=RX)) tt 0 7 exI_runnable half_rng_range half_rng_pos)
    as (st & o & E). exists st, o. split; [exact E|]. split; [reflexivity|]. cbn. lra.
Qed.
