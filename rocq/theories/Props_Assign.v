(** Property C82 (assigning configuration values to a model in use). *)
From Coq Require Import ZArith List Bool Reals Lra Lia.
From Verif Require Import Base RLemmas Params State Inputs Iter Init InitSpec InitProofs RunProofs IterProofs Session SessionSpec
  AttrProofs IterSpec BudgetSpec BudgetProofs MirrorFlow Assign AssignSpec AssignProofs Examples Props_Init.
Import ListNotations.
Local Open Scope R_scope.

(** A value that the update reads itself acts from the next update on: the
    run goes on as that of the model made from the configuration with this
    value would from the present state.  In any arithmetic. *)
Theorem C82_acts_as_configured :
  forall (F : Type) (A : Arith F) (S N : Type) (G : Rng F S) (GN : NpRng N) (ch : change F) (c : inputs F) (nb : S) (np : N)
    (m m1 : model S),
    in_use c nb np m -> acts_at_once ch c -> apply_change ch m = Ok m1 ->
    exists m2 o np', new_model (configured ch c) nb np = Ok (m2, o, np') /\
      m_in m1 = m_in m2 /\ m_st m1 = m_st m /\
      forall n, updates (m_P m1) n (m_st m1) = updates (m_P m2) n (m_st m).
Proof. intros F A S N G GN ch c nb np m m1. apply acts_as_configured. Qed.
Print Assumptions C82_acts_as_configured.

(** Assigned before anything else was done, it makes the model of the changed
    configuration (the composition of the boundary is also that of the initial
    bed, which is not made again). *)
Theorem C82_before_the_first_update :
  forall (F : Type) (A : Arith F) (S N : Type) (G : Rng F S) (GN : NpRng N) (ch : change F) (c : inputs F) (nb : S) (np np' : N)
    (m m1 : model S),
    construct c nb np = Ok (m, np') -> acts_at_once ch c -> (forall x, ch <> To_sand_frac_bc x) ->
    apply_change ch m = Ok m1 -> construct (configured ch c) nb np = Ok (m1, np').
Proof. intros F A S N G GN ch c nb np np' m m1. apply before_first. Qed.
Print Assumptions C82_before_the_first_update.

(** Values only used when a model is made are stored and change nothing. *)
Theorem C82_no_effect :
  forall (F : Type) (A : Arith F) (S : Type) (G : Rng F S) (ch : change F) (m m1 : model S),
    used_when_made ch -> apply_change ch m = Ok m1 ->
    m_in m1 = configured ch (m_in m) /\ m_finalized m1 = m_finalized m /\
    forall n, updates (m_P m1) n (m_st m1) = updates (m_P m) n (m_st m).
Proof.
  intros F A S G ch m m1 H E. pose proof (apply_ignored ch m m1 H E) as K. destruct (apply_state ch m m1 E) as [Ks Kf].
  split; [|split; [exact Kf|rewrite K, Ks; reflexivity]].
  destruct ch; try contradiction; unfold apply_change, stored in E; cbv zeta in E;
    try (apply rbind_Ok in E as (inp & E0 & E)); apply Ok_inj in E; subst m1; cbn [m_in]; try reflexivity.
  - unfold set_L0_meters in E0. destruct (fltb _ _); [discriminate|]. apply Ok_inj in E0. subst. reflexivity.
  - unfold set_N0_meters in E0. destruct (fleb _ _); [discriminate|]. apply Ok_inj in E0. subst. reflexivity.
  - unfold set_C0_percent in E0. destruct (fltb _ _); [discriminate|]. apply Ok_inj in E0. subst. reflexivity.
Qed.
Print Assumptions C82_no_effect.

(** Configured, the same value would have been used. *)
Theorem C82_configured_it_counts :
  forall (S N : Type) (G : Rng R S) (GN : NpRng N) (ch : change R) (c : inputs R) (nb : S) (np np2 : N) (m m1 m2 : model S) o2,
    in_use (A:=RX) (G:=G) c nb np m -> apply_change (A:=RX) ch m = Ok m1 ->
    new_model (A:=RX) (G:=G) (configured ch c) nb np = Ok (m2, o2, np2) ->
    let P1 := m_P m1 in let P2 := m_P m2 in
    match ch with
    | To_beta x => p_beta P1 = i_beta c /\ p_beta P2 = x
    | To_sed_lag x => p_lambda P1 = i_sed_lag c /\ p_lambda P2 = x
    | To_C0_percent x => p_C0 P1 = i_C0_percent c / 100 /\ p_C0 P2 = x / 100
    | To_coeff_theta_sand x => p_theta_sand P1 = i_coeff_theta_sand c * i_theta_water c /\ p_theta_sand P2 = x * i_theta_water c
    | To_coeff_theta_mud x => p_theta_mud P1 = i_coeff_theta_mud c * i_theta_water c /\ p_theta_mud P2 = x * i_theta_water c
    | To_coeff_U_dep_mud x => p_U_dep_mud P1 = i_coeff_U_dep_mud c * i_u0 c /\ p_U_dep_mud P2 = x * i_u0 c
    | To_coeff_U_ero_mud x => p_U_ero_mud P1 = i_coeff_U_ero_mud c * i_u0 c /\ p_U_ero_mud P2 = x * i_u0 c
    | To_coeff_U_ero_sand x => p_U_ero_sand P1 = i_coeff_U_ero_sand c * i_u0 c /\ p_U_ero_sand P2 = x * i_u0 c
    | To_subsidence_rate x => i_toggle_subsidence c = true -> forall i j,
        p_sigma P1 i j = lowering P1 (i_subsidence_rate c) i /\ p_sigma P2 i j = lowering P2 x i
    | To_alpha x => exists k, p_diffusion_multiplier P1 = k * i_alpha c /\ p_diffusion_multiplier P2 = k * x
    | _ => True
    end.
Proof.
  intros S N G GN ch c nb np np2 m m1 m2 o2 HU E E2. cbv zeta.
  destruct (in_use_made _ _ _ _ HU) as (m0 & np' & E0 & HI & HP).
  apply new_model_inv in E2 as (m3 & E2 & HP2 & _). rewrite HP2. change RX with (RA (fun x => x)) in *.
  pose proof (construct_outcome c nb np) as H. rewrite E0 in H. destruct H as (Hac & _ & _ & z & _ & _ & _ & _ & Hd & _).
  pose proof (construct_outcome (configured ch c) nb np) as H2. rewrite E2 in H2. destruct H2 as (_ & _ & _ & z2 & _ & _ & _ & _ & Hd2 & _).
  clear E0 E2. rewrite <- HP in Hd.
  pose proof (fun H => apply_ignored ch m m1 H E) as KI. clear E.
  destruct ch; try exact I; rewrite (KI I); clear KI; cbn [configured] in Hd2.
  all: try (split; [first [exact (de_C0 _ _ Hd)|exact (proj1 (proj2 (de_theta _ _ Hd)))|exact (proj2 (proj2 (de_theta _ _ Hd)))
                          |exact (proj1 (de_thresholds _ _ Hd))|exact (proj1 (proj2 (de_thresholds _ _ Hd)))
                          |exact (proj2 (proj2 (de_thresholds _ _ Hd)))
                          |apply (de_copied _ _ Hd)]
                   |first [exact (de_C0 _ _ Hd2)|exact (proj1 (proj2 (de_theta _ _ Hd2)))|exact (proj2 (proj2 (de_theta _ _ Hd2)))
                          |exact (proj1 (de_thresholds _ _ Hd2))|exact (proj1 (proj2 (de_thresholds _ _ Hd2)))
                          |exact (proj2 (proj2 (de_thresholds _ _ Hd2)))
                          |apply (de_copied _ _ Hd2)]]).
  - intros Ht i j. rewrite (de_sigma _ _ Hd), Ht. split; [reflexivity|]. rewrite (de_sigma _ _ Hd2).
    change (i_toggle_subsidence (seti_subsidence_rate x c)) with (i_toggle_subsidence c). rewrite Ht. reflexivity.
  - assert (EW : p_W (m_P m3) = p_W (m_P m)).
    { eapply rounded_unique; [exact (proj1 (de_cols _ _ Hd2))|exact (proj1 (de_cols _ _ Hd))]. }
    assert (EN : p_N0 (m_P m3) = p_N0 (m_P m)).
    { destruct (de_N0 _ _ Hd2) as (n2 & R2 & ->). destruct (de_N0 _ _ Hd) as (n1 & R1 & ->). rewrite EW.
      rewrite (rounded_unique _ _ _ R2 R1). reflexivity. }
    assert (Ec : p_N_crossdiff (m_P m3) = p_N_crossdiff (m_P m)).
    { destruct (de_passes _ _ Hd2) as [R2 _]. destruct (de_passes _ _ Hd) as [R1 _]. rewrite EN in R2. eapply rounded_unique; eauto. }
    assert (Et : p_dt (m_P m3) = p_dt (m_P m)).
    { rewrite (proj2 (de_dt _ _ Hd2)), (proj2 (de_dt _ _ Hd)), EN. reflexivity. }
    exists (p_dt (m_P m) / IZR (p_N_crossdiff (m_P m)) / 2 / (i_dx c * i_dx c)).
    rewrite (de_multiplier _ _ Hd), (de_multiplier _ _ Hd2), Ec, Et.
    change (i_dx (seti_alpha x c)) with (i_dx c). change (i_alpha (seti_alpha x c)) with x.
    destruct (de_passes _ _ Hd) as [_ Hp]. assert (IZR (p_N_crossdiff (m_P m)) <> 0) by (apply IZR_neq; lia).
    pose proof (ac_dx _ Hac) as (Hdx & _). split; field; split; lra.
Qed.
Print Assumptions C82_configured_it_counts.

(** An assignment is refused exactly when a configuration with the value would
    be, and refused with ValueError. *)
Theorem C82_refused :
  forall (S N : Type) (G : Rng R S) (GN : NpRng N) (ch : change R) (c : inputs R) (nb : S) (np : N) (m : model S),
    in_use (A:=RX) (G:=G) (GN:=GN) c nb np m ->
    (accepted (configured ch c) -> exists m1, apply_change (A:=RX) ch m = Ok m1) /\
    (~ accepted (configured ch c) -> apply_change (A:=RX) ch m = Err ValueError).
Proof.
  intros S N G GN ch c nb np m HU. destruct (in_use_made _ _ _ _ HU) as (m0 & np' & E0 & _).
  change RX with (RA (fun x => x)) in *.
  pose proof (construct_outcome c nb np) as H. rewrite E0 in H. destruct H as (Ha & _).
  destruct (change_refused ch m) as [K1 K2]. pose proof (range_accepted ch c Ha) as K. split; intros Hc; [apply K1|apply K2]; tauto.
Qed.
Print Assumptions C82_refused.

(** Some of the stored values wait: the next assignment of a public inlet
    attribute computes the inlet's quantities from everything stored, also
    from values assigned long before. *)
Theorem C82_pending :
  forall (S : Type) (ch : change R) (s : setting) (u : R) (m m1 m2 : model S),
    inlet_setting s = true -> apply_change (A:=RX) ch m = Ok m1 -> assign_later (A:=RX) s u m1 = Ok m2 ->
    recomputed (m_in m2) (m_P m2) /\
    match ch with
    | To_beta x => p_beta (m_P m2) = x
    | To_sed_lag x => p_lambda (m_P m2) = x
    | To_alpha x => p_diffusion_multiplier (m_P m2) * (2 * (i_dx (m_in m) * i_dx (m_in m))) * IZR (p_N_crossdiff (m_P m2))
                    = p_dt (m_P m2) * x
    | To_L0_meters x => exists n, rounded (x / i_dx (m_in m)) n /\ p_L0 (m_P m2) = Z.max 1 (Z.min n (p_L (m_P m) / 4))
    | To_N0_meters x => s <> ChannelWidth ->
        exists n, rounded (x / i_dx (m_in m)) n /\ p_N0 (m_P m2) = Z.max 3 (Z.min n (p_W (m_P m) / 4))
    | To_C0_percent x => s <> Concentration -> p_C0 (m_P m2) = x / 100
    | _ => True
    end.
Proof.
  intros S ch s u m m1 m2 Hs E E2. pose proof (later_settled _ _ _ _ E2) as HS. change RX with (RA (fun x => x)) in *.
  pose proof (change_settled _ _ _ E) as HS1.
  destruct (later_recomputes s u m1 m2 Hs E2) as [HR (g & Eg & Hg)]. split; [exact HR|].
  assert (HI : used_when_made ch -> m_in m1 = configured ch (m_in m)).
  { intros Hu. destruct ch; try contradiction; unfold apply_change, stored in E; cbv zeta in E;
      try (apply rbind_Ok in E as (inp & E0 & E)); apply Ok_inj in E; subst m1; cbn [m_in]; try reflexivity.
    - unfold set_L0_meters in E0. destruct (fltb _ _); [discriminate|]. apply Ok_inj in E0. subst. reflexivity.
    - unfold set_N0_meters in E0. destruct (fleb _ _); [discriminate|]. apply Ok_inj in E0. subst. reflexivity.
    - unfold set_C0_percent in E0. destruct (fltb _ _); [discriminate|]. apply Ok_inj in E0. subst. reflexivity. }
  destruct (Hg (m_in m1)) as (G1 & G2 & G3 & G4 & G5 & G6 & G7 & G8).
  unfold settled in HS, HS1. destruct HS as (_ & _ & _ & _ & _ & _ & SL & SW & _). destruct HS1 as (_ & _ & _ & _ & _ & _ & SL1 & SW1 & _).
  destruct HR as [R1 R2 R3 R4 R5 R6 R7 R8 R9]. rewrite Eg in *.
  destruct ch; try exact I; specialize (HI I); rewrite HI in *; cbn [configured] in *.
  - rewrite G3, G6 in R3. rewrite SL, SL1 in R3. exact R3.
  - intros K. rewrite (G7 K), G6 in R4. rewrite SW, SW1 in R4. exact R4.
  - intros K. rewrite (G8 K) in R5. exact R5.
  - rewrite G2 in R2. exact R2.
  - rewrite G1 in R1. exact R1.
  - rewrite G5, G6 in R7. exact R7.
Qed.
Print Assumptions C82_pending.

(** The others are never read again: whatever is done to a model, its
    transport thresholds, the routing exponents of sand and mud, the depth of
    its basin, its size and its inlet cells stay those it was made with. *)
Theorem C82_never :
  forall (F : Type) (A : Arith F) (S : Type) (G : Rng F S) (m m' : model S), handled m m' -> settled (m_P m) (m_P m').
Proof. intros F A S G m m'. apply handled_settled. Qed.
Print Assumptions C82_never.

(** Four values act in one place and not in another that follows from them in
    a configured model. *)
Theorem C82_acts_in_part :
  forall (S N : Type) (G : Rng R S) (GN : NpRng N) (ch : change R) (c : inputs R) (nb : S) (np : N) (m m1 : model S),
    in_use (A:=RX) (G:=G) (GN:=GN) c nb np m -> apply_change (A:=RX) ch m = Ok m1 ->
    let P := m_P m1 in
    match ch with
    | To_theta_water x => p_theta_water P = x /\
        p_theta_sand P = i_coeff_theta_sand c * i_theta_water c /\ p_theta_mud P = i_coeff_theta_mud c * i_theta_water c
    | To_S0 x => p_S0 P = x /\ p_gamma P * (i_u0 c * i_u0 c) = 981 / 100 * i_S0 c * i_dx c
    | To_itermax n => p_itermax P = n /\ p_omega_flow_iter P * IZR (i_itermax c) = 2
    | To_Np_sed n => p_Np_sed P = n /\ IZR (i_Np_sed c) * p_Vp_sed P = p_dVs P
    | To_save_dt x => p_save_dt P = x /\ (i_checkpoint_dt c = None -> p_checkpoint_dt P = i_save_dt c)
    | _ => True
    end.
Proof.
  intros S N G GN ch c nb np m m1 HU E. cbv zeta.
  destruct (in_use_made _ _ _ _ HU) as (m0 & np' & E0 & HI & HP). change RX with (RA (fun x => x)) in *.
  pose proof (construct_outcome c nb np) as H. rewrite E0 in H. destruct H as (Ha & Hv & _ & z & _ & _ & _ & _ & Hd & _).
  clear E0. rewrite <- HP in Hd.
  destruct ch; try exact I; unfold apply_change, stored in E; cbv zeta in E;
    try (apply rbind_Ok in E as (inp & _ & E)); apply Ok_inj in E; subst m1; cbn [m_P].
  - split; [reflexivity|]. intros K. change (p_checkpoint_dt (m_P m) = i_save_dt c). rewrite (de_checkpoint_dt _ _ Hd), K. reflexivity.
  - split; [reflexivity|]. exact (proj2 (de_theta _ _ Hd)).
  - split; [reflexivity|]. change (p_gamma (m_P m) * (i_u0 c * i_u0 c) = 981 / 100 * i_S0 c * i_dx c). rewrite (de_gamma _ _ Hd).
    assert (i_u0 c <> 0) by (intros K; apply Hv; unfold vanishing; tauto). field. auto.
  - split; [reflexivity|]. change (p_omega_flow_iter (m_P m) * IZR (i_itermax c) = 2). rewrite (de_omega _ _ Hd).
    assert (IZR (i_itermax c) <> 0) by (apply IZR_neq; intros K; apply Hv; unfold vanishing; tauto). field. auto.
  - split; [reflexivity|]. exact (de_sed_parcels _ _ Hd).
Qed.
Print Assumptions C82_acts_in_part.

(** So the number of sediment parcels, which in a configuration only sets how
    finely the supply is divided, changes the supply when it is assigned: each
    parcel keeps its volume. *)
Theorem C82_parcels_change_the_supply :
  forall (S N : Type) (G : Rng R S) (GN : NpRng N) (n : Z) (c : inputs R) (nb : S) (np : N) (m m1 : model S) l st',
    in_use (A:=RX) (G:=G) (GN:=GN) c nb np m -> apply_change (A:=RX) (To_Np_sed n) m = Ok m1 ->
    accounts (m_P m1) (m_st m1) l st' -> whole_shares (m_P m1) ->
    let supply := i_u0 c * i_h0 c * (IZR (p_N0 (m_P m1)) * i_dx c) * (i_C0_percent c / 100) in
    total a_fed l = IZR n / IZR (i_Np_sed c) * (supply * (s_time st' - s_time (m_st m1))).
Proof.
  intros S N G GN n c nb np m m1 l st' HU E Ha Hw. cbv zeta.
  pose proof (C82_acts_in_part S N G GN (To_Np_sed n) c nb np m m1 HU E) as K. cbv zeta in K. destruct K as [K1 K2].
  destruct (in_use_made _ _ _ _ HU) as (m0 & np' & E0 & HI & HP). change RX with (RA (fun x => x)) in *.
  pose proof (construct_outcome c nb np) as H. rewrite E0 in H. destruct H as (Hac & Hv & _ & z & _ & _ & _ & _ & Hd & _).
  clear E0. rewrite <- HP in Hd. clear HP HI.
  destruct (fed_total _ _ _ _ Ha) as (F1 & _ & F3). rewrite (F1 Hw), K1, F3.
  unfold apply_change, stored in E; cbv zeta in E. apply rbind_Ok in E as (inp & _ & E). apply Ok_inj in E. subst m1. cbn [m_P m_st] in *.
  pose proof (de_Qs0 _ _ Hd) as EQ. rewrite (de_Qw0 _ _ Hd) in EQ.
  change (p_N0 (setp_Np_sed n (m_P m))) with (p_N0 (m_P m)). rewrite <- EQ.
  change (p_dVs (setp_Np_sed n (m_P m))) with (p_dVs (m_P m)) in K2. change (p_Vp_sed (setp_Np_sed n (m_P m))) with (p_Vp_sed (m_P m)) in *.
  change (p_dt (setp_Np_sed n (m_P m))) with (p_dt (m_P m)).
  destruct (de_dt _ _ Hd) as [Edt _]. rewrite <- Edt in K2.
  pose proof (ac_Np_sed _ Hac) as HN. assert (IZR (i_Np_sed c) <> 0) by (apply IZR_neq; lia).
  replace (p_Vp_sed (m_P m)) with (p_dt (m_P m) * p_Qs0 (m_P m) / IZR (i_Np_sed c)) by (rewrite <- K2; field; auto).
  field. auto.
Qed.
Print Assumptions C82_parcels_change_the_supply.

(** *** Cases *)

(** A model of the example configuration after an update. *)
Lemma ex_in_use : exists m, in_use (A:=RX) (G:=half_rng) (GN:=count_rng) (exI (A:=RX)) tt 0%Z m /\
  m_finalized m = false /\ model_ready (m_P m) (m_st m) /\ s_time (m_st m) = p_dt (m_P m).
Proof.
  destruct (runnable_ready (G:=half_rng) (GN:=count_rng) (exI (A:=RX)) tt 0%Z exI_runnable) as (m0 & np' & E & Hm).
  pose proof (construct_outcome (G:=half_rng) (GN:=count_rng) (exI (A:=RX)) tt 0%Z) as H. change RX with (RA (fun x => x)) in *. rewrite E in H.
  destruct H as (_ & _ & _ & z & _ & _ & _ & _ & _ & Hi & _). destruct (in_clock _ _ _ Hi) as (Ht & _).
  destruct (write_output (A:=RA (fun x => x)) (m_P m0) (m_st m0)) as [st o] eqn:Ew.
  pose proof (write_ready _ _ _ _ Ew Hm) as Hm1.
  destruct (updates_total (G:=half_rng) (m_P m0) 1 st Hm1 half_rng_range half_rng_pos) as (st' & o' & E2 & Hm2).
  exists (mkModel (m_in m0) (m_P m0) st' false). cbn [m_P m_st m_finalized].
  split; [|split; [reflexivity|split; [exact Hm2|]]].
  - cbn [updates] in E2. apply rbind_Ok in E2 as ([sa oa] & Ea & E2). cbn [rbind] in E2.
    apply Ok_inj in E2. apply (f_equal fst) in E2. cbn [fst] in E2. subst sa.
    eapply in_use_update with (o := oa) (m := mkModel (m_in m0) (m_P m0) st false).
    + eapply in_use_new. unfold new_model. change RX with (RA (fun x => x)). rewrite E. cbn [rbind]. rewrite Ew. reflexivity.
    + unfold model_update. cbn [m_finalized m_P m_st m_in]. change RX with (RA (fun x => x)).
      rewrite Ea. reflexivity.
  - apply updates_clock in E2 as (_ & K & _). apply write_records in Ew as (Kt & _). rewrite K, Kt, Ht. cbn [INR]. ring.
Qed.

Example C82_acts_hypotheses : exists m m1, in_use (A:=RX) (G:=half_rng) (GN:=count_rng) (exI (A:=RX)) tt 0%Z m /\
  acts_at_once (To_omega_sfc (1 / 5)) (exI (A:=RX)) /\ apply_change (A:=RX) (To_omega_sfc (1 / 5)) m = Ok m1 /\
  m_P m1 <> m_P m.
Proof.
  destruct ex_in_use as (m & HU & _). exists m. eexists. split; [exact HU|]. split; [exact I|]. split; [reflexivity|]. cbn [m_P].
  destruct (in_use_made _ _ _ _ HU) as (m0 & np' & E0 & HI & HP). change RX with (RA (fun x => x)) in *.
  pose proof (construct_outcome (G:=half_rng) (GN:=count_rng) (exI (A:=RA (fun x => x))) tt 0%Z) as H. rewrite E0 in H.
  destruct H as (_ & _ & _ & z & _ & _ & _ & _ & Hd & _). rewrite <- HP in Hd. intros K. apply (f_equal p_omega_sfc) in K.
  destruct (de_copied _ _ Hd) as (_ & _ & _ & _ & _ & _ & _ & _ & _ & _ & _ & Ko & _). rewrite Ko in K. cbn in K. lra.
Qed.

(** A value without effect: the exponent that steers the flow around shallow
    water; configured it would be 5 instead of 3. *)
Example C82_no_effect_hypotheses : exists m m1 m2 o2 np2,
  in_use (A:=RX) (G:=half_rng) (GN:=count_rng) (exI (A:=RX)) tt 0%Z m /\
  apply_change (A:=RX) (To_beta 5) m = Ok m1 /\
  new_model (A:=RX) (G:=half_rng) (GN:=count_rng) (configured (To_beta 5) (exI (A:=RX))) tt 0%Z = Ok (m2, o2, np2) /\
  p_beta (m_P m1) = 3 /\ p_beta (m_P m2) = 5.
Proof.
  destruct ex_in_use as (m & HU & _).
  assert (Hr : runnable (configured (To_beta 5) (exI (A:=RX)))).
  { constructor; try exact exI_accepted; cbn; try lra; try lia. 2:{ intros x E. discriminate. }
    constructor; cbn; try lra; try lia. intros t E. discriminate. }
  destruct (runnable_ready (G:=half_rng) (GN:=count_rng) _ tt 0%Z Hr) as (m0 & np' & E & _).
  destruct (write_output (A:=RX) (m_P m0) (m_st m0)) as [st o] eqn:Ew.
  assert (E2 : new_model (A:=RX) (G:=half_rng) (GN:=count_rng) (configured (To_beta 5) (exI (A:=RX))) tt 0%Z
                 = Ok (mkModel (m_in m0) (m_P m0) st false, o, np')).
  { unfold new_model. change RX with (RA (fun x => x)) in *. rewrite E. cbn [rbind]. rewrite Ew. reflexivity. }
  assert (E1 : exists m1, apply_change (A:=RX) (To_beta 5) m = Ok m1) by (eexists; reflexivity). destruct E1 as [m1 E1].
  pose proof (C82_configured_it_counts unit Z half_rng count_rng (To_beta 5) exI tt 0%Z np' m m1 _ o HU E1 E2) as K.
  cbv zeta in K. destruct K as [K1 K2].
  eexists m, m1, _, o, np'. split; [exact HU|]. split; [exact E1|]. split; [exact E2|]. split; [exact K1|exact K2].
Qed.

Example C82_refused_cases : exists m, in_use (A:=RX) (G:=half_rng) (GN:=count_rng) (exI (A:=RX)) tt 0%Z m /\
  apply_change (A:=RX) (To_Csmooth (-1)) m = Err ValueError /\ apply_change (A:=RX) (To_Np_sed 0) m = Err ValueError /\
  accepted (configured (To_N0_meters 1000) (exI (A:=RX))).
Proof.
  destruct ex_in_use as (m & HU & _). exists m. split; [exact HU|].
  split; [apply (change_refused (To_Csmooth (-1)) m); cbn; lra|]. split; [apply (change_refused (To_Np_sed 0) m); cbn; lia|].
  apply (range_accepted (To_N0_meters 1000) exI exI_accepted). cbn. lra.
Qed.

(** A lag assigned in vain, then used because the inflow velocity is changed. *)
Example C82_pending_hypotheses : exists m m1 m2, in_use (A:=RX) (G:=half_rng) (GN:=count_rng) (exI (A:=RX)) tt 0%Z m /\
  apply_change (A:=RX) (To_sed_lag (1 / 2)) m = Ok m1 /\ p_lambda (m_P m1) = 1 /\
  assign_later (A:=RX) FlowVelocity 2 m1 = Ok m2 /\ p_lambda (m_P m2) = 1 / 2.
Proof.
  destruct ex_in_use as (m & HU & _).
  assert (E1 : exists m1, apply_change (A:=RX) (To_sed_lag (1 / 2)) m = Ok m1 /\ m_P m1 = m_P m /\ m_in m1 = seti_sed_lag (1 / 2) (m_in m)).
  { eexists; repeat split; reflexivity. }
  destruct E1 as (m1 & E1 & KP & KI).
  destruct (in_use_made _ _ _ _ HU) as (m0 & np' & E0 & HI & HP). change RX with (RA (fun x => x)) in *.
  pose proof (construct_outcome (G:=half_rng) (GN:=count_rng) (exI (A:=RA (fun x => x))) tt 0%Z) as H. rewrite E0 in H.
  destruct H as (_ & _ & _ & z & _ & _ & _ & _ & Hd & _). rewrite <- HP in Hd.
  destruct (construct_wired _ _ _ _ _ E0) as [[B1 B2 B3 B4 B5 (B6 & B7) B8] _ _ _ _ _ _]. rewrite <- HI in B1, B2, B3, B4, B5, B6, B7. rewrite <- HP in *.
  assert (HB : buildable (exI (A:=RA (fun x => x))) (seti_u0 2 (m_in m1)) (setp_u0 2 (m_P m1))).
  { rewrite KI, KP. constructor; auto. cbn. lra. }
  destruct (boundary_ok _ _ _ HB) as (P' & Eb & _).
  assert (E2 : exists m2, assign_later (A:=RA (fun x => x)) FlowVelocity 2 m1 = Ok m2).
  { unfold assign_later, assign, set_channel_flow_velocity, rebuild. rewrite Eb. eexists. reflexivity. }
  destruct E2 as [m2 E2]. exists m, m1, m2. split; [exact HU|]. split; [exact E1|].
  split; [rewrite KP; destruct (de_copied _ _ Hd) as (_ & _ & _ & _ & _ & _ & _ & _ & _ & _ & Kl & _); rewrite Kl; reflexivity|].
  split; [exact E2|]. exact (proj2 (C82_pending unit (To_sed_lag (1 / 2)) FlowVelocity 2 m m1 m2 eq_refl E1 E2)).
Qed.

(** Twice as many parcels deliver twice the sediment. *)
Example C82_twice_the_parcels : exists m m1 l st', in_use (A:=RX) (G:=half_rng) (GN:=count_rng) (exI (A:=RX)) tt 0%Z m /\
  apply_change (A:=RX) (To_Np_sed 8) m = Ok m1 /\ accounts (G:=half_rng) (m_P m1) (m_st m1) l st' /\ List.length l = 3%nat /\
  whole_shares (m_P m1) /\
  total a_fed l = 2 * (5 * (IZR (p_N0 (m_P m1)) * 50) * (1 / 1000) * (s_time st' - s_time (m_st m1))).
Proof.
  destruct ex_in_use as (m & HU & _ & Hr & _).
  assert (E1 : exists m1, apply_change (A:=RX) (To_Np_sed 8) m = Ok m1 /\ m_P m1 = setp_Np_sed 8 (m_P m) /\ m_st m1 = m_st m).
  { eexists; repeat split; reflexivity. }
  destruct E1 as (m1 & E1 & KP & KS).
  destruct (in_use_made _ _ _ _ HU) as (m0 & np' & E0 & HI & HP). change RX with (RA (fun x => x)) in *.
  pose proof (construct_outcome (G:=half_rng) (GN:=count_rng) (exI (A:=RA (fun x => x))) tt 0%Z) as H. rewrite E0 in H.
  destruct H as (_ & _ & _ & z & _ & _ & _ & _ & Hd & _). rewrite <- HP in Hd.
  destruct (de_copied _ _ Hd) as (_ & _ & _ & _ & _ & _ & _ & Cf & _).
  assert (Hr1 : model_ready (m_P m1) (m_st m1)).
  { rewrite KP, KS. destruct Hr as (W & T & D). split; [|split].
    - destruct W; constructor; assumption.
    - destruct T; constructor; assumption.
    - destruct D; constructor; assumption. }
  destruct (updates_total (G:=half_rng) (m_P m1) 3 (m_st m1) Hr1 half_rng_range half_rng_pos) as (st' & o' & E2 & _).
  assert (HN : (0 <= p_Np_sed (m_P m1))%Z) by (rewrite KP; cbn; lia).
  assert (Hf : 0 <= p_f_bedload (m_P m1) <= 1) by (rewrite KP; change (0 <= p_f_bedload (m_P m) <= 1); rewrite Cf; cbn; lra).
  destruct (accounts_exist (m_P m1) half_rng_range half_rng_pos HN Hf 3 _ _ _ Hr1 E2) as (l & H1 & H2 & _).
  assert (Hw : whole_shares (m_P m1)).
  { exists 4%Z. rewrite KP. change (4 = 8 * p_f_bedload (m_P m)). rewrite Cf. cbn. lra. }
  exists m, m1, l, st'. split; [exact HU|]. split; [exact E1|]. split; [exact H2|]. split; [exact H1|]. split; [exact Hw|].
  pose proof (C82_parcels_change_the_supply unit Z half_rng count_rng 8 exI tt 0%Z m m1 l st' HU E1 H2 Hw) as K. cbv zeta in K.
  rewrite K. cbn [i_u0 i_h0 i_dx i_C0_percent i_Np_sed exI]. cbn. lra.
Qed.

Example C82_before_hypotheses : exists m np' m1,
  construct (A:=RX) (G:=half_rng) (GN:=count_rng) (exI (A:=RX)) tt 0%Z = Ok (m, np') /\
  apply_change (A:=RX) (To_SLR (1 / 1000)) m = Ok m1 /\ acts_at_once (To_SLR (1 / 1000)) (exI (A:=RX)) /\
  forall x, To_SLR (1 / 1000) <> To_sand_frac_bc x.
Proof.
  destruct (runnable_ready (G:=half_rng) (GN:=count_rng) (exI (A:=RX)) tt 0%Z exI_runnable) as (m & np' & E & _).
  exists m, np'. eexists. split; [exact E|]. split; [reflexivity|]. split; [exact I|]. intros x. discriminate.
Qed.
