(** Proofs about the time loop. *)
From Coq Require Import ZArith List Bool Reals Lra Lia.
From Verif Require Import Base RLemmas Shared SharedSpec Params State Water WaterSpec VecLemmas
  RunProofs FlowProofs Sed SedSpec SedCor Diffusion Iter IterSpec FrameProofs.
Import ListNotations.
Local Open Scope R_scope.

Section Robust.
  Context (rnd : R -> R) {HR : Rounding rnd} {S : Type} {G : Rng R S} (P : params R).
  Notation A := (RA rnd).

  Lemma at_inlet_spec i j : ((i =? 0)%Z && in_inlet P j)%bool = true <-> inlet_cell P i j.
  Proof.
    unfold inlet_cell. rewrite andb_true_iff, Z.eqb_eq, in_inlet_spec. tauto.
  Qed.

  (** ** End of a step *)
  Lemma finalize_levels_spec (st : state R S) :
    let st' := finalize_levels (A:=A) P st in
    (forall i j, s_H_SL st <= s_stage st' i j) /\
    (forall i j, ~ inlet_cell P i j ->
       s_depth st' i j = Rmax (rnd (s_stage st' i j - s_eta st' i j)) 0 /\ s_eta st' i j = s_eta st i j) /\
    (forall i j, inlet_cell P i j ->
       s_depth st' i j = p_h0 P /\ s_eta st' i j = rnd (s_stage st' i j - p_h0 P)).
  Proof.
    cbv zeta. unfold finalize_levels. cbn -[npmax flooding_correction in_inlet].
    rewrite !gmemo_id. cbn -[npmax flooding_correction in_inlet]. rewrite ?gmemo_id. split; [|split].
    - intros i j. rewrite npmax_R. apply Rmax_r.
    - intros i j Hn. destruct ((i =? 0)%Z && in_inlet P j) eqn:E.
      + apply at_inlet_spec in E. contradiction.
      + rewrite !npmax_R, ?rnd_0. auto.
    - intros i j Hn. apply at_inlet_spec in Hn. rewrite Hn. auto.
  Qed.

  Lemma finalize_levels_frame (st : state R S) : let st' := finalize_levels (A:=A) P st in
    s_H_SL st' = s_H_SL st /\ s_eta0 st' = s_eta0 st /\ s_sand_frac st' = s_sand_frac st /\
    s_active_layer st' = s_active_layer st /\ s_Vp_dep_sand st' = s_Vp_dep_sand st /\
    s_Vp_dep_mud st' = s_Vp_dep_mud st.
  Proof. repeat split. Qed.

  Lemma clock_fields (st : state R S) x : let st' := advance_clock (A:=A) P (set_H_SL x st) in
    s_eta st' = s_eta st /\ s_stage st' = s_stage st /\ s_depth st' = s_depth st /\
    s_sand_frac st' = s_sand_frac st /\ s_active_layer st' = s_active_layer st /\
    s_Vp_dep_sand st' = s_Vp_dep_sand st /\ s_Vp_dep_mud st' = s_Vp_dep_mud st.
  Proof. repeat split. Qed.
  Lemma sand_frac_frame (st : state R S) : let st' := compute_sand_frac (A:=A) P st in
    s_eta st' = s_eta st /\ s_stage st' = s_stage st /\ s_depth st' = s_depth st /\
    s_Vp_dep_sand st' = s_Vp_dep_sand st /\ s_Vp_dep_mud st' = s_Vp_dep_mud st.
  Proof. repeat split. Qed.
  Lemma finalize_fields (st : state R S) :
    let st4 := finalize_levels (A:=A) P st in
    let st' := advance_clock (A:=A) P (finalize_timestep (A:=A) P st) in
    s_eta st' = s_eta st4 /\ s_stage st' = s_stage st4 /\ s_depth st' = s_depth st4 /\
    s_Vp_dep_sand st' = s_Vp_dep_sand st4 /\ s_Vp_dep_mud st' = s_Vp_dep_mud st4 /\
    s_sand_frac st' = s_sand_frac (compute_sand_frac (A:=A) P st4) /\
    s_active_layer st' = s_active_layer (compute_sand_frac (A:=A) P st4).
  Proof.
    cbv zeta. unfold finalize_timestep. generalize (finalize_levels (A:=A) P st). intros st4.
    cbv zeta. match goal with |- context [set_H_SL ?x _] => generalize x end. intros x.
    pose proof (sand_frac_frame st4) as H. cbv zeta in H.
    generalize dependent (compute_sand_frac (A:=A) P st4). intros st5 H.
    destruct (clock_fields st5 x) as (-> & -> & -> & -> & -> & -> & ->). tauto.
  Qed.

  Lemma update_step_end (st st' : state R S) o : update (A:=A) P st = Ok (st', o) -> step_end rnd P st st'.
  Proof.
    intros E. pose proof (update_frame _ _ _ _ E) as (F0 & F1 & F2 & F3 & F4 & F5 & F6 & F7).
    ra_in F5. ra_in F6.
    apply update_inv in E as (st1 & st2 & E1 & E2 & E3).
    apply route_water_frame in E1. apply route_sediment_frame in E2.
    apply write_output_same in E3. apply same_fields in E3.
    destruct E3 as (H1 & _ & H3 & H4 & _).
    pose proof (subsidence_fields (A:=A) P st2) as H5. cbn zeta in H5.
    set (st3 := apply_subsidence (A:=A) P st2) in *.
    assert (Hsl : s_H_SL st3 = s_H_SL st).
    { unfold water_frame in E1. unfold sed_frame in E2, H5. cbn in E1. intuition congruence. }
    pose proof (finalize_levels_spec st3) as (L1 & L2 & L3).
    set (st4 := finalize_levels (A:=A) P st3) in *.
    destruct (finalize_fields st3) as (Q1 & Q2 & Q3 & _). fold st4 in Q1, Q2, Q3.
    assert (Ha : s_stage st' = s_stage st4) by congruence.
    assert (Hb : s_depth st' = s_depth st4) by congruence.
    assert (Hc : s_eta st' = s_eta st4) by congruence.
    clear Q1 Q2 Q3 H1 H3 H4. clearbody st4.
    constructor; rewrite ?Ha, ?Hb, ?Hc; auto.
    - intros i j. rewrite <- Hsl. apply L1.
    - intros i j Hn. apply L2; auto.
  Qed.

  Lemma run_steps (Q : state R S -> state R S -> Prop) :
    (forall st st' o, update (A:=A) P st = Ok (st', o) -> Q st st') ->
    forall tr (st st' : state R S), run (A:=A) P st tr st' ->
    Forall (fun p => Q (fst p) (snd p)) (steps_of st tr).
  Proof.
    intros HQ. induction tr as [|[s1 o1] tr IH]; intros st st' H; unfold steps_of; cbn; [constructor|].
    inversion H; subst. constructor; [cbn; eauto|]. exact (IH _ _ H6).
  Qed.

  (** ** Deposits of a step are non-negative and representable *)
  Definition pile (f : grid R) : Prop := forall i j, 0 <= f i j /\ rnd (f i j) = f i j.
  Definition piles (b : bed R) : Prop := pile (b_sand b) /\ pile (b_mud b).

  Lemma pile_dep f i j dV : pile f -> pile (if Rltb 0 dV then gset f i j (rnd (f i j + dV)) else f).
  Proof.
    intros H. destruct (Rltb_spec 0 dV); auto. intros a b. unfold gset.
    destruct ((a =? i) && (b =? j))%Z; auto. split; [|apply rnd_idem].
    apply rnd_nonneg; auto. specialize (H i j). lra.
  Qed.

  Lemma deposit_piles g (st : state R S) b V px py i j :
    piles b -> piles (fst (deposit_or_erode (A:=A) P g st b V px py i j)).
  Proof.
    intros [H1 H2]. unfold deposit_or_erode. cbn zeta.
    destruct g; split; cbn -[sand_change mud_change]; auto; rewrite ?(rnd_0 (rnd:=rnd));
      apply pile_dep; auto.
  Qed.

  Lemma sed_step_piles g (st : state R S) b V px py s px' py' b' V' s' :
    sed_step (A:=A) P g st b V px py s = Ok (px', py', b', V', s') -> piles b -> piles b'.
  Proof.
    unfold sed_step. intros E H. apply rbind_Ok in E as ([k s1] & _ & E).
    destruct (get_steps k) as [[[dist istep] jstep] q].
    apply rbind_Ok in E as ([i0 j0] & _ & E). apply rbind_Ok in E as ([i j] & _ & E).
    destruct (zero_divisor _ _ _ _ _ _); [discriminate|].
    match type of E with (let (_, _) := deposit_or_erode P g st ?b1 _ _ _ _ _ in _) = _ =>
      assert (Hb : piles b1) by (destruct g; auto; unfold partition_sediment; destruct (fltb _ _); auto) end.
    pose proof (deposit_piles g st _ V (px + jstep)%Z (py + istep)%Z i j Hb) as Hd.
    destruct (deposit_or_erode _ _ _ _ _ _ _ _ _) as [b2 V2]. injection E; intros; subst. exact Hd.
  Qed.

  Lemma one_parcel_piles g (st : state R S) n : forall b V px py s b' V' s',
    route_one_parcel (A:=A) P g st n b V px py s = Ok (b', V', s') -> piles b -> piles b'.
  Proof.
    induction n as [|n IH]; intros b V px py s b' V' s' E H; [discriminate|].
    cbn [route_one_parcel] in E. apply rbind_Ok in E as ([[[[px1 py1] b1] V1] s1] & E1 & E).
    apply rbind_Ok in E as ([i j] & _ & E). apply sed_step_piles in E1; auto.
    destruct (_ || _); [injection E; intros; subst; auto|eauto].
  Qed.

  Lemma parcels_piles g (st : state R S) starts : forall b s b' Vs s',
    route_parcels (A:=A) P g st starts b s = Ok (b', Vs, s') -> piles b -> piles b'.
  Proof.
    induction starts as [|c starts IH]; intros b s b' Vs s' E H.
    - injection E; intros; subst; auto.
    - cbn [route_parcels] in E. apply rbind_Ok in E as ([i j] & _ & E).
      destruct (no_flux_scale _ _); [discriminate|].
      apply rbind_Ok in E as ([[b2 V] s2] & E1 & E). apply rbind_Ok in E as ([[b3 Vs3] s3] & E2 & E).
      injection E; intros; subst. eapply IH; eauto. eapply one_parcel_piles; eauto.
      destruct g; auto.
  Qed.

  Definition state_piles (st : state R S) : Prop := pile (s_Vp_dep_sand st) /\ pile (s_Vp_dep_mud st).

  Lemma route_all_piles g (st st' : state R S) Vs :
    route_all_parcels_res (A:=A) P g st = Ok (st', Vs) -> state_piles st -> state_piles st'.
  Proof.
    unfold route_all_parcels_res. intros E H.
    apply rbind_Ok in E as ([starts s] & _ & E). apply rbind_Ok in E as ([[b Vs'] s'] & E1 & E).
    injection E as <- <-. apply parcels_piles in E1; auto.
    unfold state_piles. cbn. rewrite !gmemo_id. exact E1.
  Qed.

  Lemma route_sediment_piles (st st' : state R S) : route_sediment (A:=A) P st = Ok st' -> state_piles st'.
  Proof.
    intros E. apply (route_sediment_parts rnd P) in E as (st1 & st2 & V1 & V2 & E1 & -> & E2).
    apply route_all_piles in E1.
    - apply route_all_piles in E2; auto. unfold topo_diffusion.
      destruct (diffuse_frame (A:=A) P (Z.to_nat (p_N_crossdiff P)) st1)
        as (_ & _ & _ & _ & _ & _ & _ & H1 & H2).
      unfold state_piles in *. rewrite H1, H2. exact E1.
    - split; intros i j; cbn; split; rewrite ?rnd_0; auto; lra.
  Qed.

  (** ** Sand fraction *)
  Lemma mixture_bounds s m : 0 <= s -> rnd s = s -> 0 <= m -> rnd m = m -> 0 < s \/ 0 < m ->
    0 < rnd (m + s) /\ 0 <= rnd (s / rnd (m + s)) <= 1.
  Proof.
    intros H1 H2 H3 H4 H5.
    assert (Hs : s <= rnd (m + s)) by (apply rnd_ge_rep; auto; lra).
    assert (Hm : m <= rnd (m + s)) by (apply rnd_ge_rep; auto; lra).
    assert (Hp : 0 < rnd (m + s)) by (destruct H5; lra). split; auto. split.
    - apply rnd_nonneg; auto. apply Rmult_le_pos; auto. left. apply Rinv_0_lt_compat; auto.
    - apply rnd_le_1; auto. apply Rmult_le_reg_r with (rnd (m + s)); auto.
      unfold Rdiv. rewrite Rmult_assoc, Rinv_l by lra. lra.
  Qed.

  Lemma least_nonneg : 0 <= rnd (1 / 1000000).
  Proof. apply rnd_nonneg; auto. lra. Qed.

  Lemma sand_frac_cases (st : state R S) i j : state_piles st ->
    let st' := compute_sand_frac (A:=A) P st in
    (0 <= s_sand_frac st i j <= 1 /\ 0 <= s_active_layer st i j <= 1 -> 0 <= p_sand_frac_bc P <= 1 ->
     0 <= s_sand_frac st' i j <= 1 /\ 0 <= s_active_layer st' i j <= 1) /\
    (~ deposited (rnd (1 / 1000000)) st i j -> s_active_layer st' i j = s_active_layer st i j /\
       (s_sand_frac st' i j = s_sand_frac st i j \/ s_sand_frac st' i j = s_active_layer st i j \/
        s_sand_frac st' i j = p_sand_frac_bc P)).
  Proof.
    intros [Hs Hm]. cbv zeta. unfold compute_sand_frac. cbn -[existsb cells].
    rewrite !gmemo_id, rnd_1, (rnd_small 1000000) by lia.
    specialize (Hs i j). specialize (Hm i j). unfold deposited. rewrite !rnd_0.
    pose proof least_nonneg as Hl.
    destruct (Rltb_spec 0 (s_Vp_dep_sand st i j)); cbn [orb].
    - pose proof (mixture_bounds (s_Vp_dep_sand st i j) (s_Vp_dep_mud st i j)) as M. split; tauto.
    - destruct (Rltb_spec (rnd (1 / 1000000)) (s_Vp_dep_mud st i j)).
      + pose proof (mixture_bounds (s_Vp_dep_sand st i j) (s_Vp_dep_mud st i j)) as M.
        assert (0 < s_Vp_dep_mud st i j) by lra. split; tauto.
      + destruct (existsb _ _); [|split; [|auto]; tauto].
        destruct (_ && _); [split; [|auto]; tauto|].
        destruct (Rltb _ _); (split; [|auto]; tauto).
  Qed.

  (** The state before the sand fraction is recomputed. *)
  Lemma update_sand (st st' : state R S) o : update (A:=A) P st = Ok (st', o) ->
    exists st4, state_piles st4 /\ s_eta st4 = s_eta st' /\ s_eta0 st4 = s_eta st /\
      s_sand_frac st4 = s_sand_frac st /\ s_active_layer st4 = s_active_layer st /\
      s_Vp_dep_sand st4 = s_Vp_dep_sand st' /\ s_Vp_dep_mud st4 = s_Vp_dep_mud st' /\
      s_sand_frac (compute_sand_frac (A:=A) P st4) = s_sand_frac st' /\
      s_active_layer (compute_sand_frac (A:=A) P st4) = s_active_layer st'.
  Proof.
    intros E. apply update_inv in E as (st1 & st2 & E1 & E2 & E3).
    pose proof (route_sediment_piles _ _ E2) as Hp.
    apply route_water_frame in E1. apply route_sediment_frame in E2.
    apply write_output_same in E3. apply same_fields in E3.
    destruct E3 as (H1 & _ & _ & _ & _ & _ & _ & _ & _ & _ & H11 & H12 & H13 & H14 & _).
    pose proof (subsidence_fields (A:=A) P st2) as H5. cbn zeta in H5.
    set (st3 := apply_subsidence (A:=A) P st2) in *.
    pose proof (finalize_levels_frame st3) as FL. cbn zeta in FL.
    destruct (finalize_fields st3) as (Q1 & Q2 & Q3 & Q4 & Q5 & Q6 & Q7).
    exists (finalize_levels (A:=A) P st3).
    rewrite Q1 in H1. rewrite Q4 in H13. rewrite Q5 in H14. rewrite Q6 in H11. rewrite Q7 in H12.
    clear Q1 Q2 Q3 Q4 Q5 Q6 Q7.
    generalize dependent (finalize_levels (A:=A) P st3). intros st4 H1 H11 H12 H13 H14 FL. intros.
    destruct H5 as (F3 & _ & _ & _ & _ & V1 & V2 & _).
    destruct FL as (_ & L1 & L2 & L3 & L4 & L5). unfold state_piles.
    rewrite L1, L2, L3, L4, L5, V1, V2.
    unfold sed_frame in E2, F3. unfold water_frame in E1. cbn in E1.
    split; [exact Hp|]. rewrite <- V1, <- V2, <- L4, <- L5. intuition congruence.
  Qed.

  Lemma update_fractions (st st' : state R S) o : update (A:=A) P st = Ok (st', o) ->
    0 <= p_sand_frac_bc P <= 1 -> fractions_ok st -> fractions_ok st'.
  Proof.
    intros E Hb H i j. apply update_sand in E as (st4 & Hp & _ & _ & E1 & E2 & _ & _ & <- & <-).
    apply sand_frac_cases; auto. rewrite E1, E2. apply H.
  Qed.
  Lemma run_fractions tr : forall (st st' : state R S), run (A:=A) P st tr st' ->
    0 <= p_sand_frac_bc P <= 1 -> fractions_ok st -> Forall (fun x => fractions_ok (fst x)) tr /\ fractions_ok st'.
  Proof.
    induction tr as [|[s1 o1] tr IH]; intros st st' H Hb H0; inversion H; subst; auto.
    assert (Hf : fractions_ok s1) by (eapply update_fractions; eauto).
    destruct (IH _ _ H7 Hb Hf). auto.
  Qed.

  Lemma run_undisturbed tr : forall (st st' : state R S) i j, run (A:=A) P st tr st' ->
    s_sand_frac st i j = p_sand_frac_bc P -> s_active_layer st i j = p_sand_frac_bc P ->
    Forall (fun x => ~ deposited (rnd (1 / 1000000)) (fst x) i j) tr ->
    s_sand_frac st' i j = p_sand_frac_bc P /\ s_active_layer st' i j = p_sand_frac_bc P.
  Proof.
    induction tr as [|[s1 o1] tr IH]; intros st st' i j H H1 H2 HF; inversion H as [|? ? ? ? ? HU HRun]; subst; auto.
    inversion HF as [|? ? Hd HF']; subst. cbn [fst] in Hd.
    apply update_sand in HU as (st4 & Hp & _ & _ & E1 & E2 & E3 & E4 & E5 & E6).
    destruct (sand_frac_cases st4 i j Hp) as (_ & C).
    assert (Hn : ~ deposited (rnd (1 / 1000000)) st4 i j) by (unfold deposited in *; rewrite E3, E4; auto).
    destruct (C Hn) as (C1 & C2). rewrite E6, E2, H2 in C1. rewrite E5, E1, E2, H1, H2 in C2.
    eapply IH; eauto. tauto.
  Qed.
End Robust.

(** ** Exact arithmetic *)
Section Exact.
  Context {S : Type} {G : Rng R S} (P : params R).
  Notation XA := (RA (fun x => x)).

  Lemma update_fraction_rule (st st' : state R S) o i j : update (A:=XA) P st = Ok (st', o) ->
    0 <= p_active_layer_thickness P -> inb (p_L P) (p_W P) i j -> fraction_rule P st st' i j.
  Proof.
    intros E Ht Hin. pose proof (update_sand (fun x => x) P _ _ _ E) as (st4 & Hp & E1 & E2 & E3 & E4 & E5 & E6 & E7 & E8).
    unfold fraction_rule. rewrite <- E7, <- E8, <- E5, <- E6, <- E4, <- E3, <- E1, <- E2.
    assert (Hd : deposited (1 / 1000000) st' i j <-> deposited (1 / 1000000) st4 i j)
      by (unfold deposited; rewrite E5, E6; tauto).
    rewrite Hd. clear - Ht Hin. unfold compute_sand_frac, deposited. cbn -[existsb cells]. rewrite !gmemo_id.
    split.
    - intros Hd. destruct (Rltb_spec 0 (s_Vp_dep_sand st4 i j)); cbn [orb].
      + rewrite (Rplus_comm (s_Vp_dep_mud st4 i j)). auto.
      + destruct (Rltb_spec (1 / 1000000) (s_Vp_dep_mud st4 i j)); [|tauto].
        rewrite (Rplus_comm (s_Vp_dep_mud st4 i j)). auto.
    - intros Hd. destruct (Rltb_spec 0 (s_Vp_dep_sand st4 i j)); [tauto|].
      destruct (Rltb_spec (1 / 1000000) (s_Vp_dep_mud st4 i j)); [tauto|]. cbn [orb]. split; auto.
      set (ex := existsb _ _).
      assert (Hex : s_eta st4 i j - s_eta0 st4 i j < 0 -> ex = true).
      { intros Hlt. unfold ex. apply existsb_exists. exists (i, j). split.
        - apply cells_In. exact Hin.
        - cbn. destruct (Rltb_spec (s_eta st4 i j - s_eta0 st4 i j) 0); auto. }
      clearbody ex. split; [|split]; intros Hr.
      + destruct ex; auto. destruct (Rltb_spec (s_eta st4 i j - s_eta0 st4 i j) 0); [lra|]. cbn [andb].
        destruct (Rltb_spec (s_eta st4 i j) (s_eta0 st4 i j - p_active_layer_thickness P)); auto. lra.
      + intros Hle. rewrite (Hex Hr). destruct (Rltb_spec (s_eta st4 i j - s_eta0 st4 i j) 0); [|lra]. cbn [andb].
        destruct (Rleb_spec (s_eta0 st4 i j - p_active_layer_thickness P) (s_eta st4 i j)); auto. lra.
      + intros Hlt. rewrite (Hex Hr). destruct (Rleb_spec (s_eta0 st4 i j - p_active_layer_thickness P) (s_eta st4 i j)); [lra|].
        rewrite andb_false_r.
        destruct (Rltb_spec (s_eta st4 i j) (s_eta0 st4 i j - p_active_layer_thickness P)); auto. lra.
  Qed.

  (** ** Subsidence *)
  Lemma update_subsidence (st st' : state R S) o rate : update (A:=XA) P st = Ok (st', o) ->
    (forall i j, p_sigma P i j = lowering P rate i) ->
    exists st2, solve_water_and_sediment_timestep (A:=XA) P st = Ok st2 /\
      forall i j, ~ inlet_cell P i j ->
        (subsides P st -> s_eta st' i j = s_eta st2 i j - lowering P rate i) /\
        (~ subsides P st -> s_eta st' i j = s_eta st2 i j).
  Proof.
    intros E Hsg. apply update_inv in E as (st1 & st2 & E1 & E2 & E3).
    exists st2. split; [unfold solve_water_and_sediment_timestep; rewrite E1; exact E2|].
    intros i j Hn. apply route_water_frame in E1. apply route_sediment_frame in E2.
    apply write_output_same in E3. apply same_fields in E3. destruct E3 as (H1 & _).
    destruct (finalize_fields (fun x => x) P (apply_subsidence (A:=XA) P st2)) as (Q1 & _).
    destruct (finalize_levels_spec (fun x => x) P (apply_subsidence (A:=XA) P st2)) as (_ & Q2 & _).
    destruct (Q2 i j Hn) as [_ Q3]. rewrite H1, Q1, Q3. unfold apply_subsidence, subsides.
    assert (Ht : s_time st2 = s_time st).
    { unfold water_frame in E1. unfold sed_frame in E2. cbn in E1. intuition congruence. }
    cbn [fleb RA]. rewrite Ht. destruct (p_toggle_subsidence P); cbn [andb].
    - destruct (Rleb_spec (p_start_subsidence P) (s_time st)).
      + cbn. rewrite gmemo_id, Hsg. tauto.
      + tauto.
    - split; [intros []; discriminate|auto].
  Qed.

  (** ** Totality *)
  Lemma update_total (st : state R S) : model_ready P st -> uniform_range G -> (forall s, 0 < fst (draw s)) ->
    exists st' o, update (A:=XA) P st = Ok (st', o) /\ model_ready P st'.
  Proof.
    intros (Hw & Hs & HD) HG Hu. unfold update, solve_water_and_sediment_timestep.
    set (st0 := set_eta0 (s_eta st) st).
    assert (Hw0 : water_ready P st0) by (destruct Hw; constructor; auto).
    destruct (route_water_ok P st0 Hw0 HG Hu) as (st1 & E1 & Hw1).
    change RX with XA in E1. rewrite E1. cbn [rbind].
    pose proof (route_water_frame _ _ _ E1) as F1.
    assert (Hs1 : sed_ready P st1).
    { apply (sed_ready_frame P st st1); auto. apply F1. }
    destruct (route_sediment_total (fun x => x) P st1 Hs1 HD HG (sed_picks_exact P Sand st1 Hu) (sed_picks_exact P Mud st1 Hu))
      as (st2 & E2 & F2).
    rewrite E2. cbn [rbind].
    destruct (write_output _ _) as [st' o] eqn:E3. exists st', o. split; auto.
    apply write_output_same in E3. apply same_fields in E3.
    pose proof (subsidence_fields (A:=XA) P st2) as H5. cbn zeta in H5.
    destruct H5 as (F3 & _).
    assert (Ect : s_cell_type st' = s_cell_type st1).
    { transitivity (s_cell_type (apply_subsidence (A:=XA) P st2)); [|unfold sed_frame in F2, F3; intuition congruence].
      destruct E3 as (_ & _ & _ & _ & _ & _ & _ & _ & _ & _ & _ & _ & _ & _ & _ & _ & _ & E3 & _). rewrite E3. reflexivity. }
    assert (Ewd : s_width st' = s_width st1).
    { transitivity (s_width (apply_subsidence (A:=XA) P st2)); [|unfold sed_frame in F2, F3; intuition congruence].
      destruct E3 as (_ & _ & _ & _ & _ & _ & _ & _ & _ & _ & _ & _ & _ & _ & _ & _ & _ & _ & _ & _ & _ & E3 & _). rewrite E3. reflexivity. }
    split; [|split; auto].
    - destruct Hw1; constructor; auto; rewrite ?Ect, ?Ewd; auto.
    - eapply sed_ready_frame; eauto.
  Qed.

  Lemma updates_total n : forall (st : state R S), model_ready P st -> uniform_range G -> (forall s, 0 < fst (draw s)) ->
    exists st' o, updates (A:=XA) P n st = Ok (st', o) /\ model_ready P st'.
  Proof.
    induction n as [|n IH]; intros st Hr HG Hu; cbn [updates].
    - exists st, []. auto.
    - destruct (update_total st Hr HG Hu) as (st1 & o1 & E1 & Hr1). rewrite E1. cbn [rbind].
      destruct (IH st1 Hr1 HG Hu) as (st2 & o2 & E2 & Hr2). rewrite E2. cbn [rbind]. eauto.
  Qed.

  (** ** Clock *)
  Lemma updates_clock n : forall (st st' : state R S) o, updates (A:=XA) P n st = Ok (st', o) ->
    s_time_iter st' = (s_time_iter st + Z.of_nat n)%Z /\ s_time st' = s_time st + INR n * p_dt P /\
    s_H_SL st' = s_H_SL st + p_SLR P * (INR n * p_dt P).
  Proof.
    induction n as [|n IH]; intros st st' o E; cbn [updates] in E.
    - injection E as <- <-. cbn. split; [lia|]. lra.
    - apply rbind_Ok in E as ([st1 o1] & E1 & E). apply rbind_Ok in E as ([st2 o2] & E2 & E).
      injection E as <- <-. apply update_frame in E1. apply IH in E2 as (H1 & H2 & H3).
      destruct E1 as (_ & _ & _ & _ & _ & F5 & F6 & F7). ra_in F5. ra_in F6.
      rewrite H1, H2, H3, F5, F6, F7, S_INR. split; [lia|]. lra.
  Qed.

  (** ** Schedules *)
  Lemma advance_since (st st' : state R S) o : update (A:=XA) P st = Ok (st', o) ->
    exists st0, write_output (A:=XA) P st0 = (st', o) /\
      s_save_iter st0 = s_save_iter st /\ s_time st0 = s_time st + p_dt P /\
      s_save_time_since_data st0 = ext_add (A:=XA) (s_save_time_since_data st) (p_dt P) /\
      s_save_time_since_checkpoint st0 = ext_add (A:=XA) (s_save_time_since_checkpoint st) (p_dt P).
  Proof.
    intros E. apply update_inv in E as (st1 & st2 & E1 & E2 & E3).
    apply route_water_frame in E1. apply route_sediment_frame in E2.
    pose proof (subsidence_fields (A:=XA) P st2) as H5. cbn zeta in H5. destruct H5 as (F3 & _).
    eexists. split; [exact E3|]. cbn -[apply_subsidence ext_add].
    unfold water_frame in E1. unfold sed_frame in E2, F3. cbn in E1.
    split; [intuition congruence|]. 
    split; [replace (s_time (apply_subsidence P st2)) with (s_time st) by (intuition congruence); reflexivity|].
    split; f_equal; intuition congruence.
  Qed.

  Definition recorded (st : state R S) (last : R) : Prop :=
    s_save_time_since_data st = Fin (s_time st - last) /\ 0 <= s_time st - last < p_save_dt P.
  Definition checkpointed (st : state R S) (last : R) : Prop :=
    s_save_time_since_checkpoint st = Fin (s_time st - last) /\ 0 <= s_time st - last < p_checkpoint_dt P.

  Lemma records_app {F T} (a b : list (output F T)) : records (a ++ b) = records a ++ records b.
  Proof. induction a as [|[] a IH]; cbn; auto. f_equal; auto. Qed.
  Lemma checkpoints_app {F T} (a b : list (output F T)) : checkpoints (a ++ b) = checkpoints a ++ checkpoints b.
  Proof. induction a as [|[] a IH]; cbn; auto. f_equal; auto. Qed.

  Lemma write_records (st st' : state R S) o : write_output (A:=XA) P st = (st', o) ->
    s_time st' = s_time st /\
    ((ext_geb (A:=XA) (s_save_time_since_data st) (p_save_dt P) = true /\
       records o = [(s_save_iter st, s_time st)] /\ s_save_iter st' = (s_save_iter st + 1)%Z /\
       s_save_time_since_data st' = Fin 0) \/
     (ext_geb (A:=XA) (s_save_time_since_data st) (p_save_dt P) = false /\
       records o = [] /\ s_save_iter st' = s_save_iter st /\
       s_save_time_since_data st' = s_save_time_since_data st)).
  Proof.
    unfold write_output, output_data, output_checkpoint. intros E.
    destruct (ext_geb (s_save_time_since_data st) (p_save_dt P)); cbn -[ext_geb] in E;
      destruct (_ && _) in E; injection E as <- <-; cbn; auto 10.
  Qed.
  Lemma write_checkpoints (st st' : state R S) o : write_output (A:=XA) P st = (st', o) ->
    s_time st' = s_time st /\
    ((ext_geb (A:=XA) (s_save_time_since_checkpoint st) (p_checkpoint_dt P) = true /\ p_save_checkpoint P = true /\
       checkpoints o = [s_time st] /\ s_save_time_since_checkpoint st' = Fin 0) \/
     ((ext_geb (A:=XA) (s_save_time_since_checkpoint st) (p_checkpoint_dt P) = false \/ p_save_checkpoint P = false) /\
       checkpoints o = [] /\ s_save_time_since_checkpoint st' = s_save_time_since_checkpoint st)).
  Proof.
    unfold write_output, output_data, output_checkpoint. intros E.
    destruct (ext_geb (s_save_time_since_data st) (p_save_dt P)); cbn -[ext_geb] in E;
      destruct (ext_geb (s_save_time_since_checkpoint st) (p_checkpoint_dt P)); cbn -[ext_geb] in E;
      destruct (p_save_checkpoint P); injection E as <- <-; cbn; auto 10.
  Qed.

  Lemma ext_geb_Fin x y : ext_geb (A:=XA) (Fin x) y = true <-> y <= x.
  Proof. cbn. apply Rleb_true. Qed.
  Lemma ext_geb_Fin_f x y : ext_geb (A:=XA) (Fin x) y = false <-> x < y.
  Proof. cbn. apply Rleb_false. Qed.

  Lemma spaced_cons lo hi a b r : lo <= b - a < hi -> spaced lo hi (b :: r) -> spaced lo hi (a :: b :: r).
  Proof. cbn. auto. Qed.

  Lemma updates_records n : 0 < p_save_dt P -> 0 < p_dt P -> forall (st st' : state R S) o l,
    recorded st l -> updates (A:=XA) P n st = Ok (st', o) ->
    let rs := records o in
    map fst rs = zseq (s_save_iter st) (length rs) /\
    s_save_iter st' = (s_save_iter st + Z.of_nat (length rs))%Z /\
    spaced (p_save_dt P) (p_save_dt P + p_dt P) (l :: map snd rs) /\
    recorded st' (last (map snd rs) l).
  Proof.
    intros Hs Hd. induction n as [|n IH]; intros st st' o l Hl E; cbn [updates] in E.
    - injection E as <- <-. cbn. split; auto. split; [lia|]. auto.
    - apply rbind_Ok in E as ([st1 o1] & E1 & E). apply rbind_Ok in E as ([st2 o2] & E2 & E).
      injection E as <- <-. apply advance_since in E1 as (st0 & E1 & A1 & A2 & A3 & _).
      destruct Hl as [Hl1 Hl2]. rewrite Hl1 in A3. cbn in A3.
      apply write_records in E1 as (B0 & [(B1 & B2 & B3 & B4)|(B1 & B2 & B3 & B4)]); rewrite A3 in B1.
      + apply ext_geb_Fin in B1.
        destruct (IH st1 st2 o2 (s_time st0)) as (I1 & I2 & I3 & I4); auto.
        { split; rewrite B0; [rewrite B4; f_equal|]; lra. }
        cbv zeta. rewrite records_app, B2. cbn [app map length fst snd zseq]. rewrite I1, I2, B3, A1.
        rewrite last_cons. split; [reflexivity|]. split; [lia|]. split; [|exact I4].
        apply spaced_cons; [|exact I3]. lra.
      + apply ext_geb_Fin_f in B1.
        destruct (IH st1 st2 o2 l) as (I1 & I2 & I3 & I4); auto.
        { split; rewrite B0, A2; [rewrite B4, A3; f_equal|]; lra. }
        cbv zeta. rewrite records_app, B2. cbn [app]. rewrite I1, I2, B3, A1. auto.
  Qed.

  Lemma updates_checkpoints n : p_save_checkpoint P = true -> 0 < p_checkpoint_dt P -> 0 < p_dt P ->
    forall (st st' : state R S) o l,
    checkpointed st l -> updates (A:=XA) P n st = Ok (st', o) ->
    let cs := checkpoints o in
    spaced (p_checkpoint_dt P) (p_checkpoint_dt P + p_dt P) (l :: cs) /\ checkpointed st' (last cs l).
  Proof.
    intros Hon Hs Hd. induction n as [|n IH]; intros st st' o l Hl E; cbn [updates] in E.
    - injection E as <- <-. cbn. auto.
    - apply rbind_Ok in E as ([st1 o1] & E1 & E). apply rbind_Ok in E as ([st2 o2] & E2 & E).
      injection E as <- <-. apply advance_since in E1 as (st0 & E1 & A1 & A2 & _ & A3).
      destruct Hl as [Hl1 Hl2]. rewrite Hl1 in A3. cbn in A3.
      apply write_checkpoints in E1 as (B0 & [(B1 & _ & B2 & B4)|(B1 & B2 & B4)]); rewrite A3 in B1.
      + apply ext_geb_Fin in B1.
        destruct (IH st1 st2 o2 (s_time st0)) as (I3 & I4); auto.
        { split; rewrite B0; [rewrite B4; f_equal|]; lra. }
        cbv zeta. rewrite checkpoints_app, B2. cbn [app].
        rewrite last_cons. split; [|exact I4]. apply spaced_cons; [|exact I3]. lra.
      + destruct B1 as [B1|B1]; [|congruence]. apply ext_geb_Fin_f in B1.
        destruct (IH st1 st2 o2 l) as (I3 & I4); auto.
        { split; rewrite B0, A2; [rewrite B4, A3; f_equal|]; lra. }
        cbv zeta. rewrite checkpoints_app, B2. cbn [app]. auto.
  Qed.
  Lemma updates_no_checkpoint n : p_save_checkpoint P = false -> forall (st st' : state R S) o,
    updates (A:=XA) P n st = Ok (st', o) -> checkpoints o = [].
  Proof.
    intros Hoff. induction n as [|n IH]; intros st st' o E; cbn [updates] in E.
    - injection E as <- <-. auto.
    - apply rbind_Ok in E as ([st1 o1] & E1 & E). apply rbind_Ok in E as ([st2 o2] & E2 & E).
      injection E as <- <-. apply advance_since in E1 as (st0 & E1 & _).
      rewrite checkpoints_app, (IH _ _ _ E2). apply write_checkpoints in E1 as (_ & [(_ & B & _)|(_ & B & _)]).
      + congruence.
      + rewrite B. auto.
  Qed.
End Exact.
