(** Sediment: whole routing calls (C20-C25) and diffusion (C26). *)
From Coq Require Import ZArith List Bool Reals Lra Lia FunctionalExtensionality.
From Flocq Require Import Core.
From Verif Require Import Base RLemmas Shared SharedSpec SharedProofs Params State Sed
  VecLemmas WaterSpec WeightProofs SedSpec SedProofs SedMass SedEvents.
From Verif Require Import Water WalkProofs RunProofs.
Import ListNotations.
Local Open Scope R_scope.

Lemma sed_frame_refl {F S} (st : state F S) : sed_frame st st.
Proof. unfold sed_frame. repeat split. Qed.
Lemma sed_frame_trans {F S} (a b c : state F S) : sed_frame a b -> sed_frame b c -> sed_frame a c.
Proof. unfold sed_frame. intuition congruence. Qed.

Lemma put_bed_frame {F S} (P : params F) b (st : state F S) s : sed_frame st (set_rng s (put_bed P b st)).
Proof. unfold sed_frame, put_bed. repeat split. Qed.

Section Total.
  Context (rnd : R -> R) {HR : Rounding rnd} {S : Type} {G : Rng R S} (P : params R).
  Notation A := (RA rnd).

  Lemma starts_ok s : uniform_range G -> p_inlet P <> [] -> forall n,
    exists l s', get_start_indices (A:=A) (p_inlet P) (get_inlet_weights (A:=A) (p_inlet P)) n s = Ok (l, s')
      /\ Z.of_nat (List.length l) = Z.max 0 n /\ Forall (fun c => In c (p_inlet P)) l.
  Proof.
    intros HG Hne n.
    assert (E : get_start_indices (A:=A) (p_inlet P) (get_inlet_weights (A:=A) (p_inlet P)) n s
      = get_start_indices (A:=A) (p_inlet P) (get_inlet_weights (A:=A) (p_inlet P)) (Z.max 0 n) s).
    { unfold get_start_indices. f_equal. lia. }
    rewrite E. apply get_start_indices_ok; auto; try lia.
    - unfold nonneg, get_inlet_weights. rewrite Forall_map. apply Forall_forall. intros.
      ra. rewrite rnd_1. lra.
    - unfold get_inlet_weights. apply map_length.
  Qed.

  Lemma routing_total g (st : state R S) : sed_ready P st -> divisors_ok rnd P -> uniform_range G -> sed_picks rnd P g st ->
    exists st' Vs hs, route_all_parcels_res (A:=A) P g st = Ok (st', Vs) /\ routed rnd P g st st' Vs hs.
  Proof.
    intros HS HD HG Hp. unfold route_all_parcels_res.
    destruct (starts_ok (s_rng st) HG (wd_inlet_ne _ _ _ _ _ (sd_domain _ _ HS)) (num_starts (A:=A) P g))
      as (starts & s & E & Hlen & Hin).
    rewrite E. cbn [rbind].
    destruct (route_parcels_ok rnd P g st HS starts (bed_of (A:=A) P st) s HD HG Hp Hin)
      as (hs & b' & Vs & s' & E2 & Hh).
    rewrite E2. cbn [rbind]. exists (set_rng s' (put_bed P b' st)), Vs, hs. split; auto.
    exists starts, b', s'. auto.
  Qed.

  Lemma routing_inv g (st st' : state R S) Vs : sed_ready P st -> divisors_ok rnd P -> uniform_range G -> sed_picks rnd P g st ->
    route_all_parcels_res (A:=A) P g st = Ok (st', Vs) -> exists hs, routed rnd P g st st' Vs hs.
  Proof.
    intros HS HD HG Hp E. destruct (routing_total g st HS HD HG Hp) as (st1 & Vs1 & hs & E1 & Hr).
    rewrite E in E1. injection E1 as <- <-. eauto.
  Qed.

  (** C24 *)
  Lemma routed_legal g (st st' : state R S) Vs hs : sed_ready P st -> routed rnd P g st st' Vs hs ->
    Z.of_nat (List.length hs) = Z.max 0 (num_starts (A:=A) P g) /\
    Forall (fun es => (1 <= Z.of_nat (List.length es) <= p_stepmax P)%Z /\
      (exists c, In c (p_inlet P) /\ hd_error (map (fun e => (ev_i0 e, ev_j0 e)) es) = Some (0%Z, c)) /\
      Forall (legal_step P st) es /\
      exists pre e, es = pre ++ [e] /\
        Forall (fun e => s_cell_type st (ev_i e) (ev_j e) <> EDGE) pre /\
        (s_cell_type st (ev_i e) (ev_j e) = EDGE \/ Z.of_nat (List.length es) = p_stepmax P)) hs.
  Proof.
    intros HS (starts & b' & s' & Hlen & Hin & Hh & _).
    pose proof (sd_stepmax _ _ HS) as Hsm. split.
    - rewrite <- Hlen. f_equal. clear Hlen Hin. induction Hh; cbn; auto.
    - clear Hlen. induction Hh as [b|c cs b es b1 V1 hs b' Vs Hw Hh IH]; constructor.
      + inversion Hin as [|? ? Hc _]; subst.
        assert (Hb : on_bed P st 0 c).
        { pose proof (sd_domain _ _ HS) as WD. destruct (wd_inlet _ _ _ _ _ WD c Hc) as (Hr & Hl & He).
          pose proof (wd_L0 _ _ _ _ _ WD). split; [split; lia|auto]. }
        destruct (walk_legal rnd P g st HS _ _ _ _ _ _ _ _ Hw Hb) as (H1 & H2 & pre & e & E & H3 & H4).
        split; [lia|]. split.
        * exists c. split; auto. inversion Hw; subst; cbn; congruence.
        * split; auto. exists pre, e. split; auto. split; auto. destruct H4; [auto|right; lia].
      + apply IH. inversion Hin; auto.
  Qed.

  (** Chained steps: each starts where the previous one stopped. *)
  Lemma walk_chain n i j b V g (st : state R S) es b' V' : sed_walk rnd P g st n i j b V es b' V' ->
    forall m e1 e2, nth_error es m = Some e1 -> nth_error es (Datatypes.S m) = Some e2 ->
      ev_i0 e2 = ev_px e1 /\ ev_j0 e2 = ev_py e1 /\ ev_V e2 = rnd (ev_V e1 - ev_dV e1).
  Proof.
    induction 1 as [n i j b V e E1 E2 Hst Hend|n i j b V e es b' V' E1 E2 Hst Hne Hn Hw IH]; intros m e1 e2 H1 H2.
    - cbn in H2. destruct m; discriminate.
    - destruct m as [|m].
      + cbn in H1, H2. injection H1 as <-. rewrite (st_V _ _ _ _ _ _ _ Hst).
        inversion Hw; subst; cbn in H2; injection H2 as <-;
          match goal with H : stop _ _ _ _ _ _ ?x |- context [ev_i0 ?x] =>
            rewrite (st_V _ _ _ _ _ _ _ H) end; auto.
      + apply (IH m); auto.
  Qed.

  (** C23 *)
  Lemma routed_fields g (st st' : state R S) Vs hs : routed rnd P g st st' Vs hs ->
    sed_frame st st' /\
    (forall i j, touched hs i j -> s_depth st' i j = Rmax 0 (rnd (s_stage st i j - s_eta st' i j))) /\
    (forall i j, ~ touched hs i j -> s_eta st' i j = s_eta st i j /\ s_depth st' i j = s_depth st i j /\
       s_uw st' i j = s_uw st i j /\ s_ux st' i j = s_ux st i j /\ s_uy st' i j = s_uy st i j).
  Proof.
    intros (starts & b' & s' & _ & _ & Hh & ->). split; [apply put_bed_frame|].
    unfold put_bed. cbn [s_depth s_eta s_uw s_ux s_uy set_rng set_Vp_dep_mud set_Vp_dep_sand set_eta set_depth set_uw set_ux set_uy set_qs].
    rewrite !gmemo_id. split; intros i j Ht.
    - destruct (history_settled rnd P g st _ _ _ _ _ Hh i j) as [[_ H]|[H _]]; [exact H|contradiction].
    - destruct (history_settled rnd P g st _ _ _ _ _ Hh i j) as [[H _]|[_ H]]; [contradiction|exact H].
  Qed.

  Lemma routed_flow g (st st' : state R S) Vs hs : sed_flow P st ->
    (forall i j, inb (p_L P) (p_W P) i j -> 0 <= s_depth st i j) -> routed rnd P g st st' Vs hs ->
    sed_flow P st' /\ (forall i j, inb (p_L P) (p_W P) i j -> 0 <= s_depth st' i j) /\
    forall e, In e (concat hs) -> forall i j, inb (p_L P) (p_W P) i j ->
      (0 <= b_uw (ev_b' e) i j <= p_u_max P /\ 0 <= b_depth (ev_b' e) i j) /\
      b_depth (ev_b' e) (ev_i e) (ev_j e)
        = Rmax 0 (rnd (s_stage st (ev_i e) (ev_j e) - b_eta (ev_b' e) (ev_i e) (ev_j e))).
  Proof.
    intros HF Hd (starts & b' & s' & _ & _ & Hh & ->).
    destruct (history_induct rnd P g st (flow_ok P) (fun _ => True)) with (starts := starts)
      (b := bed_of (A:=A) P st) (hs := hs) (b' := b') (Vs := Vs) as (H1 & _ & H3); auto.
    - intros b V e HI _ He. split; auto. eapply stop_flow_ok; eauto.
    - intros b c HI. apply entry_flow_ok; auto.
    - intros i j Hin. unfold bed_of. cbn [b_uw b_depth]. split; [apply (fl_uw _ _ HF); auto|auto].
    - split; [|split].
      + constructor; [apply (fl_umax _ _ HF)|intros; apply (fl_qw _ _ HF); auto|].
        intros i j Hin. unfold put_bed. cbn [s_uw set_rng set_Vp_dep_mud set_Vp_dep_sand set_eta set_depth set_uw].
        rewrite gmemo_id. apply (H1 i j Hin).
      + intros i j Hin. unfold put_bed. cbn [s_depth set_rng set_Vp_dep_mud set_Vp_dep_sand set_eta set_depth].
        rewrite gmemo_id. apply (H1 i j Hin).
      + intros e He i j Hin. rewrite Forall_forall in H3. destruct (H3 e He) as (b & _ & _ & Hst & HI & _).
        split; [apply HI; auto|]. apply (stop_settled rnd P g st b (ev_V e) e Hst).
  Qed.
End Total.

Section Exact.
  Notation id := (fun x : R => x).
  Notation XA := (RA (fun x => x)).
  Context {S : Type} {G : Rng R S} (P : params R).
  Notation L := (p_L P).
  Notation W := (p_W P).

  Lemma sed_picks_exact g (st : state R S) : (forall s, 0 < fst (draw s)) -> sed_picks id P g st.
  Proof.
    intros Hd b i j w s Hin Ew. rewrite sed_weights_unfold in Ew. apply sed_weight_sum in Ew.
    rewrite <- rsum_D9 in Ew. change (RA (fun x => x)) with RX. unfold cumsum. ra.
    rewrite cumsum_last_sum, Ew. specialize (Hd s). lra.
  Qed.

  Lemma routed_volumes g (st st' : state R S) Vs hs : sed_physics P st -> sed_flow P st -> lag_ok P g ->
    routed id P g st st' Vs hs ->
    Forall (fun V => 0 <= V) Vs /\
    Forall (fun e => limited P st e /\ 0 <= ev_V e /\ 0 <= ev_V e - ev_dV e) (concat hs) /\
    forall i j, inb L W i j -> s_eta st' i j <= Rmax (s_eta st i j) (s_stage st i j).
  Proof.
    intros HP HF HL (starts & b' & s' & _ & _ & Hh & ->).
    assert (Hb : okI P (bed_of (A:=XA) P st)). { intros i j Hin. apply (fl_uw _ _ HF); auto. }
    destruct (history_volumes P g st _ _ _ _ _ HP HF HL Hh Hb) as (H1 & H2 & _). split; auto. split.
    - eapply Forall_impl; [|exact H2]. intros e. tauto.
    - intros i j Hin. unfold put_bed. cbn [s_eta set_rng set_Vp_dep_mud set_Vp_dep_sand set_eta]. rewrite gmemo_id.
      apply (history_bed_below P g st _ _ _ _ _ HP HF HL Hh Hb i j Hin).
  Qed.

  Lemma routed_rules g (st st' : state R S) Vs hs : routed id P g st st' Vs hs ->
    Forall (fun e => bed_changed P e /\ deposit_recorded g e /\
      match g with Sand => sand_rule P st e (ev_dV e) | Mud => mud_rule P st e (ev_dV e) end) (concat hs).
  Proof. intros (starts & b' & s' & _ & _ & Hh & ->). eapply history_rules; eauto. Qed.

  Lemma routed_deposits g (st st' : state R S) Vs hs : routed id P g st st' Vs hs ->
    forall i j, s_Vp_dep_sand st i j <= s_Vp_dep_sand st' i j /\ s_Vp_dep_mud st i j <= s_Vp_dep_mud st' i j.
  Proof.
    intros (starts & b' & s' & _ & _ & Hh & ->) i j.
    unfold put_bed. cbn [s_Vp_dep_sand s_Vp_dep_mud set_rng set_Vp_dep_mud set_Vp_dep_sand].
    rewrite !gmemo_id. apply (history_deposits P g st _ _ _ _ _ Hh i j).
  Qed.

  (** A lag above one lets a mud parcel deposit more than it carries. *)
  Lemma mud_overdraws (st : state R S) b V e : stop id P Mud st b V e -> 0 < V -> 1 < p_lambda P ->
    0 < p_beta P -> 0 < p_U_dep_mud P -> 0 <= p_U_ero_mud P -> speed e = 0 -> 0 <= column st e ->
    p_lambda P * V <= quarter P st e -> V - ev_dV e < 0.
  Proof.
    intros He HV Hl Hb Hd Hero Hs Hc Hq.
    pose proof (stop_rule P Mud st b V e He) as Hr. pose proof (st_V _ _ _ _ _ _ _ He) as EV. cbn iota in Hr.
    assert (Hset : settling P e = 1).
    { unfold settling. rewrite Hs, npow_0 by lra. pose proof (npow_pos _ (p_beta P) Hd). field. lra. }
    remember (ev_dV e) as d. destruct Hr as [H1|H1 H2 H3|H1 H2 H3|H1 H2]; try lra.
    rewrite EV, Hset, Rmult_1_r, Rmin_left by lra. nra.
  Qed.

  (** C24: leaving through the first row. *)
  Lemma sqrt_half_pos : 0 < sqrt (1 / 2).
  Proof. apply sqrt_lt_R0. lra. Qed.

  Lemma weight_int_up qx k : 0 <= qx -> (k < 3)%nat -> get_weight_int (A:=XA) qx 0 k = 0.
  Proof.
    intros Hq Hk. unfold get_weight_int. rewrite npmax_R. ra. apply Rmax_left.
    pose proof (distances_bounds id k ltac:(lia)) as Hd. pose proof sqrt_half_pos.
    assert (Hn : qx * jvec_flat (A:=XA) k <= 0).
    { unfold jvec_flat, flit. ra. set (q := sqrt (1 / 2)) in *. destruct k as [|[|[|]]]; [| | |lia]; cbn [nth]; nra. }
    rewrite Rmult_0_l, Rplus_0_r. unfold Rdiv.
    apply Rmult_le_reg_r with (distances_flat (A:=XA) k); [lra|].
    rewrite Rmult_assoc, Rinv_l by lra. lra.
  Qed.
  Lemma weight_int_down qx k : 0 < qx -> (6 <= k < 9)%nat -> 0 < get_weight_int (A:=XA) qx 0 k.
  Proof.
    intros Hq Hk. unfold get_weight_int. rewrite npmax_R. ra.
    pose proof (distances_bounds id k ltac:(lia)) as Hd. pose proof sqrt_half_pos.
    assert (Hn : 0 < qx * jvec_flat (A:=XA) k).
    { unfold jvec_flat, flit. ra. set (q := sqrt (1 / 2)) in *. assert (k = 6 \/ k = 7 \/ k = 8)%nat as [->|[->| ->]] by lia; cbn [nth]; nra. }
    rewrite Rmult_0_l, Rplus_0_r. eapply Rlt_le_trans; [|apply Rmax_r].
    apply Rdiv_lt_0_compat; lra.
  Qed.

  Lemma escape_blocked g (st : state R S) b V e : sed_ready P st -> 0 <= p_dry_depth P ->
    on_bed P st (ev_i0 e) (ev_j0 e) -> pad_sync P b -> stop id P g st b V e -> escapes e ->
    ev_i0 e = 0%Z /\ (straight_in st e -> blocked_below P st e).
  Proof.
    intros HS Hdry Hon Hps He Hesc.
    destruct (st_move _ _ _ _ _ _ _ He) as (w & k & Ew & Hk & H4 & Hpos & Ex & Ey).
    unfold escapes in Hesc. rewrite Hesc in Ex. pose proof Hon as ([Hi Hj] & Hl & Hed).
    assert (Hk3 : (0 <= Z.of_nat k / 3)%Z) by (apply Z.div_pos; lia).
    unfold nb_row in Ex. assert (Ei : ev_i0 e = 0%Z) by lia. split; auto.
    assert (Hk' : (k < 3)%nat).
    { destruct (Nat.lt_ge_cases k 3); auto. assert (1 <= Z.of_nat k / 3)%Z by (apply Z.div_le_lower_bound; lia). lia. }
    intros (Hqx & Hqy & Hm) d Hd.
    pose proof (sd_domain _ _ HS) as WD. pose proof (wd_L0 _ _ _ _ _ WD) as HL0.
    destruct (wd_interior _ _ _ _ _ WD _ _ (conj Hi Hj) Hl Hed) as [_ Hj1].
    destruct (Z.eq_dec (s_cell_type st 1%Z (ev_j0 e + d)%Z) LAND) as [El|El]; [auto|right].
    destruct (Rle_dec (b_depth (ev_b e) 1%Z (ev_j0 e + d)%Z) (p_dry_depth P)) as [Hle|Hgt]; [auto|exfalso].
    apply Rnot_le_lt in Hgt.
    assert (Eb : b_depth (ev_b e) = b_depth b).
    { rewrite (st_b _ _ _ _ _ _ _ He). destruct g; reflexivity. }
    rewrite Eb in Hgt.
    set (k' := Z.to_nat (7 + d)).
    assert (Hk'9 : (6 <= k' < 9)%nat) by (unfold k'; lia).
    assert (Hrow : forall i, nb_row i k' = (i + 1)%Z).
    { intros i. unfold nb_row. assert (k' = 6 \/ k' = 7 \/ k' = 8)%nat as [->|[->| ->]] by lia; cbn; lia. }
    assert (Hcol : forall j, nb_col j k' = (j + d)%Z).
    { intros j. unfold nb_col. assert (Hkk : Z.of_nat k' = (7 + d)%Z) by (unfold k'; lia).
      rewrite Hkk. assert (d = -1 \/ d = 0 \/ d = 1)%Z as [->|[->| ->]] by lia; cbn; lia. }
    assert (Hin1 : inb L W 1 (ev_j0 e + d)) by (split; lia).
    rewrite sed_weights_unfold in Ew. rewrite Ei in *.
    assert (Hct : window (custom_pad 0%Z L W (s_cell_type st)) 0 (ev_j0 e) k' = s_cell_type st 1%Z (ev_j0 e + d)%Z).
    { rewrite pad_window by (try split; lia). fold (nb_row 0 k') (nb_col (ev_j0 e) k').
      rewrite Hrow, Hcol. apply nearest_in. exact Hin1. }
    assert (Hmw : window (custom_pad (fz (Arith:=XA) 0) L W (s_mod_sed_weight st)) 0 (ev_j0 e) k'
                  = s_mod_sed_weight st 1%Z (ev_j0 e + d)%Z).
    { rewrite pad_window by (try split; lia). fold (nb_row 0 k') (nb_col (ev_j0 e) k').
      rewrite Hrow, Hcol. apply nearest_in. exact Hin1. }
    assert (Hdp : window (b_pad_depth b) 0 (ev_j0 e) k' = b_depth b 1%Z (ev_j0 e + d)%Z).
    { rewrite <- (Hps 1%Z (ev_j0 e + d)%Z Hin1) by lia. unfold window.
      specialize (Hrow 0%Z). specialize (Hcol (ev_j0 e)). unfold nb_row, nb_col in Hrow, Hcol. f_equal; lia. }
    pose proof (sed_weight_core id
      (get_weight_int (A:=XA) (s_qx st 0%Z (ev_j0 e)) (s_qy st 0%Z (ev_j0 e))) (window (b_pad_depth b) 0 (ev_j0 e))
      (window (custom_pad 0%Z L W (s_cell_type st)) 0 (ev_j0 e)) (p_dry_depth P) (theta_of P g)
      (window (custom_pad (fz (Arith:=XA) 0) L W (s_mod_sed_weight st)) 0 (ev_j0 e))
      (fun k _ => weight_int_nonneg id _ _ k)) as Hc.
    rewrite Ew in Hc. destruct Hc as (_ & _ & Hc).
    rewrite (Hc) in Hpos; [lra| |].
    - exists k'. split; [lia|]. split; [lia|]. split; [rewrite Hct; auto|]. split; [rewrite Hdp; auto|].
      unfold raw_weight. rewrite Hdp, Hmw. apply Rmult_lt_0_compat.
      + apply npow_pos. apply Rmult_lt_0_compat; [lra|auto].
      + unfold vset, isctr. rewrite (proj2 (Nat.eqb_neq k' 4)) by lia. rewrite Hqy. apply weight_int_down; auto.
    - right. unfold raw_weight, vset, isctr. rewrite (proj2 (Nat.eqb_neq k 4)) by lia.
      rewrite Hqy, weight_int_up by (auto; lra). ring.
  Qed.

  Lemma walk_positions g (st : state R S) n i j b V es b' V' : sed_ready P st ->
    sed_walk id P g st n i j b V es b' V' -> on_bed P st i j -> pad_sync P b ->
    pad_sync P b' /\ Forall (fun e => exists b V, on_bed P st (ev_i0 e) (ev_j0 e) /\ pad_sync P b /\
      stop id P g st b V e) es.
  Proof.
    intros HS. induction 1 as [n i j b V e E1 E2 Hst Hend|n i j b V e es b' V' E1 E2 Hst Hne Hn Hw IH];
      intros Hb Hp; subst i j; destruct (stop_legal id P g st HS b V e Hb Hst) as [Hl Hon];
      pose proof (stop_pad_sync id P g st b V e Hl Hp Hst) as Hp'.
    - split; auto. constructor; auto. exists b, V. auto.
    - destruct (IH (Hon Hne) Hp') as [H1 H2]. split; auto. constructor; auto. exists b, V. auto.
  Qed.

  Lemma routed_escape g (st st' : state R S) Vs hs : sed_ready P st -> 0 <= p_dry_depth P ->
    routed id P g st st' Vs hs ->
    Forall (fun e => escapes e -> ev_i0 e = 0%Z /\ (straight_in st e -> blocked_below P st e)) (concat hs).
  Proof.
    intros HS Hd (starts & b' & s' & _ & Hin & Hh & _).
    assert (Hp : pad_sync P (bed_of (A:=XA) P st)).
    { intros i j [Hi Hj] _. unfold bed_of. cbn [b_pad_depth b_depth].
      rewrite custom_pad_edge by lia. rewrite nearest_in by (split; lia). f_equal; lia. }
    revert Hp. induction Hh as [b|c cs b es b1 V1 hs b' Vs Hw Hh IH]; intros Hp; cbn; [constructor|].
    inversion Hin as [|? ? Hc Hcs]; subst.
    assert (Hb : on_bed P st 0 c).
    { pose proof (sd_domain _ _ HS) as WD. destruct (wd_inlet _ _ _ _ _ WD c Hc) as (Hr & Hl & He).
      pose proof (wd_L0 _ _ _ _ _ WD). split; [split; lia|auto]. }
    assert (Hpe : pad_sync P (entry_bed id P g b c)) by (destruct g; exact Hp).
    destruct (walk_positions g st _ _ _ _ _ _ _ _ HS Hw Hb Hpe) as [H1 H2].
    apply Forall_app. split; [|apply IH; auto].
    eapply Forall_impl; [|exact H2]. intros e (b0 & V & Hon & Hps & Hst) Hesc.
    apply (escape_blocked g st b0 V e); auto.
  Qed.

  (** C25 *)
  Lemma num_starts_split : (0 <= p_Np_sed P)%Z -> 0 <= p_f_bedload P <= 1 ->
    (p_Np_sed P - 1 <= num_starts (A:=XA) P Sand + num_starts (A:=XA) P Mud <= p_Np_sed P)%Z /\
    (0 <= num_starts (A:=XA) P Sand)%Z /\ (0 <= num_starts (A:=XA) P Mud)%Z /\
    ((num_starts (A:=XA) P Sand + num_starts (A:=XA) P Mud = p_Np_sed P)%Z <->
       exists z, IZR z = IZR (p_Np_sed P) * p_f_bedload P).
  Proof.
    intros HN Hf. unfold num_starts. ra. set (N := p_Np_sed P) in *. set (f := p_f_bedload P) in *.
    apply IZR_le in HN. set (x := IZR N * f).
    replace (IZR N * (1 - f)) with (IZR N - x) by (unfold x; ring).
    assert (Hx : 0 <= x <= IZR N) by (unfold x; nra).
    rewrite !Ztrunc_floor by lra.
    pose proof (Zfloor_lb x). pose proof (Zfloor_ub x).
    pose proof (Zfloor_lb (IZR N - x)). pose proof (Zfloor_ub (IZR N - x)).
    assert (H3 : (Zfloor x + Zfloor (IZR N - x) <= N)%Z).
    { apply le_IZR. rewrite plus_IZR. lra. }
    assert (H4 : (N - 1 <= Zfloor x + Zfloor (IZR N - x))%Z).
    { assert (N - 2 < Zfloor x + Zfloor (IZR N - x))%Z; [|lia].
      apply lt_IZR. rewrite plus_IZR, minus_IZR. lra. }
    split; [lia|]. split; [apply Zfloor_lub; lra|]. split; [apply Zfloor_lub; lra|]. split.
    - intros E. exists (Zfloor x). apply (f_equal IZR) in E. rewrite plus_IZR in E. lra.
    - intros (z & Hz). rewrite <- Hz, Zfloor_IZR, <- minus_IZR, Zfloor_IZR. lia.
  Qed.
End Exact.
