(** Proofs for C79: the volume of the bed follows its account. *)
From Coq Require Import ZArith List Bool Reals Lra Lia.
From Verif Require Import Base RLemmas Shared SharedSpec SharedProofs Params State Water Sed Iter
  VecLemmas WaterSpec WeightSpec SedSpec WeightProofs RunProofs WaterCor FlowProofs SedProofs SedMass SedEvents SedCor Diffusion
  FrameProofs ChanceSpec SedRules SedRulesProofs IterSpec IterProofs BudgetSpec.
Import ListNotations.
Local Open Scope R_scope.
Local Notation XA := (RA (fun x => x)).

(** ** Consequences of the rules alone *)
Section Rules.
  Context {S : Type} {G : Rng R S} (P : params R).
  Notation L := (p_L P).
  Notation W := (p_W P).

  Lemma journey_volume g (st : state R S) n i j b V s es b' V' s' : journey P g st n i j b V s es b' V' s' ->
    V = V' + rsum (map ev_dV es) /\ Forall (fun e => inb L W (ev_i e) (ev_j e)) es.
  Proof.
    induction 1 as [n i j b V e s E1 E2 Hm Hend|n i j b V e es b' V' s s' E1 E2 Hm Hne Hn Hw IH];
      destruct (rm_cell _ _ _ _ _ _ _ Hm) as (_ & _ & Hc).
    - split; [cbn; lra|]. repeat constructor; apply Hc.
    - destruct IH as [IH1 IH2]. split; [|constructor; auto]. cbn [map rsum]. lra.
  Qed.
  Lemma journeys_volume g (st : state R S) starts b s hs b' Vs s' : journeys P g st starts b s hs b' Vs s' ->
    INR (List.length starts) * p_Vp_sed P = rsum Vs + over hs ev_dV /\
    Forall (fun e => inb L W (ev_i e) (ev_j e)) (concat hs) /\ List.length Vs = List.length starts.
  Proof.
    induction 1 as [b s|c0 cs b b0 es b1 V1 hs b' Vs s s1 s' He Hj Hh IH].
    - unfold over. cbn. split; [lra|]. split; constructor.
    - destruct (journey_volume _ _ _ _ _ _ _ _ _ _ _ _ Hj) as [H1 H2]. destruct IH as (H3 & H4 & H5).
      split; [|split; [cbn [concat]; apply Forall_app; auto|cbn; congruence]].
      unfold over in *. cbn [concat]. rewrite map_app, rsum_app. cbn [List.length]. rewrite S_INR.
      change (rsum (V1 :: Vs)) with (V1 + rsum Vs). lra.
  Qed.

  Lemma gsum_ledger (es : list event) : Forall (fun e => inb L W (ev_i e) (ev_j e)) es ->
    gsum L W (fun a c => rsum (map (fun e => ev_dV e / (p_dx P * p_dx P) * here (ev_i e) (ev_j e) a c) es))
    = rsum (map ev_dV es) / (p_dx P * p_dx P).
  Proof.
    induction 1 as [|e es He Hes IH].
    - cbn [map rsum]. rewrite (gsum_ext L W _ (fun i j => 0 - 0)) by (intros; lra).
      rewrite gsum_minus. unfold Rdiv. lra.
    - cbn [map]. rewrite (gsum_ext L W _ (fun a c => (if ((a =? ev_i e) && (c =? ev_j e))%Z then ev_dV e / (p_dx P * p_dx P) else 0)
        + rsum (map (fun e => ev_dV e / (p_dx P * p_dx P) * here (ev_i e) (ev_j e) a c) es))).
      + rewrite gsum_plus, gsum_single, IH. apply inbb_spec in He. rewrite He.
        change (rsum (ev_dV e :: map ev_dV es)) with (ev_dV e + rsum (map ev_dV es)). unfold Rdiv. ring.
      + intros a c _. cbn [rsum]. unfold here. destruct (_ && _); lra.
  Qed.

  Lemma carrying_volume g (st st' : state R S) Vs : p_dx P <> 0 -> carrying P g st st' Vs ->
    bed_volume P (s_eta st') - bed_volume P (s_eta st) = INR (List.length Vs) * p_Vp_sed P - rsum Vs.
  Proof.
    intros Hdx (starts & hs & b & b' & s & Ho & He & Hj & Hc & Hn & Hl).
    destruct (journeys_volume _ _ _ _ _ _ _ _ _ Hj) as (H1 & H2 & _).
    destruct Ho as (Ho & _). destruct Hc as (Hc & _). unfold bed_volume. rewrite Hc, <- Ho, Hl.
    rewrite (gsum_ext L W (b_eta b') (fun a c => b_eta b a c + bed_ledger P hs a c)).
    2: { intros i j _. apply (ledgers P g st _ _ _ _ _ _ _ Hj). }
    rewrite gsum_plus. unfold bed_ledger, over. rewrite (gsum_ledger (concat hs) H2). unfold over in H1.
    rewrite H1. field. exact Hdx.
  Qed.

  Lemma diffusibleb_spec (st : state R S) i j : diffusibleb P st i j = true <-> diffusible P st i j.
  Proof.
    unfold diffusibleb, diffusible. rewrite !andb_true_iff, !negb_true_iff, !Z.eqb_neq, inbb_spec. tauto.
  Qed.

  Lemma pass_volume (st : state R S) eta eta1 : diffusion_pass P st eta eta1 ->
    gsum L W eta1 - gsum L W eta =
      gsum L W (fun i j => if diffusibleb P st i j
           then received P st (fun a b => negb (diffusibleb P st a b)) eta i j else 0)
      - gsum L W (fun i j => if diffusibleb P st i j then border_loss P st eta i j else 0).
  Proof.
    intros H. pose proof (region_budget P (set_eta eta st) (diffusibleb P st) ltac:(auto)) as Hb.
    change (s_eta (set_eta eta st)) with eta in Hb.
    change (received P (set_eta eta st)) with (received P st) in Hb.
    change (border_loss P (set_eta eta st)) with (border_loss P st) in Hb.
    pose proof (once_pass P (set_eta eta st)) as Hp. change (s_eta (set_eta eta st)) with eta in Hp.
    rewrite <- gsum_minus.
    rewrite (gsum_ext L W (fun i j => _ - _) (fun i j => (if diffusibleb P st i j then s_eta (diffuse_once (A:=XA) P (set_eta eta st)) i j else 0)
       - (if diffusibleb P st i j then eta i j else 0))).
    - rewrite gsum_minus. change XA with RX in Hb |- *. rewrite Hb. rewrite <- gsum_minus. apply gsum_ext.
      intros i j _. destruct (diffusibleb P st i j); lra.
    - intros i j Hi. destruct (H i j) as [H1 H2]. destruct (Hp i j) as [Q1 _].
      destruct (diffusibleb P st i j) eqn:E.
      + apply diffusibleb_spec in E. rewrite (H1 E). change (diffusible P (set_eta eta st) i j) with (diffusible P st i j) in Q1.
        rewrite (Q1 E). reflexivity.
      + rewrite (H2 Hi); [lra|]. intros N. apply diffusibleb_spec in N. congruence.
  Qed.
  Lemma passes_volume (st : state R S) n eta eta' x y : passes P st n eta eta' x y ->
    gsum L W eta' - gsum L W eta = y - x.
  Proof. induction 1 as [|n eta eta1 eta' x y H1 H2 IH]; [lra|]. apply pass_volume in H1. lra. Qed.

  (** An account explains the change of the bed. *)
  Lemma accounted_volume (st st' : state R S) a : p_dx P <> 0 -> accounted P st st' a ->
    bed_volume P (s_eta st') - bed_volume P (s_eta st) = net a.
  Proof.
    intros Hdx (sw & s0 & s1 & s2 & sd & Vs1 & Vs2 & x & y & low & _ & E0 & C1 & C2 & C3 & C4 & A1 & A2 & A3 & A4 & A5 & A6 & A7 & A8 & A9 & A10).
    pose proof (carrying_volume _ _ _ _ Hdx C2) as V1. pose proof (carrying_volume _ _ _ _ Hdx C4) as V2.
    pose proof (passes_volume _ _ _ _ _ _ A3) as V3.
    assert (E1 : s_eta s0 = s_eta st) by (destruct C1 as (_ & _ & C1 & _); congruence).
    rewrite E1 in V1.
    assert (V4 : bed_volume P (s_eta st') = bed_volume P (s_eta sd) - bed_volume P low + a_filled a).
    { rewrite A10. unfold bed_volume. rewrite <- Rmult_minus_distr_l, <- Rmult_plus_distr_l. f_equal.
      rewrite <- gsum_minus, <- gsum_plus. apply gsum_ext. intros i j Hi.
      destruct ((i =? 0)%Z && _) eqn:E; [lra|].
      rewrite (A9 i j); [lra|]. intros Hin. apply (at_inlet_spec P) in Hin. unfold in_inlet in Hin. congruence. }
    unfold net. rewrite A1, A2, A4, A5, A7, plus_INR. unfold bed_volume in *. nra.
  Qed.
  Lemma accounts_volume (st st' : state R S) l : p_dx P <> 0 -> accounts P st l st' ->
    bed_volume P (s_eta st') - bed_volume P (s_eta st) = total net l.
  Proof.
    intros Hdx. induction 1 as [st|st st1 st' a l o E H Hl IH]; [unfold total; cbn; lra|].
    apply accounted_volume in H; auto. unfold total in *. cbn [map]. change (rsum (net a :: map net l)) with (net a + rsum (map net l)). lra.
  Qed.
End Rules.

(** ** Every update has an account *)
Section Exists.
  Context {S : Type} {G : Rng R S} (P : params R).
  Notation L := (p_L P).
  Notation W := (p_W P).

  Lemma passes_ext' (st st1 : state R S) n eta eta' x y : s_qs st1 = s_qs st -> s_cell_type st1 = s_cell_type st ->
    passes P st1 n eta eta' x y -> passes P st n eta eta' x y.
  Proof.
    intros Eq Ec. induction 1 as [|n eta eta1 eta' x y H1 H2 IH]; [constructor|].
    assert (Ed : forall i j, diffusibleb P st1 i j = diffusibleb P st i j) by (intros; unfold diffusibleb; rewrite Ec; reflexivity).
    rewrite (gsum_ext L W _ (fun i j => if diffusibleb P st i j then border_loss P st eta i j else 0)).
    2: { intros i j _. rewrite Ed. unfold border_loss. rewrite Eq. reflexivity. }
    rewrite (gsum_ext L W (fun i j => if diffusibleb P st1 i j
           then received P st1 (fun a b => negb (diffusibleb P st1 a b)) eta i j else 0) (fun i j => if diffusibleb P st i j
           then received P st (fun a b => negb (diffusibleb P st a b)) eta i j else 0)).
    2: { intros i j _. rewrite Ed. destruct (diffusibleb P st i j); [|reflexivity]. unfold received, exchange. rewrite Eq.
         apply gsum_ext. intros a b _. rewrite Ed. reflexivity. }
    econstructor; [exact (pass_ext P st st1 eta eta1 Eq Ec H1)|exact IH].
  Qed.
  Lemma passes_exist n : forall st : state R S, exists x y,
    passes P st n (s_eta st) (s_eta (diffuse_passes (A:=XA) P n st)) x y.
  Proof.
    induction n as [|n IH]; intros st; cbn [diffuse_passes]; [exists 0, 0; constructor|].
    destruct (IH (diffuse_once (A:=XA) P st)) as (x & y & H). eexists _, _.
    econstructor; [apply once_pass|]. apply (passes_ext' st (diffuse_once (A:=XA) P st)) in H; [exact H|reflexivity|reflexivity].
  Qed.

  Context (HG : uniform_range G) (Hu : forall s, 0 < fst (draw s)) (HN : (0 <= p_Np_sed P)%Z) (Hf : 0 <= p_f_bedload P <= 1).

  Lemma residual_nonneg g (st st' : state R S) Vs : sed_ready P st -> divisors_ok (fun x => x) P ->
    sed_physics P st -> sed_flow P st -> lag_ok P g ->
    route_all_parcels_res (A:=XA) P g st = Ok (st', Vs) ->
    Forall (fun V => 0 <= V) Vs /\ exists hs, routed (fun x => x) P g st st' Vs hs.
  Proof.
    intros H1 H2 H3 H4 H5 E.
    destruct (routing_total (fun x => x) P g st H1 H2 HG (sed_picks_exact P g st Hu)) as (st1 & Vs1 & hs & E1 & Hr).
    rewrite E in E1. injection E1 as <- <-. split; [|eauto].
    apply (routed_volumes P g st st' Vs hs H3 H4 H5 Hr).
  Qed.

  Lemma rsum_nonneg l : Forall (fun V => 0 <= V) l -> 0 <= rsum l.
  Proof. induction 1; cbn [rsum]; lra. Qed.

  Lemma account_exists (st st' : state R S) o : model_ready P st -> update (A:=XA) P st = Ok (st', o) ->
    exists a, accounted P st st' a /\ (physical P st -> 0 <= a_left a).
  Proof.
    intros (Hw & Hs & HD) E.
    apply update_inv in E as (sw & sd & E1 & E2 & E3).
    set (st0 := set_eta0 (s_eta st) st) in *.
    assert (F1 : water_frame st0 sw) by (apply (route_water_frame (A:=XA) P); exact E1).
    assert (Hsw : sed_ready P sw) by (apply (sed_ready_frame P st sw); auto; apply F1).
    pose proof (route_sediment_frame (A:=XA) P _ _ E2) as F2.
    apply (route_sediment_parts (fun x => x)) in E2 as (st1 & st2 & Vs1 & Vs2 & R1 & Rd & R2). subst st2.
    set (s0 := init_sediment_iteration (A:=XA) sw) in *.
    assert (HS0 : sed_ready P s0) by (apply (sed_ready_frame P sw s0 eq_refl Hsw)).
    destruct (routers_follow_rules P Sand s0 HS0 HD HG Hu st1 Vs1 HN Hf R1) as (s1 & h1 & b1 & b1' & r1 & H1 & H2 & H3 & H4 & H5).
    assert (G1 : sed_frame s0 st1) by apply H4.
    destruct (diffuse_frame (A:=XA) P (Z.to_nat (p_N_crossdiff P)) st1) as (G2 & D1 & D2 & D3 & D4 & _).
    assert (G3 : sed_frame s0 (topo_diffusion (A:=XA) P st1)) by (exact (sed_frame_trans _ _ _ G1 G2)).
    assert (HS2 : sed_ready P (topo_diffusion (A:=XA) P st1)) by (apply (sed_ready_frame P s0); auto; apply G3).
    destruct (routers_follow_rules P Mud _ HS2 HD HG Hu sd Vs2 HN Hf R2) as (s2 & h2 & b2 & b2' & r2 & H1' & H2' & H3' & H4' & H5').
    destruct (passes_exist (Z.to_nat (p_N_crossdiff P)) st1) as (x & y & Hp).
    set (low := fun i j : Z => if p_toggle_subsidence P then if Rle_dec (p_start_subsidence P) (s_time st) then p_sigma P i j else 0 else 0).
    apply write_output_same in E3. apply same_fields in E3. destruct E3 as (W1 & _ & W3 & _).
    pose proof (finalize_fields (fun x => x) P (apply_subsidence (A:=XA) P sd)) as (Q1 & Q2 & _).
    destruct (finalize_levels_spec (fun x => x) P (apply_subsidence (A:=XA) P sd)) as (_ & L2 & L3).
    rewrite Q1 in W1. rewrite Q2 in W3.
    assert (Htm : s_time sd = s_time st).
    { unfold water_frame in F1. unfold sed_frame in F2. cbn in F1. intuition congruence. }
    assert (Hsub : forall i j, s_eta (apply_subsidence (A:=XA) P sd) i j = s_eta sd i j - low i j).
    { intros i j. unfold apply_subsidence, low. cbn [fleb RA]. rewrite Htm.
      destruct (p_toggle_subsidence P); cbn [andb]; [|lra].
      destruct (Rleb_spec (p_start_subsidence P) (s_time st)); destruct (Rle_dec _ _); try lra.
      cbn. rewrite gmemo_id. reflexivity. }
    assert (E0 : s_eta sw = s_eta st) by (destruct F1 as [F1 _]; exact F1).
    exists {| a_fed := INR (List.length Vs1 + List.length Vs2) * p_Vp_sed P; a_left := rsum Vs1 + rsum Vs2;
              a_border := p_dx P * p_dx P * x; a_fixed := p_dx P * p_dx P * y; a_sunk := bed_volume P low;
              a_filled := bed_volume P (fun i j => if ((i =? 0)%Z && existsb (fun c => (c =? j)%Z) (p_inlet P))
                                   then s_eta st' i j - (s_eta sd i j - low i j) else 0) |}.
    cbn [a_left]. split.
    - exists sw, s0, st1, (topo_diffusion (A:=XA) P st1), sd, Vs1, Vs2, x, y, low. cbn [a_fed a_left a_border a_fixed a_sunk a_filled].
      split; [exact E1|]. split; [exact E0|]. split; [split; [apply (init_frame (fun x => x))|]; repeat split|].
      split; [exists s1, h1, b1, b1', r1; repeat (split; [assumption|]); apply (journeys_volume P _ _ _ _ _ _ _ _ _ H3)|].
      split; [apply smeared_ok|].
      split; [exists s2, h2, b2, b2', r2; repeat (split; [assumption|]); apply (journeys_volume P _ _ _ _ _ _ _ _ _ H3')|].
      split; [reflexivity|]. split; [reflexivity|]. split; [exact Hp|]. split; [reflexivity|]. split; [reflexivity|].
      split; [|split; [reflexivity|split; [|split; [|reflexivity]]]].
      + intros i j. unfold sinks, subsides, low. destruct (p_toggle_subsidence P); [|split; [intros []; discriminate|auto]].
        destruct (Rle_dec _ _); split; intros H; try tauto.
      + intros i j Hi. rewrite W1, W3. exact (proj2 (L3 i j Hi)).
      + intros i j Hi. rewrite W1, (proj2 (L2 i j Hi)). apply Hsub.
    - intros (Hph & Hlag & P1 & P2 & P3 & P4).
      assert (Hfl : sed_flow P sw).
      { pose proof (route_water_flow P st0 sw P1 P2 P3 P4 E1) as Hc.
        pose proof (fun i j => proj1 (speed_bounds (fun x => x) Rounding_id S G P st0 sw P1 P2 P4 E1 i j)) as Hsp.
        constructor; auto. intros i j _. apply (Hc i j). }
      assert (Hfl0 : sed_flow P s0) by (destruct Hfl; constructor; assumption).
      assert (Hdep : forall i j, inb L W i j -> 0 <= s_depth s0 i j).
      { intros i j _. destruct (route_water_post (fun x => x) P st0 sw P1 P2 P4 E1) as (Hl & _).
        change (s_depth s0) with (s_depth sw). rewrite (proj2 (Hl i j)). apply Rmax_r. }
      assert (Hp0 : sed_physics P s0).
      { apply (sed_physics_frame P st); auto. unfold water_frame in F1. change (s_mod_erosion s0) with (s_mod_erosion sw). cbn in F1. intuition congruence. }
      destruct (residual_nonneg Sand s0 st1 Vs1 HS0 HD Hp0 Hfl0 I R1) as (N1 & hs & Hr).
      destruct (routed_flow (fun x => x) P Sand s0 st1 Vs1 hs Hfl0 Hdep Hr) as (Hfl1 & _).
      assert (Hfl2 : sed_flow P (topo_diffusion (A:=XA) P st1)).
      { destruct Hfl1 as [U1 U2 U3]. unfold sed_frame in G2. constructor; auto; intros i j Hi; unfold topo_diffusion.
        - replace (s_qw (diffuse_passes (A:=XA) P _ st1)) with (s_qw st1) by (symmetry; intuition). apply U2, Hi.
        - rewrite D3. apply U3, Hi. }
      assert (Hp2 : sed_physics P (topo_diffusion (A:=XA) P st1)).
      { apply (sed_physics_frame P s0); auto. unfold sed_frame in G3. intuition. }
      destruct (residual_nonneg Mud _ sd Vs2 HS2 HD Hp2 Hfl2 Hlag R2) as (N2 & _).
      apply rsum_nonneg in N1, N2. lra.
  Qed.

  Lemma physical_kept (st st' : state R S) o : update (A:=XA) P st = Ok (st', o) -> physical P st -> physical P st'.
  Proof.
    intros E (H1 & H2). split; [|exact H2]. apply (sed_physics_frame P st); auto.
    apply (update_frame (A:=XA) P _ _ _ E).
  Qed.
  Lemma ready_kept (st st' : state R S) o : update (A:=XA) P st = Ok (st', o) -> model_ready P st -> model_ready P st'.
  Proof.
    intros E H. destruct (update_total P st H HG Hu) as (st1 & o1 & E1 & H1). rewrite E in E1. injection E1 as <- <-. exact H1.
  Qed.

  Lemma accounts_exist n : forall (st st' : state R S) o, model_ready P st -> updates (A:=XA) P n st = Ok (st', o) ->
    exists l, List.length l = n /\ accounts P st l st' /\ (physical P st -> Forall (fun a => 0 <= a_left a) l).
  Proof.
    induction n as [|n IH]; intros st st' o Hr E; cbn [updates] in E.
    - injection E as <- <-. exists []. split; [reflexivity|]. split; constructor.
    - apply rbind_Ok in E as ([st1 o1] & E1 & E). apply rbind_Ok in E as ([st2 o2] & E2 & E). injection E as <- <-.
      destruct (account_exists st st1 o1 Hr E1) as (a & Ha & Hl).
      destruct (IH st1 st2 o2 (ready_kept _ _ _ E1 Hr) E2) as (l & Hn & Hc & Hp).
      exists (a :: l). split; [cbn; congruence|]. split; [econstructor; eauto|].
      intros Hph. constructor; [auto|]. apply Hp, (physical_kept _ _ _ E1 Hph).
  Qed.
End Exists.

(** ** The columns of the account *)
Section Columns.
  Context {S : Type} {G : Rng R S} (P : params R).
  Notation L := (p_L P).
  Notation W := (p_W P).

  Lemma rsum_scale x l : rsum (map (fun _ : account => x) l) = INR (List.length l) * x.
  Proof. induction l as [|a l IH]; [cbn; lra|]. cbn [map rsum List.length]. rewrite S_INR, IH. lra. Qed.

  (** The parcels sent in an update: all of them, or one less. *)
  Notation whole := (whole_shares P).
  Lemma counts n1 n2 : parcel_count P Sand n1 -> parcel_count P Mud n2 ->
    (whole -> INR (n1 + n2) = IZR (p_Np_sed P)) /\ (~ whole -> INR (n1 + n2) = IZR (p_Np_sed P) - 1).
  Proof.
    unfold parcel_count, parcel_share, whole_shares. intros H1 H2. rewrite !INR_IZR_INZ in H1, H2.
    rewrite INR_IZR_INZ, Nat2Z.inj_add.
    set (a := Z.of_nat n1) in *. set (b := Z.of_nat n2) in *. clearbody a b.
    set (N := p_Np_sed P) in *. set (f := p_f_bedload P) in *.
    assert (Hs : (N - 2 < a + b <= N)%Z).
    { split; [apply lt_IZR|apply le_IZR]; rewrite ?minus_IZR, ?plus_IZR; lra. }
    split.
    - intros [z Hz]. f_equal.
      assert (a = z). { assert (z < a + 1)%Z by (apply lt_IZR; rewrite plus_IZR; lra). assert (a <= z)%Z by (apply le_IZR; lra). lia. }
      assert (b = N - z)%Z.
      { assert (N - z < b + 1)%Z by (apply lt_IZR; rewrite plus_IZR, minus_IZR; lra).
        assert (b <= N - z)%Z by (apply le_IZR; rewrite minus_IZR; lra). lia. }
      lia.
    - intros Hn. rewrite <- minus_IZR. f_equal.
      destruct (Z.eq_dec (a + b) N) as [E|E]; [|lia]. exfalso. apply Hn. exists a.
      apply (f_equal IZR) in E. rewrite plus_IZR in E. lra.
  Qed.

  Lemma fed_one (st st' : state R S) a : accounted P st st' a ->
    (whole -> a_fed a = IZR (p_Np_sed P) * p_Vp_sed P) /\ (~ whole -> a_fed a = (IZR (p_Np_sed P) - 1) * p_Vp_sed P).
  Proof.
    intros (sw & s0 & s1 & s2 & sd & Vs1 & Vs2 & x & y & low & _ & _ & _ & C2 & _ & C4 & A1 & _).
    destruct C2 as (t1 & h1 & b1 & b1' & r1 & _ & _ & _ & _ & N1 & L1). destruct C4 as (t2 & h2 & b2 & b2' & r2 & _ & _ & _ & _ & N2 & L2).
    rewrite <- L1 in N1. rewrite <- L2 in N2. destruct (counts _ _ N1 N2) as [Q1 Q2].
    split; intros H; rewrite A1; [rewrite Q1|rewrite Q2]; auto.
  Qed.
  Lemma fed_total (st st' : state R S) l : accounts P st l st' ->
    (whole -> total a_fed l = INR (List.length l) * (IZR (p_Np_sed P) * p_Vp_sed P)) /\
    (~ whole -> total a_fed l = INR (List.length l) * ((IZR (p_Np_sed P) - 1) * p_Vp_sed P)) /\
    s_time st' = s_time st + INR (List.length l) * p_dt P.
  Proof.
    induction 1 as [st|st st1 st' a l o E H Hl (I1 & I2 & I3)].
    - unfold total. cbn. repeat split; intros; lra.
    - destruct (fed_one _ _ _ H) as [F1 F2]. cbn [List.length]. rewrite S_INR. unfold total in *. cbn [map rsum].
      repeat split; intros.
      + rewrite F1, I1 by auto. lra.
      + rewrite F2, I2 by auto. lra.
      + rewrite I3. change RX with XA in E. pose proof (update_frame (A:=XA) P _ _ _ E) as (_ & _ & _ & _ & _ & _ & Et & _).
        rewrite Et. ra. lra.
  Qed.

  (** Subsidence of every row from L0 on. *)
  Lemma gsum_rows n m (f : Z -> R) :
    gsum (Z.of_nat n) (Z.of_nat m) (fun i _ => f i) = INR m * rsum (map f (zrange (Z.of_nat n))).
  Proof.
    unfold gsum, cells. generalize (zrange (Z.of_nat n)). intros l. induction l as [|i l IH]; cbn [flat_map map rsum]; [lra|].
    rewrite map_app, rsum_app, IH, map_map. cbn [fst snd].
    replace (rsum (map (fun _ : Z => f i) (zrange (Z.of_nat m)))) with (INR m * f i); [lra|].
    assert (E : List.length (zrange (Z.of_nat m)) = m) by (unfold zrange; rewrite map_length, seq_length; lia).
    rewrite <- E at 1. generalize (zrange (Z.of_nat m)). intros k. induction k as [|z k IHk]; [cbn; lra|].
    cbn [List.length map rsum]. rewrite S_INR. lra.
  Qed.
  Lemma rows_from n m x : (m <= n)%nat ->
    rsum (map (fun i => if (i <? Z.of_nat m)%Z then 0 else x) (zrange (Z.of_nat n))) = INR (n - m) * x.
  Proof.
    unfold zrange. rewrite Nat2Z.id. induction n as [|n IH]; intros Hm.
    - cbn. lra.
    - rewrite seq_S, !map_app, rsum_app. cbn [map rsum Nat.add].
      destruct (Nat.eq_dec m (Datatypes.S n)) as [->|Hne].
      + rewrite Nat.sub_diag. destruct (Z.ltb_spec (Z.of_nat n) (Z.of_nat (Datatypes.S n))); [|lia].
        assert (Z0 : forall l, (forall k, In k l -> (k <= n)%nat) ->
          rsum (map (fun i => if (i <? Z.of_nat (Datatypes.S n))%Z then 0 else x) (map Z.of_nat l)) = 0).
        { induction l as [|k l IHl]; intros Hk; [reflexivity|]. cbn [map rsum]. rewrite IHl by (intros; apply Hk; right; auto).
          destruct (Z.ltb_spec (Z.of_nat k) (Z.of_nat (Datatypes.S n))); [lra|]. specialize (Hk k (or_introl eq_refl)). lia. }
        rewrite Z0; [cbn; lra|]. intros k Hk. apply in_seq in Hk. lia.
      + rewrite IH by lia. destruct (Z.ltb_spec (Z.of_nat n) (Z.of_nat m)); [lia|].
        replace (Datatypes.S n - m)%nat with (Datatypes.S (n - m)) by lia. rewrite S_INR. lra.
  Qed.
  Lemma sunk_rows rate (low : grid R) : (0 <= p_L0 P <= L)%Z -> (0 <= W)%Z ->
    (forall i j, low i j = lowering P rate i) ->
    bed_volume P low = p_dx P * p_dx P * (IZR W * IZR (L - p_L0 P)) * (rate * p_dt P).
  Proof.
    intros HL HW Hl. unfold bed_volume.
    rewrite (gsum_ext L W low (fun i _ => lowering P rate i)) by (intros; apply Hl).
    pose proof (gsum_rows (Z.to_nat L) (Z.to_nat W) (lowering P rate)) as E. rewrite !Z2Nat.id in E by lia. rewrite E.
    unfold lowering. pose proof (rows_from (Z.to_nat L) (Z.to_nat (p_L0 P)) (rate * p_dt P) ltac:(lia)) as E2.
    rewrite !Z2Nat.id in E2 by lia. rewrite E2. rewrite !INR_IZR_INZ, Nat2Z.inj_sub, !Z2Nat.id by lia. ring.
  Qed.

  (** No diffusion: nothing crosses. *)
  Lemma no_diffusion (st : state R S) n eta eta' x y : p_diffusion_multiplier P = 0 \/ n = O -> passes P st n eta eta' x y -> x = 0 /\ y = 0.
  Proof.
    intros H Hp. revert H. induction Hp as [|n eta eta1 eta' x y H1 H2 IH]; [auto|]. intros [H|H]; [|discriminate].
    destruct (IH (or_introl H)) as [-> ->].
    assert (Z0 : forall f : grid R, (forall i j, f i j = 0) -> gsum L W f = 0).
    { intros f Hf. rewrite (gsum_ext L W f (fun i j => f i j - f i j)) by (intros; rewrite Hf; lra). rewrite gsum_minus. lra. }
    split; rewrite Z0; try lra; intros i j; destruct (diffusibleb P st i j); auto.
    - unfold border_loss. rewrite H. lra.
    - unfold received. apply Z0. intros a b. destruct (_ && _); auto. unfold exchange. rewrite H. lra.
  Qed.
End Columns.
