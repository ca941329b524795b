(** Runs with one kind of sediment (C89). *)
From Coq Require Import ZArith Reals Lra Lia Bool List FunctionalExtensionality.
From Verif Require Import Base RLemmas RunProofs Shared SharedSpec SharedProofs Params State Water Sed Diffusion Iter IterSpec FrameProofs IterProofs Inputs Init InitSpec SessionProofs ScenarioProofs GrainSpec.
Import ListNotations.
Local Open Scope R_scope.

(** ** Constants of the other grain *)
Section Other.
  Context {F : Type} {A : Arith F} {S : Type} {G : Rng F S}.

  Definition other_sand (a b m : F) (P : params F) : params F := setp_theta_sand a (setp_U_ero_sand b (setp_diffusion_multiplier m P)).
  Definition other_mud (a b c l : F) (P : params F) : params F := setp_theta_mud a (setp_U_dep_mud b (setp_U_ero_mud c (setp_lambda l P))).

  Lemma water_by_turns (P P' : params F) (st : state F S) :
    (forall it (st : state F S), water_iteration P' it st = water_iteration P it st) -> p_itermax P' = p_itermax P ->
    route_water P' st = route_water P st.
  Proof.
    intros Ht Hi. unfold route_water. rewrite Hi. generalize 0%Z. revert st.
    induction (Z.to_nat (p_itermax P)) as [|n IH]; intros st it; [reflexivity|]. cbn [water_iterations]. rewrite Ht.
    destruct (water_iteration P it st) as [st'|e]; cbn [rbind]; [apply IH|reflexivity].
  Qed.
  Lemma turn_by_parts (P P' : params F) it (st : state F S) :
    (forall st : state F S, run_water_iteration P' st = run_water_iteration P st) -> p_W P' = p_W P ->
    (forall ps (st : state F S), compute_free_surface P' ps st = compute_free_surface P ps st) ->
    (forall it (st : state F S), finalize_water_iteration P' it st = finalize_water_iteration P it st) ->
    water_iteration P' it st = water_iteration P it st.
  Proof.
    intros Hr Hw Hc Hf. unfold water_iteration. rewrite Hr, Hw.
    destruct (run_water_iteration P st) as [[[[ps [[qx qy] qw]] w] s]|e]; cbn [rbind]; [|reflexivity]. rewrite Hc.
    destruct (compute_free_surface P ps _) as [st'|e]; cbn [rbind]; [rewrite Hf|]; reflexivity.
  Qed.
  Lemma surface_by_parts (P P' : params F) ps (st : state F S) :
    (forall ps x, accumulate_free_surface_walks P' st ps x = accumulate_free_surface_walks P st ps x) ->
    p_L P' = p_L P -> p_W P' = p_W P -> p_omega_sfc P' = p_omega_sfc P -> p_Nsmooth P' = p_Nsmooth P -> p_Csmooth P' = p_Csmooth P ->
    (forall a b c d, smooth_free_surface P' a b c d = smooth_free_surface P a b c d) ->
    (forall a b c, flooding_correction P' a b c = flooding_correction P a b c) ->
    compute_free_surface P' ps st = compute_free_surface P ps st.
  Proof.
    intros Ha H1 H2 H3 H4 H5 Hs Hf. unfold compute_free_surface. rewrite Ha, H1, H2, H3, H4, H5.
    destruct (accumulate_free_surface_walks P st ps _) as [[v t]|e]; cbn [rbind]; [|reflexivity]. cbv zeta. rewrite Hs, Hf.
    reflexivity.
  Qed.
  Lemma finish_by_parts (P P' : params F) it (st : state F S) : p_L P' = p_L P -> p_W P' = p_W P ->
    (forall it (st : state F S), update_flow_field P' it st = update_flow_field P it st) ->
    (forall st : state F S, update_velocity_field P' st = update_velocity_field P st) ->
    finalize_water_iteration P' it st = finalize_water_iteration P it st.
  Proof. intros H1 H2 H3 H4. unfold finalize_water_iteration. rewrite H1, H2, H4, H3. reflexivity. Qed.
  Lemma levels_by_parts (P P' : params F) (st : state F S) : p_L P' = p_L P -> p_W P' = p_W P -> p_h0 P' = p_h0 P ->
    (forall j, in_inlet P' j = in_inlet P j) -> (forall a b c, flooding_correction P' a b c = flooding_correction P a b c) ->
    finalize_levels P' st = finalize_levels P st.
  Proof.
    intros H1 H2 H3 H4 H5. unfold finalize_levels. rewrite H1, H2, H3, H5. cbv zeta.
    assert (E : in_inlet P' = in_inlet P) by (apply functional_extensionality; exact H4). rewrite E. reflexivity.
  Qed.

  Lemma flooding_sand a b m P x y z : flooding_correction (other_sand a b m P) x y z = flooding_correction P x y z.
  Proof. reflexivity. Qed.
  Lemma flooding_mud a b c l P x y z : flooding_correction (other_mud a b c l P) x y z = flooding_correction P x y z.
  Proof. reflexivity. Qed.
  Lemma water_turn_sand a b m P it (st : state F S) : water_iteration (other_sand a b m P) it st = water_iteration P it st.
  Proof.
    apply (turn_by_parts P (other_sand a b m P) it st); [reflexivity|reflexivity| |].
    - intros ps s. apply (surface_by_parts P (other_sand a b m P) ps s); [..|apply flooding_sand]; reflexivity.
    - intros i s. apply (finish_by_parts P (other_sand a b m P) i s); reflexivity.
  Qed.
  Lemma water_sand a b m P (st : state F S) : route_water (other_sand a b m P) st = route_water P st.
  Proof. exact (water_by_turns P (other_sand a b m P) st (water_turn_sand a b m P) eq_refl). Qed.
  Lemma water_turn_mud a b c l P it (st : state F S) : water_iteration (other_mud a b c l P) it st = water_iteration P it st.
  Proof.
    apply (turn_by_parts P (other_mud a b c l P) it st); [reflexivity|reflexivity| |].
    - intros ps s. apply (surface_by_parts P (other_mud a b c l P) ps s); [..|apply flooding_mud]; reflexivity.
    - intros i s. apply (finish_by_parts P (other_mud a b c l P) i s); reflexivity.
  Qed.
  Lemma water_mud a b c l P (st : state F S) : route_water (other_mud a b c l P) st = route_water P st.
  Proof. exact (water_by_turns P (other_mud a b c l P) st (water_turn_mud a b c l P) eq_refl). Qed.

  (** Routing that looks at the same step looks at the same parcels. *)
  Lemma parcels_by_steps (P P' : params F) g (st : state F S) :
    (forall b V px py s, sed_step P' g st b V px py s = sed_step P g st b V px py s) ->
    (forall px py, cell_ix P' px py = cell_ix P px py) -> no_flux_scale P' g = no_flux_scale P g ->
    (forall V, flux_part P' V = flux_part P V) -> p_Vp_sed P' = p_Vp_sed P -> p_stepmax P' = p_stepmax P -> p_inlet P' = p_inlet P ->
    num_starts P' g = num_starts P g -> bed_of P' st = bed_of P st -> (forall b, put_bed P' b st = put_bed P b st) ->
    route_all_parcels P' g st = route_all_parcels P g st.
  Proof.
    intros Hs Hc Hf Hp Hv Hm Hi Hn Hb Hu.
    assert (One : forall n b V px py s, route_one_parcel P' g st n b V px py s = route_one_parcel P g st n b V px py s).
    { induction n as [|n IH]; intros b V px py s; [reflexivity|]. cbn [route_one_parcel]. rewrite Hs.
      destruct (sed_step P g st b V px py s) as [[[[[px' py'] b'] V'] s']|e]; cbn [rbind]; [|reflexivity].
      rewrite Hc. destruct (cell_ix P px' py') as [[i j]|e]; cbn [rbind]; [|reflexivity]. rewrite IH. reflexivity. }
    assert (All : forall starts b s, route_parcels P' g st starts b s = route_parcels P g st starts b s).
    { induction starts as [|py starts IH]; intros b s; [reflexivity|]. cbn [route_parcels]. rewrite Hc.
      destruct (cell_ix P 0 py) as [[i j]|e]; cbn [rbind]; [|reflexivity]. rewrite Hf, Hv, Hm, Hp, One.
      destruct (no_flux_scale P g); [reflexivity|].
      destruct (route_one_parcel P g st (Z.to_nat (p_stepmax P)) _ _ _ _ _) as [[[b2 V] s2]|e]; cbn [rbind]; [|reflexivity].
      rewrite IH. reflexivity. }
    unfold route_all_parcels, route_all_parcels_res. rewrite Hi, Hn, Hb.
    destruct (get_start_indices (p_inlet P) (get_inlet_weights (p_inlet P)) (num_starts P g) (s_rng st)) as [[starts s]|e]; cbn [rbind]; [|reflexivity].
    rewrite All. destruct (route_parcels P g st starts (bed_of P st) s) as [[[b Vs] s']|e]; cbn [rbind]; [|reflexivity]. rewrite Hu. reflexivity.
  Qed.

  Lemma mud_parcels_sand a b m P (st : state F S) : route_all_parcels (other_sand a b m P) Mud st = route_all_parcels P Mud st.
  Proof. apply parcels_by_steps; reflexivity. Qed.
  Lemma sand_parcels_mud a b c l P (st : state F S) : route_all_parcels (other_mud a b c l P) Sand st = route_all_parcels P Sand st.
  Proof. apply parcels_by_steps; reflexivity. Qed.

  (** Without parcels nothing is routed. *)
  Lemma no_parcels (P : params F) g (st : state F S) : num_starts P g = 0%Z -> route_all_parcels P g st = Ok st.
  Proof.
    intros H. unfold route_all_parcels, route_all_parcels_res. rewrite H. unfold get_start_indices. cbn [Z.to_nat start_loop rbind route_parcels].
    unfold put_bed, bed_of. rewrite !gmemo_id. destruct st. reflexivity.
  Qed.

  Lemma diffuse_by_passes (P P' : params F) (st : state F S) :
    (forall st : state F S, diffuse_once P' st = diffuse_once P st) -> p_N_crossdiff P' = p_N_crossdiff P ->
    topo_diffusion P' st = topo_diffusion P st.
  Proof.
    intros Hd Hn. unfold topo_diffusion. rewrite Hn. revert st.
    induction (Z.to_nat (p_N_crossdiff P)) as [|n IH]; intros st; [reflexivity|]. cbn [diffuse_passes]. rewrite Hd. apply IH.
  Qed.
  Lemma diffuse_mud a b c l P (st : state F S) : topo_diffusion (other_mud a b c l P) st = topo_diffusion P st.
  Proof. apply diffuse_by_passes; reflexivity. Qed.

  (** The end of a time step only looks at these constants. *)
  Lemma ending_by_parts (P P' : params F) (st : state F S) :
    (forall st : state F S, apply_subsidence P' st = apply_subsidence P st) ->
    (forall st : state F S, finalize_levels P' st = finalize_levels P st) ->
    (forall st : state F S, compute_sand_frac P' st = compute_sand_frac P st) ->
    p_SLR P' = p_SLR P -> p_dt P' = p_dt P ->
    (forall st : state F S, advance_clock P' st = advance_clock P st) ->
    (forall st : state F S, write_output P' st = write_output P st) ->
    write_output P' (advance_clock P' (finalize_timestep P' (apply_subsidence P' st)))
    = write_output P (advance_clock P (finalize_timestep P (apply_subsidence P st))).
  Proof. intros Ha Hl Hc Hs Hd Hk Hw. unfold finalize_timestep. rewrite Hw, Hk, Ha, Hl, Hc, Hs, Hd. reflexivity. Qed.
  Lemma ending_sand a b m P (st : state F S) :
    write_output (other_sand a b m P) (advance_clock (other_sand a b m P) (finalize_timestep (other_sand a b m P) (apply_subsidence (other_sand a b m P) st)))
    = write_output P (advance_clock P (finalize_timestep P (apply_subsidence P st))).
  Proof.
    apply (ending_by_parts P (other_sand a b m P) st).
    - intros s. reflexivity.
    - intros s. apply (levels_by_parts P (other_sand a b m P) s); [..|apply flooding_sand]; reflexivity.
    - intros s. unfold compute_sand_frac. reflexivity.
    - reflexivity.
    - reflexivity.
    - intros s. unfold advance_clock. reflexivity.
    - intros s. unfold write_output. reflexivity.
  Qed.
  Lemma ending_mud a b c l P (st : state F S) :
    write_output (other_mud a b c l P) (advance_clock (other_mud a b c l P) (finalize_timestep (other_mud a b c l P) (apply_subsidence (other_mud a b c l P) st)))
    = write_output P (advance_clock P (finalize_timestep P (apply_subsidence P st))).
  Proof.
    apply (ending_by_parts P (other_mud a b c l P) st).
    - intros s. reflexivity.
    - intros s. apply (levels_by_parts P (other_mud a b c l P) s); [..|apply flooding_mud]; reflexivity.
    - intros s. unfold compute_sand_frac. reflexivity.
    - reflexivity.
    - reflexivity.
    - intros s. unfold advance_clock. reflexivity.
    - intros s. unfold write_output. reflexivity.
  Qed.
End Other.

(** ** Updates *)
Section Updates.
  Context (rnd : R -> R) {HR : Rounding rnd} {S : Type} {G : Rng R S}.
  Notation A := (RA rnd).

  Lemma no_sand_parcels P : p_f_bedload P = 0 -> num_starts (A:=A) P Sand = 0%Z.
  Proof. intros H. unfold num_starts. rewrite H. cbn [fmul fz ftrunc RA]. rewrite Rmult_0_r, rnd_0. apply (Raux.Ztrunc_IZR 0). Qed.
  Lemma no_mud_parcels P : p_f_bedload P = 1 -> num_starts (A:=A) P Mud = 0%Z.
  Proof.
    intros H. unfold num_starts. rewrite H. cbn [fmul fsub fz ftrunc RA]. rewrite (rnd_1 (rnd:=rnd)). replace (1 - 1) with 0 by ring.
    rewrite (rnd_0 (rnd:=rnd)), Rmult_0_r, (rnd_0 (rnd:=rnd)). apply (Raux.Ztrunc_IZR 0).
  Qed.

  (** Where no sand moves, diffusion has nothing to move. *)
  Lemma still_sum (v : vec R) : (forall k, v k = 0) -> vsum (A:=A) v = 0.
  Proof.
    intros H. unfold vsum. assert (E : forall l x, x = 0 -> fold_left (fun acc k => fadd (Arith:=A) acc (v k)) l x = 0).
    { induction l as [|k l IH]; intros x Hx; [exact Hx|]. cbn [fold_left]. apply IH. rewrite H, Hx. cbn [fadd RA]. rewrite Rplus_0_r. apply rnd_0. }
    apply E. cbn [fz RA]. apply rnd_0.
  Qed.
  Lemma still_convolve P ker (f : grid R) : (forall i j, f i j = 0) -> forall i j, convolve (A:=A) P ker f i j = 0.
  Proof.
    intros H i j. unfold convolve. apply still_sum. intros k. cbn [fmul fz RA].
    destruct (inbb (p_L P) (p_W P) (i + jwalk_flat k) (j + iwalk_flat k)); [rewrite H, Rmult_0_r|rewrite rnd_0, Rmult_0_r]; apply rnd_0.
  Qed.
  Lemma still_flux P (st : state R S) eta : (forall i j, s_qs st i j = 0) -> crossflux (A:=A) P st eta = fun _ _ => 0.
  Proof.
    intros H. apply functional_extensionality; intro i. apply functional_extensionality; intro j. unfold crossflux.
    rewrite (still_convolve P kernel2 (s_qs st) H), (still_convolve P kernel2).
    2:{ intros x y. rewrite H. cbn [fmul RA]. rewrite Rmult_0_l. apply rnd_0. }
    rewrite H. cbn [fmul fadd fsub fz RA]. pose proof (rnd_0 (rnd:=rnd)) as Z0.
    rewrite Rmult_0_l, !Rmult_0_r, !Z0. replace (0 - 0) with 0 by ring. rewrite !Z0, Rplus_0_r, !Z0, Rmult_0_r, Z0.
    destruct (_ || _)%bool; reflexivity.
  Qed.
  Lemma diffuse_sand a b m P (st : state R S) : (forall i j, s_qs st i j = 0) ->
    topo_diffusion (A:=A) (other_sand a b m P) st = topo_diffusion (A:=A) P st.
  Proof.
    unfold topo_diffusion. change (p_N_crossdiff (other_sand a b m P)) with (p_N_crossdiff P). revert st.
    induction (Z.to_nat (p_N_crossdiff P)) as [|n IH]; intros st H; [reflexivity|]. cbn [diffuse_passes].
    assert (E : diffuse_once (A:=A) (other_sand a b m P) st = diffuse_once (A:=A) P st).
    { unfold diffuse_once. rewrite !gmemo_id, (still_flux (other_sand a b m P) st _ H), (still_flux P st _ H). reflexivity. }
    rewrite E. apply IH. intros i j. exact (H i j).
  Qed.

  Lemma update_sand a b m P (st : state R S) : p_f_bedload P = 0 -> update (A:=A) (other_sand a b m P) st = update (A:=A) P st.
  Proof.
    intros Hf. unfold update, solve_water_and_sediment_timestep. rewrite water_sand.
    destruct (route_water P (set_eta0 (s_eta st) st)) as [st1|e]; cbn [rbind]; [|reflexivity].
    unfold route_sediment. rewrite (no_parcels (other_sand a b m P) Sand), (no_parcels P Sand) by (apply no_sand_parcels; exact Hf). cbn [rbind].
    rewrite diffuse_sand by (intros i j; cbn [init_sediment_iteration set_qs s_qs fz RA]; apply rnd_0).
    rewrite mud_parcels_sand. destruct (route_all_parcels P Mud _) as [st2|e]; cbn [rbind]; [|reflexivity].
    rewrite ending_sand. reflexivity.
  Qed.
  Lemma update_mud a b c l P (st : state R S) : p_f_bedload P = 1 -> update (A:=A) (other_mud a b c l P) st = update (A:=A) P st.
  Proof.
    intros Hf. unfold update, solve_water_and_sediment_timestep. rewrite water_mud.
    destruct (route_water P (set_eta0 (s_eta st) st)) as [st1|e]; cbn [rbind]; [|reflexivity].
    unfold route_sediment. rewrite sand_parcels_mud. destruct (route_all_parcels P Sand _) as [st2|e]; cbn [rbind]; [|reflexivity].
    rewrite diffuse_mud, (no_parcels (other_mud a b c l P) Mud), (no_parcels P Mud) by (apply no_mud_parcels; exact Hf). cbn [rbind].
    rewrite ending_mud. reflexivity.
  Qed.
  Lemma updates_same P P' : (forall st : state R S, update (A:=A) P' st = update (A:=A) P st) ->
    forall n (st : state R S), updates (A:=A) P' n st = updates (A:=A) P n st.
  Proof.
    intros H n. induction n as [|n IH]; intros st; [reflexivity|]. cbn [updates]. rewrite H.
    destruct (update (A:=A) P st) as [[st1 o]|e]; cbn [rbind]; [|reflexivity]. rewrite IH. reflexivity.
  Qed.

  (** ** Deposits of the missing grain *)
  Definition pile_of (g : grain) (b : bed R) : grid R := match g with Sand => b_sand b | Mud => b_mud b end.
  Definition other (g : grain) : grain := match g with Sand => Mud | Mud => Sand end.
  Lemma step_keeps P g (st : state R S) b V px py s px' py' b' V' s' :
    sed_step (A:=A) P g st b V px py s = Ok (px', py', b', V', s') -> pile_of (other g) b' = pile_of (other g) b.
  Proof.
    unfold sed_step. intros E. apply rbind_Ok in E as ([k s1] & _ & E).
    destruct (get_steps k) as [[[dist istep] jstep] q].
    apply rbind_Ok in E as ([i0 j0] & _ & E). apply rbind_Ok in E as ([i j] & _ & E).
    destruct (zero_divisor _ _ _ _ _ _); [discriminate|].
    match type of E with (let (_, _) := deposit_or_erode P g st ?b1 _ _ _ _ _ in _) = _ =>
      assert (H : pile_of (other g) b1 = pile_of (other g) b)
        by (destruct g; auto; unfold partition_sediment; destruct (fltb _ _); auto) end.
    unfold deposit_or_erode in E. cbv zeta in E. injection E; intros; subst. rewrite <- H. destruct g; reflexivity.
  Qed.
  Lemma parcel_keeps P g (st : state R S) n : forall b V px py s b' V' s',
    route_one_parcel (A:=A) P g st n b V px py s = Ok (b', V', s') -> pile_of (other g) b' = pile_of (other g) b.
  Proof.
    induction n as [|n IH]; intros b V px py s b' V' s' E; [discriminate|].
    cbn [route_one_parcel] in E. apply rbind_Ok in E as ([[[[px1 py1] b1] V1] s1] & E1 & E).
    apply rbind_Ok in E as ([i j] & _ & E). apply step_keeps in E1. rewrite <- E1.
    destruct (_ || _)%bool; [injection E; intros; subst; auto|exact (IH _ _ _ _ _ _ _ _ E)].
  Qed.
  Lemma parcels_keep P g (st : state R S) starts : forall b s b' Vs s',
    route_parcels (A:=A) P g st starts b s = Ok (b', Vs, s') -> pile_of (other g) b' = pile_of (other g) b.
  Proof.
    induction starts as [|c starts IH]; intros b s b' Vs s' E.
    - injection E; intros; subst; auto.
    - cbn [route_parcels] in E. apply rbind_Ok in E as ([i j] & _ & E).
      destruct (no_flux_scale _ _); [discriminate|].
      apply rbind_Ok in E as ([[b2 V] s2] & E1 & E). apply rbind_Ok in E as ([[b3 Vs3] s3] & E2 & E).
      injection E; intros; subst. rewrite (IH _ _ _ _ _ E2), (parcel_keeps _ _ _ _ _ _ _ _ _ _ _ _ E1). destruct g; reflexivity.
  Qed.
  Definition deposits (g : grain) (st : state R S) : grid R := match g with Sand => s_Vp_dep_sand st | Mud => s_Vp_dep_mud st end.
  Lemma routing_keeps P g (st st' : state R S) : route_all_parcels (A:=A) P g st = Ok st' -> deposits (other g) st' = deposits (other g) st.
  Proof.
    unfold route_all_parcels, route_all_parcels_res. intros E. apply rbind_Ok in E as ([x Vs0] & E & E'). injection E' as <-.
    apply rbind_Ok in E as ([starts s] & _ & E). apply rbind_Ok in E as ([[b Vs] s'] & E1 & E). injection E as <- <-.
    apply parcels_keep in E1. destruct g; cbn [deposits other put_bed s_Vp_dep_mud s_Vp_dep_sand pile_of] in *; cbn; rewrite gmemo_id, E1; reflexivity.
  Qed.
  Lemma update_deposits P (st st' : state R S) o : update (A:=A) P st = Ok (st', o) ->
    exists st1 st2, route_sediment (A:=A) P st1 = Ok st2 /\ s_Vp_dep_sand st' = s_Vp_dep_sand st2 /\ s_Vp_dep_mud st' = s_Vp_dep_mud st2.
  Proof.
    intros E. apply update_inv in E as (st1 & st2 & E1 & E2 & E3). exists st1, st2. split; [exact E2|].
    apply write_output_same in E3. apply same_fields in E3.
    destruct E3 as (_ & _ & _ & _ & _ & _ & _ & _ & _ & _ & _ & _ & H13 & H14 & _).
    pose proof (subsidence_fields (A:=A) P st2) as H5. cbn zeta in H5.
    destruct H5 as (_ & _ & _ & _ & _ & V1 & V2 & _).
    pose proof (finalize_levels_frame rnd P (apply_subsidence (A:=A) P st2)) as FL. cbn zeta in FL.
    destruct FL as (_ & _ & _ & _ & L4 & L5).
    destruct (finalize_fields rnd P (apply_subsidence (A:=A) P st2)) as (_ & _ & _ & Q4 & Q5 & _ & _).
    rewrite H13, H14, Q4, Q5, L4, L5, V1, V2. split; reflexivity.
  Qed.
  Lemma update_no_sand P (st st' : state R S) o : p_f_bedload P = 0 -> update (A:=A) P st = Ok (st', o) -> no_sand st'.
  Proof.
    intros Hf E. apply update_deposits in E as (st1 & st2 & E & H & _). unfold route_sediment in E.
    rewrite (no_parcels P Sand) in E by (apply no_sand_parcels; exact Hf). cbn [rbind] in E. apply routing_keeps in E.
    cbn [deposits other] in E. intros i j. rewrite H, E. unfold topo_diffusion.
    destruct (diffuse_frame (A:=A) P (Z.to_nat (p_N_crossdiff P)) (init_sediment_iteration (A:=A) st1)) as (_ & _ & _ & _ & _ & _ & _ & H1 & H2).
    rewrite H1. cbn. apply rnd_0.
  Qed.
  Lemma update_no_mud P (st st' : state R S) o : p_f_bedload P = 1 -> update (A:=A) P st = Ok (st', o) -> no_mud st'.
  Proof.
    intros Hf E. apply update_deposits in E as (st1 & st2 & E & _ & H). unfold route_sediment in E.
    apply rbind_Ok in E as (st3 & E1 & E). rewrite (no_parcels P Mud) in E by (apply no_mud_parcels; exact Hf). injection E as <-.
    apply routing_keeps in E1. cbn [deposits other] in E1. intros i j. rewrite H. unfold topo_diffusion.
    destruct (diffuse_frame (A:=A) P (Z.to_nat (p_N_crossdiff P)) st3) as (_ & _ & _ & _ & _ & _ & _ & H1 & H2).
    rewrite H2, E1. cbn. apply rnd_0.
  Qed.

  (** ** Sand fractions *)
  Lemma fractions_two P v (st : state R S) :
    (forall i j, 0 < s_Vp_dep_sand st i j \/ rnd (1 / 1000000) < s_Vp_dep_mud st i j ->
       rnd (s_Vp_dep_sand st i j / rnd (s_Vp_dep_mud st i j + s_Vp_dep_sand st i j)) = v) ->
    one_or_other (p_sand_frac_bc P) v st -> one_or_other (p_sand_frac_bc P) v (compute_sand_frac (A:=A) P st).
  Proof.
    intros Hm H i j. specialize (Hm i j). specialize (H i j). unfold compute_sand_frac. cbn -[existsb cells].
    rewrite !gmemo_id, rnd_1, (rnd_small 1000000), !rnd_0 by lia.
    destruct (Rltb_spec 0 (s_Vp_dep_sand st i j)); cbn [orb]; [tauto|].
    destruct (Rltb_spec (rnd (1 / 1000000)) (s_Vp_dep_mud st i j)); [tauto|].
    destruct (existsb _ _); [|exact H]. destruct (_ && _)%bool; [tauto|]. destruct (Rltb _ _); tauto.
  Qed.
  Lemma update_mud_alone P (st st' : state R S) o : p_f_bedload P = 0 -> update (A:=A) P st = Ok (st', o) ->
    one_or_other (p_sand_frac_bc P) 0 st -> one_or_other (p_sand_frac_bc P) 0 st'.
  Proof.
    intros Hf E H i j. pose proof (update_no_sand P st st' o Hf E) as N.
    apply (IterProofs.update_sand rnd P) in E as (st4 & _ & _ & _ & E1 & E2 & E3 & E4 & <- & <-).
    apply fractions_two.
    - intros a b _. rewrite E3, N. unfold Rdiv. rewrite Rmult_0_l. apply rnd_0.
    - intros a b. rewrite E1, E2. apply H.
  Qed.
  Lemma update_sand_alone P (st st' : state R S) o : p_f_bedload P = 1 -> update (A:=A) P st = Ok (st', o) ->
    one_or_other (p_sand_frac_bc P) 1 st -> one_or_other (p_sand_frac_bc P) 1 st'.
  Proof.
    intros Hf E H i j. pose proof (update_no_mud P st st' o Hf E) as N.
    apply (IterProofs.update_sand rnd P) in E as (st4 & [Hp _] & _ & _ & E1 & E2 & E3 & E4 & <- & <-).
    apply fractions_two.
    - intros a b D. rewrite E4, (N a b), Rplus_0_l. rewrite E4, (N a b) in D. destruct (Hp a b) as [_ Hr]. rewrite Hr.
      destruct D as [D|D].
      + unfold Rdiv. rewrite Rinv_r by lra. apply rnd_1.
      + pose proof (least_nonneg rnd). lra.
    - intros a b. rewrite E1, E2. apply H.
  Qed.
  Lemma run_mud_alone P : p_f_bedload P = 0 -> forall tr (st st' : state R S), run (A:=A) P st tr st' ->
    one_or_other (p_sand_frac_bc P) 0 st ->
    Forall (fun x => no_sand (fst x) /\ one_or_other (p_sand_frac_bc P) 0 (fst x)) tr /\ one_or_other (p_sand_frac_bc P) 0 st'.
  Proof.
    intros Hf. induction tr as [|[s1 o1] tr IH]; intros st st' H H0; inversion H as [|? ? ? ? ? HU HRun]; subst; auto.
    assert (H1 : one_or_other (p_sand_frac_bc P) 0 s1) by (eapply update_mud_alone; eauto).
    destruct (IH _ _ HRun H1) as [I1 I2]. split; [constructor; auto; split; [eapply update_no_sand; eauto|auto]|auto].
  Qed.
  Lemma run_sand_alone P : p_f_bedload P = 1 -> forall tr (st st' : state R S), run (A:=A) P st tr st' ->
    one_or_other (p_sand_frac_bc P) 1 st ->
    Forall (fun x => no_mud (fst x) /\ one_or_other (p_sand_frac_bc P) 1 (fst x)) tr /\ one_or_other (p_sand_frac_bc P) 1 st'.
  Proof.
    intros Hf. induction tr as [|[s1 o1] tr IH]; intros st st' H H0; inversion H as [|? ? ? ? ? HU HRun]; subst; auto.
    assert (H1 : one_or_other (p_sand_frac_bc P) 1 s1) by (eapply update_sand_alone; eauto).
    destruct (IH _ _ HRun H1) as [I1 I2]. split; [constructor; auto; split; [eapply update_no_mud; eauto|auto]|auto].
  Qed.
End Updates.

(** ** Construction *)
Section Building.
  Context {F : Type} {A : Arith F} {S N : Type} {G : Rng F S} {GN : NpRng N}.

  Definition through {X Y} (f : X -> Y) (r : result X) : result Y := match r with Ok x => Ok (f x) | Err e => Err e end.

  Lemma input_commutes (f : inputs F -> inputs F) (c : inputs F) :
    (forall c, i_h0 (f c) = i_h0 c) -> (forall c, i_save_dt (f c) = i_save_dt c) ->
    (forall c, i_Length (f c) = i_Length c) -> (forall x c, seti_Length x (f c) = f (seti_Length x c)) ->
    (forall c, i_Width (f c) = i_Width c) -> (forall x c, seti_Width x (f c) = f (seti_Width x c)) ->
    (forall c, i_dx (f c) = i_dx c) -> (forall x c, seti_dx x (f c) = f (seti_dx x c)) ->
    (forall c, i_L0_meters (f c) = i_L0_meters c) -> (forall x c, seti_L0_meters x (f c) = f (seti_L0_meters x c)) ->
    (forall c, i_itermax (f c) = i_itermax c) -> (forall x c, seti_itermax x (f c) = f (seti_itermax x c)) ->
    (forall c, i_Np_water (f c) = i_Np_water c) -> (forall x c, seti_Np_water x (f c) = f (seti_Np_water x c)) ->
    (forall c, i_N0_meters (f c) = i_N0_meters c) -> (forall x c, seti_N0_meters x (f c) = f (seti_N0_meters x c)) ->
    (forall c, i_Np_sed (f c) = i_Np_sed c) -> (forall x c, seti_Np_sed x (f c) = f (seti_Np_sed x c)) ->
    (forall c, i_f_bedload (f c) = i_f_bedload c) -> (forall x c, seti_f_bedload x (f c) = f (seti_f_bedload x c)) ->
    (forall c, i_active_layer_thickness (f c) = i_active_layer_thickness c) -> (forall x c, seti_active_layer_thickness x (f c) = f (seti_active_layer_thickness x c)) ->
    (forall c, i_C0_percent (f c) = i_C0_percent c) -> (forall x c, seti_C0_percent x (f c) = f (seti_C0_percent x c)) ->
    (forall c, i_Csmooth (f c) = i_Csmooth c) -> (forall x c, seti_Csmooth x (f c) = f (seti_Csmooth x c)) ->
    (forall c, i_checkpoint_dt (f c) = i_checkpoint_dt c) -> (forall x c, seti_checkpoint_dt x (f c) = f (seti_checkpoint_dt x c)) ->
    process_input_to_model (f c) = through f (process_input_to_model c).
  Proof.
    intros Gh Gs G0 S0 G1 S1 G2 S2 G3 S3 G4 S4 G5 S5 G6 S6 G7 S7 G8 S8 G9 S9 G10 S10 G11 S11 G12 S12. unfold process_input_to_model, set_Length.
    Local Ltac go := cbn [rbind through]; first [reflexivity | idtac].
    rewrite G0. destruct (fleb (i_Length c) (fz 0)); go. rewrite S0. generalize (seti_Length (i_Length c) c); clear c; intro c.
    unfold set_Width. rewrite G1. destruct (fleb (i_Width c) (fz 0)); go. rewrite S1. generalize (seti_Width (i_Width c) c); clear c; intro c.
    unfold set_dx. rewrite G2, G0, G1. destruct (_ || _)%bool; go. rewrite S2. generalize (seti_dx (i_dx c) c); clear c; intro c.
    unfold set_L0_meters. rewrite G3. destruct (fltb _ _); go. rewrite S3. generalize (seti_L0_meters (i_L0_meters c) c); clear c; intro c.
    unfold set_itermax. rewrite G4. destruct (_ <? 0)%Z; go. rewrite S4. generalize (seti_itermax (i_itermax c) c); clear c; intro c.
    unfold set_Np_water. rewrite G5. destruct (_ <=? 0)%Z; go. rewrite S5. generalize (seti_Np_water (i_Np_water c) c); clear c; intro c.
    unfold set_N0_meters. rewrite G6. destruct (fleb _ _); go. rewrite S6. generalize (seti_N0_meters (i_N0_meters c) c); clear c; intro c.
    unfold set_Np_sed. rewrite G7. destruct (_ <=? 0)%Z; go. rewrite S7. generalize (seti_Np_sed (i_Np_sed c) c); clear c; intro c.
    unfold set_f_bedload. rewrite G8. destruct (_ || _)%bool; go. rewrite S8. generalize (seti_f_bedload (i_f_bedload c) c); clear c; intro c.
    assert (Last : forall c, (do inp <- set_C0_percent (i_C0_percent (f c)) (f c); do inp <- set_Csmooth (i_Csmooth inp) inp; Ok (set_checkpoint_dt (i_checkpoint_dt inp) inp))
        = through f (do inp <- set_C0_percent (i_C0_percent c) c; do inp <- set_Csmooth (i_Csmooth inp) inp; Ok (set_checkpoint_dt (i_checkpoint_dt inp) inp))).
    { clear c. intro c. unfold set_C0_percent. rewrite G10. destruct (fltb _ _); go. rewrite S10. generalize (seti_C0_percent (i_C0_percent c) c); clear c; intro c.
      unfold set_Csmooth. rewrite G11. destruct (fltb _ _); go. rewrite S11. generalize (seti_Csmooth (i_Csmooth c) c); clear c; intro c.
      unfold set_checkpoint_dt. rewrite G12, Gs, S12. reflexivity. }
    unfold set_active_layer_thickness. rewrite G9, Gh. destruct (i_active_layer_thickness c) as [t|].
    - destruct (fltb t (fz 0)); go. rewrite S9. apply Last.
    - go. rewrite S9. apply Last.
  Qed.
  Lemma input_sand a b al (c : inputs F) : process_input_to_model (sand_settings a b al c) = through (sand_settings a b al) (process_input_to_model c).
  Proof. apply (input_commutes (sand_settings a b al) c); reflexivity. Qed.
  Lemma input_mud a b d l (c : inputs F) : process_input_to_model (mud_settings a b d l c) = through (mud_settings a b d l) (process_input_to_model c).
  Proof. apply (input_commutes (mud_settings a b d l) c); reflexivity. Qed.
  (** Setting a constant that the other grain does not use. *)
  Lemma other_sand_L0 a b m x (P : params F) : setp_L0 x (other_sand a b m P) = other_sand a b m (setp_L0 x P).
  Proof. destruct P; reflexivity. Qed.
  Lemma other_sand_N0 a b m x (P : params F) : setp_N0 x (other_sand a b m P) = other_sand a b m (setp_N0 x P).
  Proof. destruct P; reflexivity. Qed.
  Lemma other_sand_u_max a b m x (P : params F) : setp_u_max x (other_sand a b m P) = other_sand a b m (setp_u_max x P).
  Proof. destruct P; reflexivity. Qed.
  Lemma other_sand_C0 a b m x (P : params F) : setp_C0 x (other_sand a b m P) = other_sand a b m (setp_C0 x P).
  Proof. destruct P; reflexivity. Qed.
  Lemma other_sand_dry_depth a b m x (P : params F) : setp_dry_depth x (other_sand a b m P) = other_sand a b m (setp_dry_depth x P).
  Proof. destruct P; reflexivity. Qed.
  Lemma other_sand_gamma a b m x (P : params F) : setp_gamma x (other_sand a b m P) = other_sand a b m (setp_gamma x P).
  Proof. destruct P; reflexivity. Qed.
  Lemma other_sand_V0 a b m x (P : params F) : setp_V0 x (other_sand a b m P) = other_sand a b m (setp_V0 x P).
  Proof. destruct P; reflexivity. Qed.
  Lemma other_sand_Qw0 a b m x (P : params F) : setp_Qw0 x (other_sand a b m P) = other_sand a b m (setp_Qw0 x P).
  Proof. destruct P; reflexivity. Qed.
  Lemma other_sand_qw0 a b m x (P : params F) : setp_qw0 x (other_sand a b m P) = other_sand a b m (setp_qw0 x P).
  Proof. destruct P; reflexivity. Qed.
  Lemma other_sand_Qp_water a b m x (P : params F) : setp_Qp_water x (other_sand a b m P) = other_sand a b m (setp_Qp_water x P).
  Proof. destruct P; reflexivity. Qed.
  Lemma other_sand_qs0 a b m x (P : params F) : setp_qs0 x (other_sand a b m P) = other_sand a b m (setp_qs0 x P).
  Proof. destruct P; reflexivity. Qed.
  Lemma other_sand_dVs a b m x (P : params F) : setp_dVs x (other_sand a b m P) = other_sand a b m (setp_dVs x P).
  Proof. destruct P; reflexivity. Qed.
  Lemma other_sand_Qs0 a b m x (P : params F) : setp_Qs0 x (other_sand a b m P) = other_sand a b m (setp_Qs0 x P).
  Proof. destruct P; reflexivity. Qed.
  Lemma other_sand_Vp_sed a b m x (P : params F) : setp_Vp_sed x (other_sand a b m P) = other_sand a b m (setp_Vp_sed x P).
  Proof. destruct P; reflexivity. Qed.
  Lemma other_sand_stepmax a b m x (P : params F) : setp_stepmax x (other_sand a b m P) = other_sand a b m (setp_stepmax x P).
  Proof. destruct P; reflexivity. Qed.
  Lemma other_sand_dt a b m x (P : params F) : setp_dt x (other_sand a b m P) = other_sand a b m (setp_dt x P).
  Proof. destruct P; reflexivity. Qed.
  Lemma other_sand_omega_flow_iter a b m x (P : params F) : setp_omega_flow_iter x (other_sand a b m P) = other_sand a b m (setp_omega_flow_iter x P).
  Proof. destruct P; reflexivity. Qed.
  Lemma other_sand_N_crossdiff a b m x (P : params F) : setp_N_crossdiff x (other_sand a b m P) = other_sand a b m (setp_N_crossdiff x P).
  Proof. destruct P; reflexivity. Qed.
  Lemma other_sand_lambda a b m x (P : params F) : setp_lambda x (other_sand a b m P) = other_sand a b m (setp_lambda x P).
  Proof. destruct P; reflexivity. Qed.
  Lemma other_sand_inlet a b m x (P : params F) : setp_inlet x (other_sand a b m P) = other_sand a b m (setp_inlet x P).
  Proof. destruct P; reflexivity. Qed.
  Lemma other_sand_hb a b m x (P : params F) : setp_hb x (other_sand a b m P) = other_sand a b m (setp_hb x P).
  Proof. destruct P; reflexivity. Qed.
  Lemma other_sand_f_bedload_router a b m x (P : params F) : setp_f_bedload_router x (other_sand a b m P) = other_sand a b m (setp_f_bedload_router x P).
  Proof. destruct P; reflexivity. Qed.
  Lemma other_sand_sigma a b m x (P : params F) : setp_sigma x (other_sand a b m P) = other_sand a b m (setp_sigma x P).
  Proof. destruct P; reflexivity. Qed.
  Lemma other_mud_L0 a b d l x (P : params F) : setp_L0 x (other_mud a b d l P) = other_mud a b d l (setp_L0 x P).
  Proof. destruct P; reflexivity. Qed.
  Lemma other_mud_N0 a b d l x (P : params F) : setp_N0 x (other_mud a b d l P) = other_mud a b d l (setp_N0 x P).
  Proof. destruct P; reflexivity. Qed.
  Lemma other_mud_u_max a b d l x (P : params F) : setp_u_max x (other_mud a b d l P) = other_mud a b d l (setp_u_max x P).
  Proof. destruct P; reflexivity. Qed.
  Lemma other_mud_C0 a b d l x (P : params F) : setp_C0 x (other_mud a b d l P) = other_mud a b d l (setp_C0 x P).
  Proof. destruct P; reflexivity. Qed.
  Lemma other_mud_dry_depth a b d l x (P : params F) : setp_dry_depth x (other_mud a b d l P) = other_mud a b d l (setp_dry_depth x P).
  Proof. destruct P; reflexivity. Qed.
  Lemma other_mud_gamma a b d l x (P : params F) : setp_gamma x (other_mud a b d l P) = other_mud a b d l (setp_gamma x P).
  Proof. destruct P; reflexivity. Qed.
  Lemma other_mud_V0 a b d l x (P : params F) : setp_V0 x (other_mud a b d l P) = other_mud a b d l (setp_V0 x P).
  Proof. destruct P; reflexivity. Qed.
  Lemma other_mud_Qw0 a b d l x (P : params F) : setp_Qw0 x (other_mud a b d l P) = other_mud a b d l (setp_Qw0 x P).
  Proof. destruct P; reflexivity. Qed.
  Lemma other_mud_qw0 a b d l x (P : params F) : setp_qw0 x (other_mud a b d l P) = other_mud a b d l (setp_qw0 x P).
  Proof. destruct P; reflexivity. Qed.
  Lemma other_mud_Qp_water a b d l x (P : params F) : setp_Qp_water x (other_mud a b d l P) = other_mud a b d l (setp_Qp_water x P).
  Proof. destruct P; reflexivity. Qed.
  Lemma other_mud_qs0 a b d l x (P : params F) : setp_qs0 x (other_mud a b d l P) = other_mud a b d l (setp_qs0 x P).
  Proof. destruct P; reflexivity. Qed.
  Lemma other_mud_dVs a b d l x (P : params F) : setp_dVs x (other_mud a b d l P) = other_mud a b d l (setp_dVs x P).
  Proof. destruct P; reflexivity. Qed.
  Lemma other_mud_Qs0 a b d l x (P : params F) : setp_Qs0 x (other_mud a b d l P) = other_mud a b d l (setp_Qs0 x P).
  Proof. destruct P; reflexivity. Qed.
  Lemma other_mud_Vp_sed a b d l x (P : params F) : setp_Vp_sed x (other_mud a b d l P) = other_mud a b d l (setp_Vp_sed x P).
  Proof. destruct P; reflexivity. Qed.
  Lemma other_mud_stepmax a b d l x (P : params F) : setp_stepmax x (other_mud a b d l P) = other_mud a b d l (setp_stepmax x P).
  Proof. destruct P; reflexivity. Qed.
  Lemma other_mud_dt a b d l x (P : params F) : setp_dt x (other_mud a b d l P) = other_mud a b d l (setp_dt x P).
  Proof. destruct P; reflexivity. Qed.
  Lemma other_mud_omega_flow_iter a b d l x (P : params F) : setp_omega_flow_iter x (other_mud a b d l P) = other_mud a b d l (setp_omega_flow_iter x P).
  Proof. destruct P; reflexivity. Qed.
  Lemma other_mud_N_crossdiff a b d l x (P : params F) : setp_N_crossdiff x (other_mud a b d l P) = other_mud a b d l (setp_N_crossdiff x P).
  Proof. destruct P; reflexivity. Qed.
  Lemma other_mud_diffusion_multiplier a b d l x (P : params F) : setp_diffusion_multiplier x (other_mud a b d l P) = other_mud a b d l (setp_diffusion_multiplier x P).
  Proof. destruct P; reflexivity. Qed.
  Lemma other_mud_inlet a b d l x (P : params F) : setp_inlet x (other_mud a b d l P) = other_mud a b d l (setp_inlet x P).
  Proof. destruct P; reflexivity. Qed.
  Lemma other_mud_hb a b d l x (P : params F) : setp_hb x (other_mud a b d l P) = other_mud a b d l (setp_hb x P).
  Proof. destruct P; reflexivity. Qed.
  Lemma other_mud_f_bedload_router a b d l x (P : params F) : setp_f_bedload_router x (other_mud a b d l P) = other_mud a b d l (setp_f_bedload_router x P).
  Proof. destruct P; reflexivity. Qed.
  Lemma other_mud_sigma a b d l x (P : params F) : setp_sigma x (other_mud a b d l P) = other_mud a b d l (setp_sigma x P).
  Proof. destruct P; reflexivity. Qed.
  Lemma other_sand_diffusion a b m x y (P : params F) : setp_diffusion_multiplier x (other_sand a b m P) = other_sand a b x (setp_diffusion_multiplier y P).
  Proof. destruct P; reflexivity. Qed.
  Lemma other_mud_lag a b d l x y (P : params F) : setp_lambda x (other_mud a b d l P) = other_mud a b d x (setp_lambda y P).
  Proof. destruct P; reflexivity. Qed.

  Definition outcome_sand (r r' : result (params F)) : Prop :=
    match r, r' with Ok P, Ok P' => exists a b m, P' = other_sand a b m P | Err e, Err e' => e = e' | _, _ => False end.
  Definition outcome_mud (r r' : result (params F)) : Prop :=
    match r, r' with Ok P, Ok P' => exists a b d l, P' = other_mud a b d l P | Err e, Err e' => e = e' | _, _ => False end.

  Lemma boundary_sand a b m P x y al (c : inputs F) :
    outcome_sand (create_boundary_conditions c P) (create_boundary_conditions (sand_settings x y al c) (other_sand a b m P)).
  Proof.
    unfold create_boundary_conditions. cbv zeta.
    change (p_L (other_sand a b m P)) with (p_L P). change (p_W (other_sand a b m P)) with (p_W P).
    change (p_Np_water (other_sand a b m P)) with (p_Np_water P). change (p_Np_sed (other_sand a b m P)) with (p_Np_sed P).
    change (p_itermax (other_sand a b m P)) with (p_itermax P).
    change (i_dx (sand_settings x y al c)) with (i_dx c). change (i_u0 (sand_settings x y al c)) with (i_u0 c).
    change (i_h0 (sand_settings x y al c)) with (i_h0 c). change (i_S0 (sand_settings x y al c)) with (i_S0 c).
    change (i_L0_meters (sand_settings x y al c)) with (i_L0_meters c). change (i_N0_meters (sand_settings x y al c)) with (i_N0_meters c).
    change (i_C0_percent (sand_settings x y al c)) with (i_C0_percent c). change (i_stepmax (sand_settings x y al c)) with (i_stepmax c).
    change (i_sed_lag (sand_settings x y al c)) with (i_sed_lag c). change (i_alpha (sand_settings x y al c)) with al.
    do 6 (match goal with |- outcome_sand (rbind ?d _) _ => destruct d as [?|e]; cbn [rbind]; [|reflexivity] end).
    match goal with |- outcome_sand (rbind ?d _) _ => destruct d as [dtp|e]; cbn [rbind]; [|reflexivity] end.
    unfold pydiv. destruct (feqb _ _); cbn [rbind]; [reflexivity|]. cbn [outcome_sand].
    eexists a, b, _. symmetry.
    rewrite other_sand_diffusion with (y := fdiv (fmul (fmul dtp (i_alpha c)) (flit 1 2)) (fmul (i_dx c) (i_dx c))).
    rewrite other_sand_lambda, other_sand_N_crossdiff, other_sand_omega_flow_iter, other_sand_dt, other_sand_stepmax, other_sand_Vp_sed, other_sand_Qs0, other_sand_dVs, other_sand_qs0, other_sand_Qp_water, other_sand_qw0, other_sand_Qw0, other_sand_V0, other_sand_gamma, other_sand_dry_depth, other_sand_C0, other_sand_u_max, other_sand_N0, other_sand_L0. reflexivity.
  Qed.
  Lemma boundary_mud a b d l P x y z la (c : inputs F) :
    outcome_mud (create_boundary_conditions c P) (create_boundary_conditions (mud_settings x y z la c) (other_mud a b d l P)).
  Proof.
    unfold create_boundary_conditions. cbv zeta.
    change (p_L (other_mud a b d l P)) with (p_L P). change (p_W (other_mud a b d l P)) with (p_W P).
    change (p_Np_water (other_mud a b d l P)) with (p_Np_water P). change (p_Np_sed (other_mud a b d l P)) with (p_Np_sed P).
    change (p_itermax (other_mud a b d l P)) with (p_itermax P).
    change (i_dx (mud_settings x y z la c)) with (i_dx c). change (i_u0 (mud_settings x y z la c)) with (i_u0 c).
    change (i_h0 (mud_settings x y z la c)) with (i_h0 c). change (i_S0 (mud_settings x y z la c)) with (i_S0 c).
    change (i_L0_meters (mud_settings x y z la c)) with (i_L0_meters c). change (i_N0_meters (mud_settings x y z la c)) with (i_N0_meters c).
    change (i_C0_percent (mud_settings x y z la c)) with (i_C0_percent c). change (i_stepmax (mud_settings x y z la c)) with (i_stepmax c).
    change (i_sed_lag (mud_settings x y z la c)) with la. change (i_alpha (mud_settings x y z la c)) with (i_alpha c).
    do 8 (match goal with |- outcome_mud (rbind ?d _) _ => destruct d as [?|e]; cbn [rbind]; [|reflexivity] end).
    cbn [outcome_mud]. eexists a, b, d, _. symmetry.
    rewrite other_mud_diffusion_multiplier, other_mud_lag with (y := i_sed_lag c).
    rewrite other_mud_N_crossdiff, other_mud_omega_flow_iter, other_mud_dt, other_mud_stepmax, other_mud_Vp_sed, other_mud_Qs0, other_mud_dVs, other_mud_qs0, other_mud_Qp_water, other_mud_qw0, other_mud_Qw0, other_mud_V0, other_mud_gamma, other_mud_dry_depth, other_mud_C0, other_mud_u_max, other_mud_N0, other_mud_L0. reflexivity.
  Qed.

  Lemma variables_sand x y al (c : inputs F) : exists a b m, create_other_variables (sand_settings x y al c) = other_sand a b m (create_other_variables c).
  Proof. exists (fmul x (i_theta_water c)), (fmul y (i_u0 c)), (fz 0). destruct c; reflexivity. Qed.
  Lemma variables_mud x y z la (c : inputs F) : exists a b d l, create_other_variables (mud_settings x y z la c) = other_mud a b d l (create_other_variables c).
  Proof. exists (fmul x (i_theta_water c)), (fmul y (i_u0 c)), (fmul z (i_u0 c)), (fz 0). destruct c; reflexivity. Qed.
  Lemma seed_sand x y al (c : inputs F) (np : N) : determine_random_seed (G:=G) (sand_settings x y al c) np
    = let '(c', s, np') := determine_random_seed (G:=G) c np in (sand_settings x y al c', s, np').
  Proof. unfold determine_random_seed. destruct c as [];cbn. destruct i_seed; [|destruct (randint np)]; reflexivity. Qed.
  Lemma seed_mud x y z la (c : inputs F) (np : N) : determine_random_seed (G:=G) (mud_settings x y z la c) np
    = let '(c', s, np') := determine_random_seed (G:=G) c np in (mud_settings x y z la c', s, np').
  Proof. unfold determine_random_seed. destruct c as [];cbn. destruct i_seed; [|destruct (randint np)]; reflexivity. Qed.
  Lemma domain_sand x y al (c : inputs F) a b m P (s : S) : create_domain (sand_settings x y al c) (other_sand a b m P) s
    = through (fun r => (other_sand a b m (fst r), snd r)) (create_domain c P s).
  Proof.
    unfold create_domain. cbv zeta. change (size_indices (other_sand a b m P)) with (size_indices P).
    destruct (size_indices P <? 0)%Z; cbn [through fst snd]; [reflexivity|]. rewrite other_sand_hb, other_sand_inlet. reflexivity.
  Qed.
  Lemma domain_mud x y z la (c : inputs F) a b d l P (s : S) : create_domain (mud_settings x y z la c) (other_mud a b d l P) s
    = through (fun r => (other_mud a b d l (fst r), snd r)) (create_domain c P s).
  Proof.
    unfold create_domain. cbv zeta. change (size_indices (other_mud a b d l P)) with (size_indices P).
    destruct (size_indices P <? 0)%Z; cbn [through fst snd]; [reflexivity|]. rewrite other_mud_hb, other_mud_inlet. reflexivity.
  Qed.
  Lemma last_commutes (f : params F -> params F) (c c' : inputs F) P :
    (forall P, p_f_bedload (f P) = p_f_bedload P) -> (forall P, p_toggle_subsidence (f P) = p_toggle_subsidence P) ->
    (forall P, p_L0 (f P) = p_L0 P) -> (forall P, p_dt (f P) = p_dt P) -> i_subsidence_rate c' = i_subsidence_rate c ->
    (forall x P, setp_f_bedload_router x (f P) = f (setp_f_bedload_router x P)) -> (forall x P, setp_sigma x (f P) = f (setp_sigma x P)) ->
    init_subsidence c' (init_sediment_routers (f P)) = f (init_subsidence c (init_sediment_routers P)).
  Proof.
    intros H1 H2 H3 H4 H5 H6 H7. unfold init_sediment_routers. rewrite H1, H6. generalize (setp_f_bedload_router (p_f_bedload P) P). intro Q.
    unfold init_subsidence. rewrite H2, H3, H4, H5. destruct (p_toggle_subsidence Q); [apply H7|reflexivity].
  Qed.
  Lemma last_sand x y al (c : inputs F) a b m P :
    init_subsidence (sand_settings x y al c) (init_sediment_routers (other_sand a b m P)) = other_sand a b m (init_subsidence c (init_sediment_routers P)).
  Proof. apply (last_commutes (other_sand a b m)); try reflexivity. Qed.
  Lemma last_mud x y z la (c : inputs F) a b d l P :
    init_subsidence (mud_settings x y z la c) (init_sediment_routers (other_mud a b d l P)) = other_mud a b d l (init_subsidence c (init_sediment_routers P)).
  Proof. apply (last_commutes (other_mud a b d l)); try reflexivity. Qed.
  Lemma built_sand x y al (c : inputs F) (nb : S) (np : N) :
    match construct (G:=G) (GN:=GN) c nb np, construct (G:=G) (GN:=GN) (sand_settings x y al c) nb np with
    | Ok (m1, np1), Ok (m2, np2) => np2 = np1 /\ m_st m2 = m_st m1 /\ exists a b m, m_P m2 = other_sand a b m (m_P m1)
    | Err e, Err e' => e = e'
    | _, _ => False
    end.
  Proof.
    unfold construct. rewrite input_sand. destruct (process_input_to_model c) as [c1|e]; cbn [rbind through]; [|reflexivity]. rewrite seed_sand.
    destruct (determine_random_seed (G:=G) c1 np) as [[c2 s] np1]. destruct (variables_sand x y al c2) as (a1 & b1 & m1 & ->).
    pose proof (boundary_sand a1 b1 m1 (create_other_variables c2) x y al c2) as B.
    destruct (create_boundary_conditions c2 (create_other_variables c2)) as [P|e];
      destruct (create_boundary_conditions (sand_settings x y al c2) _) as [P'|e']; cbn [outcome_sand] in B; try contradiction; cbn [rbind]; [|exact B].
    destruct B as (a & b & m & ->). rewrite domain_sand. destruct (create_domain c2 P s) as [[P2 st]|e]; cbn [rbind through fst snd]; [|reflexivity].
    cbn [m_st m_P]. split; [reflexivity|]. split; [reflexivity|]. exists a, b, m. apply last_sand.
  Qed.
  Lemma built_mud x y z la (c : inputs F) (nb : S) (np : N) :
    match construct (G:=G) (GN:=GN) c nb np, construct (G:=G) (GN:=GN) (mud_settings x y z la c) nb np with
    | Ok (m1, np1), Ok (m2, np2) => np2 = np1 /\ m_st m2 = m_st m1 /\ exists a b d l, m_P m2 = other_mud a b d l (m_P m1)
    | Err e, Err e' => e = e'
    | _, _ => False
    end.
  Proof.
    unfold construct. rewrite input_mud. destruct (process_input_to_model c) as [c1|e]; cbn [rbind through]; [|reflexivity]. rewrite seed_mud.
    destruct (determine_random_seed (G:=G) c1 np) as [[c2 s] np1]. destruct (variables_mud x y z la c2) as (a1 & b1 & d1 & l1 & ->).
    pose proof (boundary_mud a1 b1 d1 l1 (create_other_variables c2) x y z la c2) as B.
    destruct (create_boundary_conditions c2 (create_other_variables c2)) as [P|e];
      destruct (create_boundary_conditions (mud_settings x y z la c2) _) as [P'|e']; cbn [outcome_mud] in B; try contradiction; cbn [rbind]; [|exact B].
    destruct B as (a & b & d & l & ->). rewrite domain_mud. destruct (create_domain c2 P s) as [[P2 st]|e]; cbn [rbind through fst snd]; [|reflexivity].
    cbn [m_st m_P]. split; [reflexivity|]. split; [reflexivity|]. exists a, b, d, l. apply last_mud.
  Qed.

  (** What a constructed model has of its configuration. *)
  Lemma built_fractions (c : inputs F) (nb : S) (np : N) m np' : construct (G:=G) (GN:=GN) c nb np = Ok (m, np') ->
    p_f_bedload (m_P m) = i_f_bedload c /\ p_sand_frac_bc (m_P m) = i_sand_frac_bc c /\
    forall i j, s_sand_frac (m_st m) i j = fadd (fz 0) (i_sand_frac_bc c) /\ s_active_layer (m_st m) i j = fadd (fz 0) (i_sand_frac_bc c).
  Proof.
    unfold construct. intros E. apply rbind_Ok in E as (c' & E1 & E).
    pose proof (ScenarioProofs.process_keeps i_f_bedload c c' (fun _ _ => eq_refl) (fun _ _ => eq_refl) E1) as C1.
    pose proof (ScenarioProofs.process_keeps i_sand_frac_bc c c' (fun _ _ => eq_refl) (fun _ _ => eq_refl) E1) as C2. clear E1.
    assert (K : exists d s n, determine_random_seed (G:=G) c' np = (d, s, n) /\ i_f_bedload d = i_f_bedload c /\ i_sand_frac_bc d = i_sand_frac_bc c).
    { unfold determine_random_seed. destruct (i_seed c'); [|destruct (randint np)]; do 3 eexists; (split; [reflexivity|]); auto. }
    destruct K as (d & s & n & K & D1 & D2). rewrite K in E. clear K.
    apply rbind_Ok in E as (P & E2 & E). apply rbind_Ok in E as ([P' st] & E3 & E). injection E as <- <-.
    pose proof (SessionProofs.boundary_keeps p_f_bedload _ _ _ ltac:(reflexivity) E2) as B1.
    pose proof (SessionProofs.boundary_keeps p_sand_frac_bc _ _ _ ltac:(reflexivity) E2) as B2.
    unfold create_domain in E3. destruct (size_indices P <? 0)%Z; [discriminate|]. injection E3 as <- <-.
    cbn [m_st m_P]. rewrite <- D1, <- D2. split; [|split].
    - unfold init_subsidence, init_sediment_routers. match goal with |- context [if ?b then _ else _] => destruct b end; exact B1.
    - unfold init_subsidence, init_sediment_routers. match goal with |- context [if ?b then _ else _] => destruct b end; exact B2.
    - intros i j. split; reflexivity.
  Qed.
End Building.

(** ** Whole runs *)
Section Whole.
  Context (rnd : R -> R) {HR : Rounding rnd} {S N : Type} {G : Rng R S} {GN : NpRng N}.
  Notation A := (RA rnd).

  Lemma whole_sand x y al (c : inputs R) (nb : S) (np : N) n : i_f_bedload c = 0 ->
    run_model (A:=A) (G:=G) (GN:=GN) (sand_settings x y al c) nb np n = run_model (A:=A) (G:=G) (GN:=GN) c nb np n.
  Proof.
    intros Hf. unfold run_model, new_model. pose proof (built_sand (A:=A) (G:=G) (GN:=GN) x y al c nb np) as B.
    pose proof (built_fractions (A:=A) (G:=G) (GN:=GN) c nb np) as C.
    destruct (construct (A:=A) (G:=G) (GN:=GN) c nb np) as [[m1 np1]|e];
      destruct (construct (A:=A) (G:=G) (GN:=GN) (sand_settings x y al c) nb np) as [[m2 np2]|e']; try contradiction; cbn [rbind]; [|rewrite B; reflexivity].
    destruct (C m1 np1 eq_refl) as (Hb & _ & _). rewrite Hf in Hb. destruct B as (-> & Hs & a & b & m & HP). rewrite Hs, HP.
    change (write_output (A:=A) (other_sand a b m (m_P m1)) (m_st m1)) with (write_output (A:=A) (m_P m1) (m_st m1)).
    destruct (write_output (A:=A) (m_P m1) (m_st m1)) as [st o]. cbn [rbind m_P m_st].
    rewrite (updates_same rnd (m_P m1) (other_sand a b m (m_P m1))); [reflexivity|]. intros s. apply (update_sand rnd); exact Hb.
  Qed.
  Lemma whole_mud x y z la (c : inputs R) (nb : S) (np : N) n : i_f_bedload c = 1 ->
    run_model (A:=A) (G:=G) (GN:=GN) (mud_settings x y z la c) nb np n = run_model (A:=A) (G:=G) (GN:=GN) c nb np n.
  Proof.
    intros Hf. unfold run_model, new_model. pose proof (built_mud (A:=A) (G:=G) (GN:=GN) x y z la c nb np) as B.
    pose proof (built_fractions (A:=A) (G:=G) (GN:=GN) c nb np) as C.
    destruct (construct (A:=A) (G:=G) (GN:=GN) c nb np) as [[m1 np1]|e];
      destruct (construct (A:=A) (G:=G) (GN:=GN) (mud_settings x y z la c) nb np) as [[m2 np2]|e']; try contradiction; cbn [rbind]; [|rewrite B; reflexivity].
    destruct (C m1 np1 eq_refl) as (Hb & _ & _). rewrite Hf in Hb. destruct B as (-> & Hs & a & b & d & l & HP). rewrite Hs, HP.
    change (write_output (A:=A) (other_mud a b d l (m_P m1)) (m_st m1)) with (write_output (A:=A) (m_P m1) (m_st m1)).
    destruct (write_output (A:=A) (m_P m1) (m_st m1)) as [st o]. cbn [rbind m_P m_st].
    rewrite (updates_same rnd (m_P m1) (other_mud a b d l (m_P m1))); [reflexivity|]. intros s. apply (update_mud rnd); exact Hb.
  Qed.

  Lemma updates_keep P (Q : state R S -> Prop) : (forall st st' o, update (A:=A) P st = Ok (st', o) -> Q st -> Q st') ->
    forall n st st' o, updates (A:=A) P n st = Ok (st', o) -> Q st -> Q st'.
  Proof.
    intros H. induction n as [|n IH]; intros st st' o E Q0.
    - injection E as <- <-. exact Q0.
    - cbn [updates] in E. apply rbind_Ok in E as ([s1 o1] & E1 & E). apply rbind_Ok in E as ([s2 o2] & E2 & E). injection E as <- <-.
      exact (IH _ _ _ E2 (H _ _ _ E1 Q0)).
  Qed.
  Lemma start_fractions v (c : inputs R) (nb : S) (np : N) m np' st o : rnd (i_sand_frac_bc c) = i_sand_frac_bc c ->
    construct (A:=A) (G:=G) (GN:=GN) c nb np = Ok (m, np') -> write_output (A:=A) (m_P m) (m_st m) = (st, o) ->
    one_or_other (p_sand_frac_bc (m_P m)) v st.
  Proof.
    intros Hr E W. destruct (built_fractions (A:=A) (G:=G) (GN:=GN) c nb np m np' E) as (_ & H2 & H3).
    apply write_output_same in W. apply same_fields in W. destruct W as (_ & _ & _ & _ & _ & _ & _ & _ & _ & _ & W1 & W2 & _).
    intros i j. rewrite W1, W2, H2. destruct (H3 i j) as [-> ->]. cbn [fadd fz RA]. rewrite (rnd_0 (rnd:=rnd)), Rplus_0_l, Hr. auto.
  Qed.
  Lemma whole_mud_alone (c : inputs R) (nb : S) (np : N) n st o : i_f_bedload c = 0 -> rnd (i_sand_frac_bc c) = i_sand_frac_bc c ->
    run_model (A:=A) (G:=G) (GN:=GN) c nb np n = Ok (st, o) -> one_or_other (i_sand_frac_bc c) 0 st.
  Proof.
    intros Hf Hr E. unfold run_model, new_model in E. apply rbind_Ok in E as ([[m1 o1] np1] & E1 & E).
    apply rbind_Ok in E1 as ([m0 np0] & E0 & E1). destruct (write_output (A:=A) (m_P m0) (m_st m0)) as [s0 o0] eqn:W. injection E1 as <- <- <-.
    cbn [m_P m_st] in E. apply rbind_Ok in E as ([s2 o2] & E2 & E). injection E as <- <-.
    destruct (built_fractions (A:=A) (G:=G) (GN:=GN) c nb np m0 np0 E0) as (H1 & H2 & _). rewrite <- H2. rewrite Hf in H1.
    refine (updates_keep (m_P m0) _ _ _ _ _ _ E2 (start_fractions 0 c nb np m0 np0 s0 o0 Hr E0 W)).
    intros a b o' HU. exact (update_mud_alone rnd (m_P m0) a b o' H1 HU).
  Qed.
  Lemma whole_sand_alone (c : inputs R) (nb : S) (np : N) n st o : i_f_bedload c = 1 -> rnd (i_sand_frac_bc c) = i_sand_frac_bc c ->
    run_model (A:=A) (G:=G) (GN:=GN) c nb np n = Ok (st, o) -> one_or_other (i_sand_frac_bc c) 1 st.
  Proof.
    intros Hf Hr E. unfold run_model, new_model in E. apply rbind_Ok in E as ([[m1 o1] np1] & E1 & E).
    apply rbind_Ok in E1 as ([m0 np0] & E0 & E1). destruct (write_output (A:=A) (m_P m0) (m_st m0)) as [s0 o0] eqn:W. injection E1 as <- <- <-.
    cbn [m_P m_st] in E. apply rbind_Ok in E as ([s2 o2] & E2 & E). injection E as <- <-.
    destruct (built_fractions (A:=A) (G:=G) (GN:=GN) c nb np m0 np0 E0) as (H1 & H2 & _). rewrite <- H2. rewrite Hf in H1.
    refine (updates_keep (m_P m0) _ _ _ _ _ _ E2 (start_fractions 1 c nb np m0 np0 s0 o0 Hr E0 W)).
    intros a b o' HU. exact (update_sand_alone rnd (m_P m0) a b o' H1 HU).
  Qed.
End Whole.
