(** When subsidence is off, the time at which it would begin changes nothing
    (used by C83). *)
From Coq Require Import ZArith List Bool Reals Lra Lia.
From Verif Require Import Base RLemmas Shared Params State Inputs Iter IterSpec Init InitSpec InitProofs Water Sed MirrorFlow
  PaceProofs PaceInit.
Import ListNotations.
Local Open Scope Z_scope.

Section PaceStart.
  Context {F S : Type} {A : Arith F} {G : Rng F S}.
  Section Start.
    Variables (x : F) (P : params F).
    Notation P' := (setp_start_subsidence x P).
    Lemma run_start (st : state F S) : run_water_iteration P' st = run_water_iteration P st.
    Proof. reflexivity. Qed.
    Lemma accumulate_start (st : state F S) ps : forall vt,
      accumulate_free_surface_walks P' st ps vt = accumulate_free_surface_walks P st ps vt.
    Proof.
      induction ps as [|p ps IH]; intros vt; [reflexivity|]. cbn [accumulate_free_surface_walks].
      change (accumulate_one P' st p vt) with (accumulate_one P st p vt).
      destruct (accumulate_one P st p vt) as [[v t]|]; cbn [rbind]; [apply IH|reflexivity].
    Qed.
    Lemma flooding_start d e g : flooding_correction P' d e g = flooding_correction P d e g.
    Proof. reflexivity. Qed.
    Lemma free_surface_start (st : state F S) ps : compute_free_surface P' ps st = compute_free_surface P ps st.
    Proof.
      unfold compute_free_surface. rewrite accumulate_start.
      destruct (accumulate_free_surface_walks P st ps _) as [[v t]|]; cbn [rbind rmap]; [|reflexivity].
      rewrite flooding_start. reflexivity.
    Qed.
    Lemma flow_start it (st : state F S) : update_flow_field P' it st = update_flow_field P it st.
    Proof. reflexivity. Qed.
    Lemma velocity_start (st : state F S) : update_velocity_field P' st = update_velocity_field P st.
    Proof. reflexivity. Qed.
    Lemma iteration_start it (st : state F S) : water_iteration P' it st = water_iteration P it st.
    Proof.
      unfold water_iteration. rewrite run_start.
      destruct (run_water_iteration P st) as [[[[ps [[qx qy] qw]] w] s]|]; cbn [rbind rmap]; [|reflexivity].
      change (p_W P') with (p_W P). rewrite free_surface_start.
      destruct (compute_free_surface P ps _) as [z|]; cbn [rbind rmap]; [|reflexivity].
      unfold finalize_water_iteration. rewrite flow_start, velocity_start. reflexivity.
    Qed.
    Lemma iterations_start n : forall it (st : state F S), water_iterations P' n it st = water_iterations P n it st.
    Proof.
      induction n as [|n IH]; intros it st; [reflexivity|]. cbn [water_iterations]. rewrite iteration_start.
      destruct (water_iteration P it st); cbn [rbind]; [apply IH|reflexivity].
    Qed.
    Lemma sed_step_start g (st : state F S) bd V px py s : sed_step P' g st bd V px py s = sed_step P g st bd V px py s.
    Proof. reflexivity. Qed.
    Lemma route_one_start g (st : state F S) n : forall bd V px py s,
      route_one_parcel P' g st n bd V px py s = route_one_parcel P g st n bd V px py s.
    Proof.
      induction n as [|n IH]; intros; [reflexivity|]. cbn [route_one_parcel]. rewrite sed_step_start.
      destruct (sed_step P g st _ _ _ _ _) as [[[[[x' y'] b'] V'] s']|]; cbn [rbind]; [|reflexivity].
      change (cell_ix P' x' y') with (cell_ix P x' y').
      destruct (cell_ix P x' y') as [[i j]|]; cbn [rbind]; [|reflexivity].
      destruct (_ || _); [reflexivity|apply IH].
    Qed.
    Lemma route_parcels_start g (st : state F S) ss : forall bd s,
      route_parcels P' g st ss bd s = route_parcels P g st ss bd s.
    Proof.
      induction ss as [|j ss IH]; intros; [reflexivity|]. cbn [route_parcels].
      change (cell_ix P' 0 j) with (cell_ix P 0 j).
      destruct (cell_ix P 0 j) as [[? ?]|]; cbn [rbind]; [|reflexivity].
      change (no_flux_scale P' g) with (no_flux_scale P g). destruct (no_flux_scale P g); [reflexivity|].
      rewrite route_one_start. change (p_stepmax P') with (p_stepmax P). change (p_Vp_sed P') with (p_Vp_sed P).
      change (flux_part P' (p_Vp_sed P)) with (flux_part P (p_Vp_sed P)).
      destruct (route_one_parcel P g st _ _ _ _ _ _) as [[[? ?] ?]|]; cbn [rbind]; [|reflexivity].
      rewrite IH. reflexivity.
    Qed.
    Lemma route_all_start g (st : state F S) : route_all_parcels P' g st = route_all_parcels P g st.
    Proof.
      unfold route_all_parcels, route_all_parcels_res.
      change (p_inlet P') with (p_inlet P). change (num_starts P' g) with (num_starts P g).
      change (bed_of P' st) with (bed_of P st).
      destruct (get_start_indices _ _ _ _) as [[ss s]|]; cbn [rbind]; [|reflexivity].
      rewrite route_parcels_start. reflexivity.
    Qed.
    Lemma diffuse_once_start (st : state F S) : diffuse_once P' st = diffuse_once P st.
    Proof. reflexivity. Qed.
    Lemma diffuse_start n : forall (st : state F S), diffuse_passes P' n st = diffuse_passes P n st.
    Proof. induction n as [|n IH]; intros st; [reflexivity|]. cbn [diffuse_passes]. rewrite diffuse_once_start. apply IH. Qed.
    Lemma solve_start (st : state F S) :
      solve_water_and_sediment_timestep P' st = solve_water_and_sediment_timestep P st.
    Proof.
      unfold solve_water_and_sediment_timestep, route_water, route_sediment, topo_diffusion.
      change (p_itermax P') with (p_itermax P). rewrite iterations_start.
      destruct (water_iterations P _ 0 _) as [z|]; cbn [rbind]; [|reflexivity].
      rewrite route_all_start. destruct (route_all_parcels P Sand _) as [u|]; cbn [rbind]; [|reflexivity].
      change (p_N_crossdiff P') with (p_N_crossdiff P). rewrite diffuse_start, route_all_start. reflexivity.
    Qed.
    Hypothesis off : p_toggle_subsidence P = false.
    Lemma subsidence_start (st : state F S) : apply_subsidence P' st = apply_subsidence P st.
    Proof.
      unfold apply_subsidence. change (p_toggle_subsidence P') with (p_toggle_subsidence P). rewrite off. reflexivity.
    Qed.
    Lemma sand_frac_start (st : state F S) : compute_sand_frac P' st = compute_sand_frac P st.
    Proof. reflexivity. Qed.
    Lemma levels_start (st : state F S) : finalize_levels P' st = finalize_levels P st.
    Proof. unfold finalize_levels. rewrite flooding_start. reflexivity. Qed.
    Lemma end_start (st : state F S) :
      advance_clock P' (finalize_timestep P' (apply_subsidence P' st))
      = advance_clock P (finalize_timestep P (apply_subsidence P st)).
    Proof. rewrite subsidence_start. unfold finalize_timestep. rewrite levels_start, sand_frac_start. reflexivity. Qed.
    Lemma write_start (st : state F S) : write_output P' st = write_output P st.
    Proof. reflexivity. Qed.
    Lemma update_start (st : state F S) : update P' st = update P st.
    Proof.
      unfold update. rewrite solve_start.
      destruct (solve_water_and_sediment_timestep P st) as [z|e]; cbn [rbind]; [|reflexivity].
      rewrite end_start, write_start. reflexivity.
    Qed.
    Lemma updates_start n : forall st : state F S, updates P' n st = updates P n st.
    Proof.
      induction n as [|n IH]; intros st; [reflexivity|]. cbn [updates]. rewrite update_start.
      destruct (update P st) as [[z o]|e]; cbn [rbind]; [|reflexivity]. rewrite IH. reflexivity.
    Qed.
  End Start.
End PaceStart.

Section Construct.
  Context {S N : Type} {G : Rng R S} {GN : NpRng N}.
  Variable t : R.
  Notation rs := (seti_start_subsidence t).
  Notation sp := (setp_start_subsidence t).
  Lemma resolved_start c : resolved (fun x => x) (rs c) = rs (resolved (fun x => x) c).
  Proof. destruct c. reflexivity. Qed.
  Lemma accepted_start c : accepted (rs c) <-> accepted c.
  Proof. split; intros H; destruct H; constructor; assumption. Qed.
  Lemma process_start c : process_input_to_model (A:=XA) (rs c) = rmp rs (process_input_to_model (A:=XA) c).
  Proof.
    pose proof (process_spec (fun x => x) c) as H1. pose proof (process_spec (fun x => x) (rs c)) as H2.
    destruct (process_input_to_model (A:=XA) c) as [c1 | e1]; destruct (process_input_to_model (A:=XA) (rs c)) as [c2 | e2]; cbn [rmp].
    - destruct H1 as [_ ->]. destruct H2 as [_ ->]. now rewrite resolved_start.
    - destruct H1 as [K _]. destruct H2 as [_ K']. now rewrite accepted_start in K'.
    - destruct H1 as [_ K]. destruct H2 as [K' _]. now rewrite accepted_start in K'.
    - destruct H1 as [-> _]. destruct H2 as [-> _]. reflexivity.
  Qed.
  Lemma seed_start c (np : N) : determine_random_seed (G:=G) (rs c) np
    = let '(c', s, np') := determine_random_seed (G:=G) c np in (rs c', s, np').
  Proof.
    unfold determine_random_seed. change (i_seed (rs c)) with (i_seed c).
    destruct (i_seed c); [reflexivity |]. destruct (randint np). destruct c. reflexivity.
  Qed.
  Lemma other_start c : create_other_variables (A:=XA) (rs c) = sp (create_other_variables (A:=XA) c).
  Proof. destruct c. reflexivity. Qed.
  Lemma boundary_start c P :
    create_boundary_conditions (A:=XA) (rs c) (sp P) = rmp sp (create_boundary_conditions (A:=XA) c P).
  Proof.
    unfold create_boundary_conditions.
    change (i_dx (rs c)) with (i_dx c). change (i_u0 (rs c)) with (i_u0 c).
    change (i_h0 (rs c)) with (i_h0 c). change (i_L0_meters (rs c)) with (i_L0_meters c).
    change (i_N0_meters (rs c)) with (i_N0_meters c).
    change (i_C0_percent (rs c)) with (i_C0_percent c).
    change (i_S0 (rs c)) with (i_S0 c). change (i_stepmax (rs c)) with (i_stepmax c).
    change (i_alpha (rs c)) with (i_alpha c). change (i_sed_lag (rs c)) with (i_sed_lag c).
    change (p_L (sp P)) with (p_L P). change (p_W (sp P)) with (p_W P).
    change (p_Np_water (sp P)) with (p_Np_water P). change (p_Np_sed (sp P)) with (p_Np_sed P).
    change (p_itermax (sp P)) with (p_itermax P). cbv zeta.
    repeat (match goal with |- rbind ?r _ = _ => destruct r end; cbn [rbind rmp]; [|reflexivity]). reflexivity.
  Qed.
  Lemma domain_start c P (s : S) : create_domain (A:=XA) (rs c) (sp P) s
    = rmp (fun r => (sp (fst r), snd r)) (create_domain (A:=XA) c P s).
  Proof.
    unfold create_domain. change (size_indices (sp P)) with (size_indices P).
    destruct (size_indices P <? 0); reflexivity.
  Qed.
  Lemma routers_start P : init_sediment_routers (sp P) = sp (init_sediment_routers P).
  Proof. reflexivity. Qed.
  Lemma subs_start c P : init_subsidence (A:=XA) (rs c) (sp P) = sp (init_subsidence (A:=XA) c P).
  Proof.
    unfold init_subsidence. change (p_toggle_subsidence (sp P)) with (p_toggle_subsidence P).
    destruct (p_toggle_subsidence P); reflexivity.
  Qed.
  Lemma construct_start c (nb : S) (np : N) :
    construct (A:=XA) (G:=G) (rs c) nb np
    = rmp (fun x => (mkModel (rs (m_in (fst x))) (sp (m_P (fst x))) (m_st (fst x)) (m_finalized (fst x)), snd x))
        (construct (A:=XA) (G:=G) c nb np).
  Proof.
    unfold construct. rewrite process_start.
    destruct (process_input_to_model (A:=XA) c) as [c1 | e]; cbn [rbind rmp]; [| reflexivity].
    rewrite seed_start. destruct (determine_random_seed (G:=G) c1 np) as [[c2 s] np1].
    rewrite other_start, boundary_start.
    destruct (create_boundary_conditions (A:=XA) c2 _) as [P2 | e] eqn:E2; cbn [rbind rmp]; [| reflexivity].
    rewrite domain_start.
    destruct (create_domain (A:=XA) c2 P2 s) as [[P3 st] | e] eqn:E3; cbn [rbind rmp fst snd]; [| reflexivity].
    rewrite routers_start, subs_start. reflexivity.
  Qed.
  Lemma construct_toggle c (nb : S) (np np1 : N) m : construct (A:=XA) (G:=G) c nb np = Ok (m, np1) ->
    p_toggle_subsidence (m_P m) = i_toggle_subsidence c.
  Proof.
    unfold construct. pose proof (process_spec (fun x => x) c) as HP.
    destruct (process_input_to_model (A:=XA) c) as [c1 | e]; cbn [rbind]; [| discriminate].
    destruct HP as [_ HP]. assert (HT1 : i_toggle_subsidence c1 = i_toggle_subsidence c) by (rewrite HP; reflexivity).
    assert (HT2 : i_toggle_subsidence (fst (fst (determine_random_seed (G:=G) c1 np))) = i_toggle_subsidence c1).
    { unfold determine_random_seed. destruct (i_seed c1); [reflexivity |]. destruct (randint np). reflexivity. }
    destruct (determine_random_seed (G:=G) c1 np) as [[c2 s] np2]. cbn [fst] in HT2.
    destruct (create_boundary_conditions (A:=XA) c2 _) as [P2 | e] eqn:E2; cbn [rbind]; [| discriminate].
    apply boundary_toggle in E2.
    destruct (create_domain (A:=XA) c2 P2 s) as [[P3 st] | e] eqn:E3; cbn [rbind]; [| discriminate].
    apply domain_toggle in E3. intros E. apply Ok_inj in E. apply (f_equal (fun x => p_toggle_subsidence (m_P (fst x)))) in E.
    cbn [fst m_P] in E. rewrite <- E.
    assert (EI : forall Q, p_toggle_subsidence (init_subsidence (A:=XA) c2 Q) = p_toggle_subsidence Q)
      by (intros Q; unfold init_subsidence; destruct (p_toggle_subsidence Q) eqn:EQ; [exact EQ | exact EQ]).
    rewrite EI. transitivity (p_toggle_subsidence P3); [reflexivity | congruence].
  Qed.
  Lemma run_model_start c (nb : S) (np : N) n : i_toggle_subsidence c = false ->
    run_model (A:=XA) (G:=G) (GN:=GN) (rs c) nb np n = run_model (A:=XA) (G:=G) (GN:=GN) c nb np n.
  Proof.
    intros HT. unfold run_model, new_model. rewrite construct_start.
    destruct (construct (A:=XA) c nb np) as [[m np1] | e] eqn:E; cbn [rbind rmp fst snd m_P m_st m_in]; [| reflexivity].
    apply construct_toggle in E. rewrite HT in E. rewrite write_start.
    destruct (write_output (A:=XA) (m_P m) (m_st m)) as [st o]. cbn [rbind fst snd m_P m_st m_in].
    rewrite updates_start by exact E. reflexivity.
  Qed.
End Construct.
