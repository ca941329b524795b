(** Settings that switch smoothing or diffusion off (C90). *)
From Coq Require Import ZArith Reals Lra Lia Bool List FunctionalExtensionality.
From Verif Require Import Base RLemmas RunProofs Shared SharedSpec SharedProofs Params State Water Sed Diffusion Iter IterSpec FrameProofs IterProofs Inputs Init
  InitSpec InitProofs SessionProofs ScenarioProofs GrainSpec GrainProofs NeutralSpec.
Import ListNotations.
Local Open Scope R_scope.

Section Other.
  Context {F : Type} {A : Arith F} {S : Type} {G : Rng F S}.

  Definition smo (n : Z) (y : F) (P : params F) : params F := setp_Nsmooth n (setp_Csmooth y P).

  Lemma smo_flooding n y P a b c : flooding_correction (smo n y P) a b c = flooding_correction P a b c.
  Proof. reflexivity. Qed.
  Lemma smo_water n y P (st : state F S) :
    (forall ps (st : state F S), compute_free_surface (smo n y P) ps st = compute_free_surface P ps st) ->
    route_water (smo n y P) st = route_water P st.
  Proof.
    intros H. apply (water_by_turns P (smo n y P) st); [|reflexivity]. intros it s.
    apply (turn_by_parts P (smo n y P) it s); [reflexivity|reflexivity|exact H|].
    intros i s'. apply (finish_by_parts P (smo n y P) i s'); reflexivity.
  Qed.
  Lemma smo_parcels n y P g (st : state F S) : route_all_parcels (smo n y P) g st = route_all_parcels P g st.
  Proof. destruct g; apply parcels_by_steps; reflexivity. Qed.
  Lemma smo_diffuse n y P (st : state F S) : topo_diffusion (smo n y P) st = topo_diffusion P st.
  Proof. apply diffuse_by_passes; reflexivity. Qed.
  Lemma smo_sediment n y P (st : state F S) : route_sediment (smo n y P) st = route_sediment P st.
  Proof.
    unfold route_sediment. rewrite smo_parcels. destruct (route_all_parcels P Sand _) as [st1|e]; cbn [rbind]; [|reflexivity].
    rewrite smo_diffuse, smo_parcels. reflexivity.
  Qed.
  Lemma smo_ending n y P (st : state F S) :
    write_output (smo n y P) (advance_clock (smo n y P) (finalize_timestep (smo n y P) (apply_subsidence (smo n y P) st)))
    = write_output P (advance_clock P (finalize_timestep P (apply_subsidence P st))).
  Proof.
    apply (ending_by_parts P (smo n y P) st).
    - intros s. reflexivity.
    - intros s. apply (levels_by_parts P (smo n y P) s); [..|apply smo_flooding]; reflexivity.
    - intros s. unfold compute_sand_frac. reflexivity.
    - reflexivity.
    - reflexivity.
    - intros s. unfold advance_clock. reflexivity.
    - intros s. unfold write_output. reflexivity.
  Qed.
  Lemma smo_update n y P (st : state F S) :
    (forall ps (st : state F S), compute_free_surface (smo n y P) ps st = compute_free_surface P ps st) ->
    update (smo n y P) st = update P st.
  Proof.
    intros H. unfold update, solve_water_and_sediment_timestep. rewrite (smo_water n y P _ H).
    destruct (route_water P (set_eta0 (s_eta st) st)) as [st1|e]; cbn [rbind]; [|reflexivity].
    rewrite smo_sediment. destruct (route_sediment P st1) as [st2|e]; cbn [rbind]; [|reflexivity]. rewrite smo_ending. reflexivity.
  Qed.

  (** ** Construction *)
  Lemma smo_L0 n y x (P : params F) : setp_L0 x (smo n y P) = smo n y (setp_L0 x P).
  Proof. destruct P; reflexivity. Qed.
  Lemma smo_N0 n y x (P : params F) : setp_N0 x (smo n y P) = smo n y (setp_N0 x P).
  Proof. destruct P; reflexivity. Qed.
  Lemma smo_u_max n y x (P : params F) : setp_u_max x (smo n y P) = smo n y (setp_u_max x P).
  Proof. destruct P; reflexivity. Qed.
  Lemma smo_C0 n y x (P : params F) : setp_C0 x (smo n y P) = smo n y (setp_C0 x P).
  Proof. destruct P; reflexivity. Qed.
  Lemma smo_dry_depth n y x (P : params F) : setp_dry_depth x (smo n y P) = smo n y (setp_dry_depth x P).
  Proof. destruct P; reflexivity. Qed.
  Lemma smo_gamma n y x (P : params F) : setp_gamma x (smo n y P) = smo n y (setp_gamma x P).
  Proof. destruct P; reflexivity. Qed.
  Lemma smo_V0 n y x (P : params F) : setp_V0 x (smo n y P) = smo n y (setp_V0 x P).
  Proof. destruct P; reflexivity. Qed.
  Lemma smo_Qw0 n y x (P : params F) : setp_Qw0 x (smo n y P) = smo n y (setp_Qw0 x P).
  Proof. destruct P; reflexivity. Qed.
  Lemma smo_qw0 n y x (P : params F) : setp_qw0 x (smo n y P) = smo n y (setp_qw0 x P).
  Proof. destruct P; reflexivity. Qed.
  Lemma smo_Qp_water n y x (P : params F) : setp_Qp_water x (smo n y P) = smo n y (setp_Qp_water x P).
  Proof. destruct P; reflexivity. Qed.
  Lemma smo_qs0 n y x (P : params F) : setp_qs0 x (smo n y P) = smo n y (setp_qs0 x P).
  Proof. destruct P; reflexivity. Qed.
  Lemma smo_dVs n y x (P : params F) : setp_dVs x (smo n y P) = smo n y (setp_dVs x P).
  Proof. destruct P; reflexivity. Qed.
  Lemma smo_Qs0 n y x (P : params F) : setp_Qs0 x (smo n y P) = smo n y (setp_Qs0 x P).
  Proof. destruct P; reflexivity. Qed.
  Lemma smo_Vp_sed n y x (P : params F) : setp_Vp_sed x (smo n y P) = smo n y (setp_Vp_sed x P).
  Proof. destruct P; reflexivity. Qed.
  Lemma smo_stepmax n y x (P : params F) : setp_stepmax x (smo n y P) = smo n y (setp_stepmax x P).
  Proof. destruct P; reflexivity. Qed.
  Lemma smo_dt n y x (P : params F) : setp_dt x (smo n y P) = smo n y (setp_dt x P).
  Proof. destruct P; reflexivity. Qed.
  Lemma smo_omega_flow_iter n y x (P : params F) : setp_omega_flow_iter x (smo n y P) = smo n y (setp_omega_flow_iter x P).
  Proof. destruct P; reflexivity. Qed.
  Lemma smo_N_crossdiff n y x (P : params F) : setp_N_crossdiff x (smo n y P) = smo n y (setp_N_crossdiff x P).
  Proof. destruct P; reflexivity. Qed.
  Lemma smo_lambda n y x (P : params F) : setp_lambda x (smo n y P) = smo n y (setp_lambda x P).
  Proof. destruct P; reflexivity. Qed.
  Lemma smo_diffusion_multiplier n y x (P : params F) : setp_diffusion_multiplier x (smo n y P) = smo n y (setp_diffusion_multiplier x P).
  Proof. destruct P; reflexivity. Qed.
  Lemma smo_inlet n y x (P : params F) : setp_inlet x (smo n y P) = smo n y (setp_inlet x P).
  Proof. destruct P; reflexivity. Qed.
  Lemma smo_hb n y x (P : params F) : setp_hb x (smo n y P) = smo n y (setp_hb x P).
  Proof. destruct P; reflexivity. Qed.
  Lemma smo_f_bedload_router n y x (P : params F) : setp_f_bedload_router x (smo n y P) = smo n y (setp_f_bedload_router x P).
  Proof. destruct P; reflexivity. Qed.
  Lemma smo_sigma n y x (P : params F) : setp_sigma x (smo n y P) = smo n y (setp_sigma x P).
  Proof. destruct P; reflexivity. Qed.

  Lemma smo_boundary n y P (c : inputs F) :
    create_boundary_conditions (smoothing_settings n y c) (smo n y P) = through (smo n y) (create_boundary_conditions c P).
  Proof.
    unfold create_boundary_conditions. cbv zeta.
    change (p_L (smo n y P)) with (p_L P).
    change (p_W (smo n y P)) with (p_W P).
    change (p_Np_water (smo n y P)) with (p_Np_water P).
    change (p_Np_sed (smo n y P)) with (p_Np_sed P).
    change (p_itermax (smo n y P)) with (p_itermax P).
    change (i_dx (smoothing_settings n y c)) with (i_dx c).
    change (i_u0 (smoothing_settings n y c)) with (i_u0 c).
    change (i_h0 (smoothing_settings n y c)) with (i_h0 c).
    change (i_S0 (smoothing_settings n y c)) with (i_S0 c).
    change (i_L0_meters (smoothing_settings n y c)) with (i_L0_meters c).
    change (i_N0_meters (smoothing_settings n y c)) with (i_N0_meters c).
    change (i_C0_percent (smoothing_settings n y c)) with (i_C0_percent c).
    change (i_stepmax (smoothing_settings n y c)) with (i_stepmax c).
    change (i_sed_lag (smoothing_settings n y c)) with (i_sed_lag c).
    change (i_alpha (smoothing_settings n y c)) with (i_alpha c).
    do 8 (match goal with |- _ = through _ (rbind ?d _) => destruct d as [?|e]; cbn [rbind]; [|reflexivity] end).
    cbn [through]. rewrite smo_diffusion_multiplier, smo_lambda, smo_N_crossdiff, smo_omega_flow_iter, smo_dt, smo_stepmax, smo_Vp_sed, smo_Qs0, smo_dVs, smo_qs0, smo_Qp_water, smo_qw0, smo_Qw0, smo_V0, smo_gamma, smo_dry_depth, smo_C0, smo_u_max, smo_N0, smo_L0. reflexivity.
  Qed.
  Lemma smo_variables n y (c : inputs F) : create_other_variables (smoothing_settings n y c) = smo n y (create_other_variables c).
  Proof. destruct c; reflexivity. Qed.
  Lemma smo_domain n y (c : inputs F) P (s : S) : create_domain (smoothing_settings n y c) (smo n y P) s
    = through (fun r => (smo n y (fst r), snd r)) (create_domain c P s).
  Proof.
    unfold create_domain. cbv zeta. change (size_indices (smo n y P)) with (size_indices P).
    destruct (size_indices P <? 0)%Z; cbn [through fst snd]; [reflexivity|]. rewrite smo_hb, smo_inlet. reflexivity.
  Qed.
  Lemma smo_last n y (c : inputs F) P :
    init_subsidence (smoothing_settings n y c) (init_sediment_routers (smo n y P)) = smo n y (init_subsidence c (init_sediment_routers P)).
  Proof. apply (last_commutes (smo n y)); try reflexivity. Qed.
  Lemma smo_seed {N} {GN : NpRng N} n y (c : inputs F) (np : N) : determine_random_seed (G:=G) (smoothing_settings n y c) np
    = let '(c', s, np') := determine_random_seed (G:=G) c np in (smoothing_settings n y c', s, np').
  Proof. unfold determine_random_seed. destruct c as [];cbn. destruct i_seed; [|destruct (randint np)]; reflexivity. Qed.
  Lemma smo_input n y (c : inputs F) : fltb y (fz 0) = false -> fltb (i_Csmooth c) (fz 0) = false ->
    process_input_to_model (smoothing_settings n y c) = through (smoothing_settings n y) (process_input_to_model c).
  Proof.
    intros Hy Hc. rewrite !process_chain.
    change (i_Length (smoothing_settings n y c)) with (i_Length c). change (i_Width (smoothing_settings n y c)) with (i_Width c).
    change (i_dx (smoothing_settings n y c)) with (i_dx c). change (i_L0_meters (smoothing_settings n y c)) with (i_L0_meters c).
    change (i_itermax (smoothing_settings n y c)) with (i_itermax c). change (i_Np_water (smoothing_settings n y c)) with (i_Np_water c).
    change (i_N0_meters (smoothing_settings n y c)) with (i_N0_meters c). change (i_Np_sed (smoothing_settings n y c)) with (i_Np_sed c).
    change (i_f_bedload (smoothing_settings n y c)) with (i_f_bedload c).
    change (i_active_layer_thickness (smoothing_settings n y c)) with (i_active_layer_thickness c).
    repeat match goal with |- (if ?b then _ else _) = _ => destruct b; [reflexivity|] end.
    assert (E : set_active_layer_thickness (i_active_layer_thickness c) (smoothing_settings n y c)
      = through (smoothing_settings n y) (set_active_layer_thickness (i_active_layer_thickness c) c)).
    { unfold set_active_layer_thickness. change (i_h0 (smoothing_settings n y c)) with (i_h0 c). destruct (i_active_layer_thickness c) as [t|]; [destruct (fltb t (fz 0))|]; reflexivity. }
    rewrite E. clear E.
    assert (K : forall c1, set_active_layer_thickness (i_active_layer_thickness c) c = Ok c1 -> i_Csmooth c1 = i_Csmooth c).
    { intros c1. unfold set_active_layer_thickness. destruct (i_active_layer_thickness c) as [t|]; [destruct (fltb t (fz 0)); [discriminate|]|]; intros E; injection E as <-; reflexivity. }
    destruct (set_active_layer_thickness (i_active_layer_thickness c) c) as [c1|e]; cbn [rbind through]; [|reflexivity].
    rewrite (K c1 eq_refl), Hc. change (i_Csmooth (smoothing_settings n y c1)) with y. rewrite Hy.
    change (i_C0_percent (smoothing_settings n y c1)) with (i_C0_percent c1). destruct (fltb (i_C0_percent c1) (fz 0)); [reflexivity|].
    destruct c1; reflexivity.
  Qed.
  Lemma smo_built {N} {GN : NpRng N} n y (c : inputs F) (nb : S) (np : N) : fltb y (fz 0) = false -> fltb (i_Csmooth c) (fz 0) = false ->
    match construct (G:=G) (GN:=GN) c nb np, construct (G:=G) (GN:=GN) (smoothing_settings n y c) nb np with
    | Ok (m1, np1), Ok (m2, np2) => np2 = np1 /\ m_st m2 = m_st m1 /\ m_P m2 = smo n y (m_P m1)
    | Err e, Err e' => e = e'
    | _, _ => False
    end.
  Proof.
    intros Hy Hc. unfold construct. rewrite (smo_input n y c Hy Hc). destruct (process_input_to_model c) as [c1|e]; cbn [rbind through]; [|reflexivity]. rewrite smo_seed.
    destruct (determine_random_seed (G:=G) c1 np) as [[c2 s] np1]. rewrite smo_variables, smo_boundary.
    destruct (create_boundary_conditions c2 (create_other_variables c2)) as [P|e]; cbn [rbind through]; [|reflexivity].
    rewrite smo_domain. destruct (create_domain c2 P s) as [[P2 st]|e]; cbn [rbind through fst snd]; [|reflexivity].
    cbn [m_st m_P]. split; [reflexivity|]. split; [reflexivity|]. apply smo_last.
  Qed.

  (** A constant copied from the configuration. *)
  Lemma copied {T N} {GN : NpRng N} (f : inputs F -> T) (g : params F -> T) (c : inputs F) (nb : S) (np : N) m np' :
    (forall x c, f (seti_active_layer_thickness x c) = f c) -> (forall x c, f (seti_checkpoint_dt x c) = f c) -> (forall x c, f (seti_seed x c) = f c) ->
    (forall c, g (create_other_variables c) = f c) ->
    (forall P L0 N0 um C0 dd ga V0 Qw qw Qp qs dV Qs Vp sm dt om nc la mu,
       g (setp_L0 L0 (setp_N0 N0 (setp_u_max um (setp_C0 C0 (setp_dry_depth dd
       (setp_gamma ga (setp_V0 V0 (setp_Qw0 Qw (setp_qw0 qw (setp_Qp_water Qp
       (setp_qs0 qs (setp_dVs dV (setp_Qs0 Qs (setp_Vp_sed Vp (setp_stepmax sm
       (setp_dt dt (setp_omega_flow_iter om (setp_N_crossdiff nc
       (setp_lambda la (setp_diffusion_multiplier mu P)))))))))))))))))))) = g P) ->
    (forall x P, g (setp_hb x P) = g P) -> (forall x P, g (setp_inlet x P) = g P) ->
    (forall x P, g (setp_f_bedload_router x P) = g P) -> (forall x P, g (setp_sigma x P) = g P) ->
    construct (G:=G) (GN:=GN) c nb np = Ok (m, np') -> g (m_P m) = f c.
  Proof.
    intros K1 K2 K3 K4 K5 K6 K7 K8 K9. unfold construct. intros E. apply rbind_Ok in E as (c' & E1 & E).
    apply (ScenarioProofs.process_keeps f c c' K1 K2) in E1.
    assert (K : exists d s n, determine_random_seed (G:=G) c' np = (d, s, n) /\ f d = f c).
    { unfold determine_random_seed. destruct (i_seed c'); [|destruct (randint np)]; do 3 eexists; (split; [reflexivity|]); rewrite ?K3; exact E1. }
    destruct K as (d & s & n & K & D). rewrite K in E. clear K.
    apply rbind_Ok in E as (P & E2 & E). apply rbind_Ok in E as ([P' st] & E3 & E). injection E as <- <-.
    pose proof (SessionProofs.boundary_keeps g _ _ _ K5 E2) as B. rewrite K4, D in B.
    unfold create_domain in E3. destruct (size_indices P <? 0)%Z; [discriminate|]. injection E3 as <- <-. cbn [m_P].
    unfold init_subsidence, init_sediment_routers. match goal with |- context [if ?b then _ else _] => destruct b end; rewrite ?K9, K8, K7, K6; exact B.
  Qed.
End Other.

(** ** Exact arithmetic *)
Section Exact.
  Context {S N : Type} {G : Rng R S} {GN : NpRng N}.
  Notation XA := (RA (fun x => x)).

  Lemma own_value P ct n : forall H : grid R, smooth_passes (A:=XA) P 1 ct n H = H.
  Proof.
    induction n as [|n IH]; intros H; [reflexivity|]. cbn [smooth_passes]. rewrite IH, gmemo_id.
    apply functional_extensionality; intro i. apply functional_extensionality; intro j. unfold smooth_cell.
    destruct (_ =? _)%Z; [reflexivity|]. cbv zeta. destruct (0 <? _)%Z; [|reflexivity]. cbn [fadd fmul fsub fz RA]. ring.
  Qed.
  Lemma off_surface n y P ps (st : state R S) :
    (p_Csmooth P = 1 /\ y = 1) \/ ((p_Nsmooth P <= 0)%Z /\ (n <= 0)%Z) \/ p_omega_sfc P = 0 ->
    compute_free_surface (A:=XA) (smo n y P) ps st = compute_free_surface (A:=XA) P ps st.
  Proof.
    intros H. unfold compute_free_surface.
    assert (E : forall x, accumulate_free_surface_walks (A:=XA) (smo n y P) st ps x = accumulate_free_surface_walks (A:=XA) P st ps x) by reflexivity.
    rewrite E. destruct (accumulate_free_surface_walks (A:=XA) P st ps _) as [[v t]|e]; cbn [rbind]; [|reflexivity]. cbv zeta.
    change (p_L (smo n y P)) with (p_L P). change (p_W (smo n y P)) with (p_W P). change (p_omega_sfc (smo n y P)) with (p_omega_sfc P).
    change (p_Nsmooth (smo n y P)) with n. change (p_Csmooth (smo n y P)) with y. rewrite smo_flooding.
    match goal with |- Ok (set_stage (flooding_correction P ?d ?e ?x) ?s) = Ok (set_stage (flooding_correction P _ _ ?x') _) =>
      assert (Q : x = x'); [|rewrite Q; reflexivity] end.
    match goal with |- context [smooth_free_surface (smo n y P) ?h ?ct n y] => generalize h; intro hn end.
    destruct (0 <? _)%Z; [|reflexivity]. f_equal. apply functional_extensionality; intro i. apply functional_extensionality; intro j.
    cbn [fadd fmul fsub fz RA]. destruct H as [[H1 H2]|[[H1 H2]|H1]].
    - rewrite H1, H2. unfold smooth_free_surface. rewrite !own_value. reflexivity.
    - unfold smooth_free_surface. replace (Z.to_nat n) with 0%nat by lia. replace (Z.to_nat (p_Nsmooth P)) with 0%nat by lia. reflexivity.
    - rewrite H1. ring.
  Qed.

  Lemma whole_smoothing n y (c : inputs R) (nb : S) (np : N) k : 0 <= y -> 0 <= i_Csmooth c -> smoothing_off n y c ->
    run_model (A:=XA) (G:=G) (GN:=GN) (smoothing_settings n y c) nb np k = run_model (A:=XA) (G:=G) (GN:=GN) c nb np k.
  Proof.
    intros Hy Hc Ho. unfold run_model, new_model.
    assert (B1 : fltb (Arith:=XA) y (fz (Arith:=XA) 0) = false) by (cbn; destruct (Rltb_spec y 0); [exfalso; lra|reflexivity]).
    assert (B2 : fltb (Arith:=XA) (i_Csmooth c) (fz (Arith:=XA) 0) = false) by (cbn; destruct (Rltb_spec (i_Csmooth c) 0); [exfalso; lra|reflexivity]).
    pose proof (smo_built (A:=XA) (G:=G) (GN:=GN) n y c nb np B1 B2) as B.
    assert (C : forall m np', construct (A:=XA) (G:=G) (GN:=GN) c nb np = Ok (m, np') ->
      p_Csmooth (m_P m) = i_Csmooth c /\ p_Nsmooth (m_P m) = i_Nsmooth c /\ p_omega_sfc (m_P m) = i_omega_sfc c).
    { intros m np' E. split; [|split].
      - apply (copied (A:=XA) (G:=G) i_Csmooth p_Csmooth c nb np m np'); auto.
      - apply (copied (A:=XA) (G:=G) i_Nsmooth p_Nsmooth c nb np m np'); auto.
      - apply (copied (A:=XA) (G:=G) i_omega_sfc p_omega_sfc c nb np m np'); auto. }
    destruct (construct (A:=XA) (G:=G) (GN:=GN) c nb np) as [[m1 np1]|e];
      destruct (construct (A:=XA) (G:=G) (GN:=GN) (smoothing_settings n y c) nb np) as [[m2 np2]|e']; try contradiction; cbn [rbind]; [|rewrite B; reflexivity].
    destruct (C m1 np1 eq_refl) as (C1 & C2 & C3). destruct B as (-> & Hs & HP). rewrite Hs, HP.
    change (write_output (A:=XA) (smo n y (m_P m1)) (m_st m1)) with (write_output (A:=XA) (m_P m1) (m_st m1)).
    destruct (write_output (A:=XA) (m_P m1) (m_st m1)) as [st o]. cbn [rbind m_P m_st].
    rewrite (updates_same (fun x => x) (m_P m1) (smo n y (m_P m1))); [reflexivity|]. intros s. apply smo_update. intros ps s'. apply off_surface.
    rewrite C1, C2, C3. exact Ho.
  Qed.

  (** ** Diffusion *)
  Lemma no_multiplier P (st : state R S) : p_diffusion_multiplier P = 0 -> s_eta (topo_diffusion (A:=XA) P st) = s_eta st.
  Proof.
    intros H. unfold topo_diffusion. generalize (Z.to_nat (p_N_crossdiff P)). intro n. revert st. induction n as [|n IH]; intros st; [reflexivity|].
    cbn [diffuse_passes]. rewrite IH. unfold diffuse_once. cbn [s_eta set_eta set_cf]. rewrite ?gmemo_id.
    apply functional_extensionality; intro i. apply functional_extensionality; intro j. cbn. rewrite ?gmemo_id. unfold crossflux. cbn -[convolve]. rewrite H.
    destruct (_ || _)%bool; ring.
  Qed.
  Lemma no_alpha (c : inputs R) (nb : S) (np : N) m np' : i_alpha c = 0 -> construct (A:=XA) (G:=G) (GN:=GN) c nb np = Ok (m, np') ->
    p_diffusion_multiplier (m_P m) = 0.
  Proof.
    intros Ha E. pose proof (construct_outcome (G:=G) c nb np) as H. rewrite E in H.
    destruct H as (_ & _ & _ & z & _ & _ & _ & _ & HD & _). rewrite (de_multiplier _ _ HD), Ha. unfold Rdiv. ring.
  Qed.
End Exact.
