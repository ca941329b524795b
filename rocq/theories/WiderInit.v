(** The same delta on wider cells: construction and whole runs (C86). *)
From Coq Require Import ZArith List Bool Reals Lra Lia FunctionalExtensionality.
From Flocq Require Import Core.
From Verif Require Import Base RLemmas Shared SharedSpec Params State Water Sed Iter Inputs Init
  InitSpec InitProofs PaceSpec PaceProofs PaceSed PaceInit WiderSpec WiderProofs.
Import ListNotations.
Local Open Scope R_scope.

Section GetI.
  Context (k : R) (c : inputs R).
  Lemma wc_Length : i_Length (wider_config k c) = k * i_Length c.
  Proof. reflexivity. Qed.
  Lemma wc_Width : i_Width (wider_config k c) = k * i_Width c.
  Proof. reflexivity. Qed.
  Lemma wc_dx : i_dx (wider_config k c) = k * i_dx c.
  Proof. reflexivity. Qed.
  Lemma wc_L0_meters : i_L0_meters (wider_config k c) = k * i_L0_meters c.
  Proof. reflexivity. Qed.
  Lemma wc_S0 : i_S0 (wider_config k c) = i_S0 c / k.
  Proof. reflexivity. Qed.
  Lemma wc_itermax : i_itermax (wider_config k c) = i_itermax c.
  Proof. reflexivity. Qed.
  Lemma wc_Np_water : i_Np_water (wider_config k c) = i_Np_water c.
  Proof. reflexivity. Qed.
  Lemma wc_u0 : i_u0 (wider_config k c) = i_u0 c.
  Proof. reflexivity. Qed.
  Lemma wc_N0_meters : i_N0_meters (wider_config k c) = k * i_N0_meters c.
  Proof. reflexivity. Qed.
  Lemma wc_h0 : i_h0 (wider_config k c) = i_h0 c.
  Proof. reflexivity. Qed.
  Lemma wc_hb : i_hb (wider_config k c) = i_hb c.
  Proof. reflexivity. Qed.
  Lemma wc_H_SL : i_H_SL (wider_config k c) = i_H_SL c.
  Proof. reflexivity. Qed.
  Lemma wc_SLR : i_SLR (wider_config k c) = i_SLR c / k.
  Proof. reflexivity. Qed.
  Lemma wc_Np_sed : i_Np_sed (wider_config k c) = i_Np_sed c.
  Proof. reflexivity. Qed.
  Lemma wc_f_bedload : i_f_bedload (wider_config k c) = i_f_bedload c.
  Proof. reflexivity. Qed.
  Lemma wc_active_layer_thickness : i_active_layer_thickness (wider_config k c) = i_active_layer_thickness c.
  Proof. reflexivity. Qed.
  Lemma wc_C0_percent : i_C0_percent (wider_config k c) = i_C0_percent c.
  Proof. reflexivity. Qed.
  Lemma wc_Csmooth : i_Csmooth (wider_config k c) = i_Csmooth c.
  Proof. reflexivity. Qed.
  Lemma wc_toggle_subsidence : i_toggle_subsidence (wider_config k c) = i_toggle_subsidence c.
  Proof. reflexivity. Qed.
  Lemma wc_subsidence_rate : i_subsidence_rate (wider_config k c) = i_subsidence_rate c / k.
  Proof. reflexivity. Qed.
  Lemma wc_start_subsidence : i_start_subsidence (wider_config k c) = k * i_start_subsidence c.
  Proof. reflexivity. Qed.
  Lemma wc_save_dt : i_save_dt (wider_config k c) = k * i_save_dt c.
  Proof. reflexivity. Qed.
  Lemma wc_checkpoint_dt : i_checkpoint_dt (wider_config k c) = option_map (fun t => k * t) (i_checkpoint_dt c).
  Proof. reflexivity. Qed.
  Lemma wc_save_checkpoint : i_save_checkpoint (wider_config k c) = i_save_checkpoint c.
  Proof. reflexivity. Qed.
  Lemma wc_omega_sfc : i_omega_sfc (wider_config k c) = i_omega_sfc c.
  Proof. reflexivity. Qed.
  Lemma wc_omega_flow : i_omega_flow (wider_config k c) = i_omega_flow c.
  Proof. reflexivity. Qed.
  Lemma wc_Nsmooth : i_Nsmooth (wider_config k c) = i_Nsmooth c.
  Proof. reflexivity. Qed.
  Lemma wc_theta_water : i_theta_water (wider_config k c) = i_theta_water c.
  Proof. reflexivity. Qed.
  Lemma wc_coeff_theta_sand : i_coeff_theta_sand (wider_config k c) = i_coeff_theta_sand c.
  Proof. reflexivity. Qed.
  Lemma wc_coeff_theta_mud : i_coeff_theta_mud (wider_config k c) = i_coeff_theta_mud c.
  Proof. reflexivity. Qed.
  Lemma wc_beta : i_beta (wider_config k c) = i_beta c.
  Proof. reflexivity. Qed.
  Lemma wc_sed_lag : i_sed_lag (wider_config k c) = i_sed_lag c.
  Proof. reflexivity. Qed.
  Lemma wc_coeff_U_dep_mud : i_coeff_U_dep_mud (wider_config k c) = i_coeff_U_dep_mud c.
  Proof. reflexivity. Qed.
  Lemma wc_coeff_U_ero_mud : i_coeff_U_ero_mud (wider_config k c) = i_coeff_U_ero_mud c.
  Proof. reflexivity. Qed.
  Lemma wc_coeff_U_ero_sand : i_coeff_U_ero_sand (wider_config k c) = i_coeff_U_ero_sand c.
  Proof. reflexivity. Qed.
  Lemma wc_alpha : i_alpha (wider_config k c) = k * i_alpha c.
  Proof. reflexivity. Qed.
  Lemma wc_stepmax : i_stepmax (wider_config k c) = i_stepmax c.
  Proof. reflexivity. Qed.
  Lemma wc_sand_frac_bc : i_sand_frac_bc (wider_config k c) = i_sand_frac_bc c.
  Proof. reflexivity. Qed.
  Lemma wc_seed : i_seed (wider_config k c) = i_seed c.
  Proof. reflexivity. Qed.
End GetI.
#[global] Hint Rewrite wc_Length wc_Width wc_dx wc_L0_meters wc_S0 wc_itermax wc_Np_water wc_u0 wc_N0_meters wc_h0 wc_hb wc_H_SL wc_SLR wc_Np_sed wc_f_bedload wc_active_layer_thickness wc_C0_percent wc_Csmooth wc_toggle_subsidence wc_subsidence_rate wc_start_subsidence wc_save_dt wc_checkpoint_dt wc_save_checkpoint wc_omega_sfc wc_omega_flow wc_Nsmooth wc_theta_water wc_coeff_theta_sand wc_coeff_theta_mud wc_beta wc_sed_lag wc_coeff_U_dep_mud wc_coeff_U_ero_mud wc_coeff_U_ero_sand wc_alpha wc_stepmax wc_sand_frac_bc wc_seed : wc.


Section Wider.
  Context {S N : Type} {G : Rng R S} {GN : NpRng N} (k : R) (Hk : 0 < k).
  Local Notation wc := (wider_config k).

  Lemma wider_pos x : 0 < k * x <-> 0 < x.
  Proof.
    split; intros H; [| now apply Rmult_lt_0_compat].
    apply (Rmult_lt_reg_l k); lra.
  Qed.
  Lemma wider_nonneg x : 0 <= k * x <-> 0 <= x.
  Proof.
    split; intros H; [| apply Rmult_le_pos; lra].
    apply (Rmult_le_reg_l k); lra.
  Qed.
  Lemma wider_le x y : k * x <= k * y <-> x <= y.
  Proof.
    split; intros H; [| apply Rmult_le_compat_l; lra].
    apply (Rmult_le_reg_l k); lra.
  Qed.
  Lemma accepted_wider c : accepted (wc c) <-> accepted c.
  Proof.
    split; intros H; destruct H; constructor; try assumption.
    - rewrite wc_Length in ac_Length. now apply wider_pos.
    - rewrite wc_Width in ac_Width. now apply wider_pos.
    - rewrite wc_Length, wc_Width, wc_dx in ac_dx. now rewrite wider_pos, !wider_le in ac_dx.
    - rewrite wc_L0_meters in ac_L0. now apply wider_nonneg.
    - rewrite wc_N0_meters in ac_N0. now apply wider_pos.
    - rewrite wc_Length. now apply wider_pos.
    - rewrite wc_Width. now apply wider_pos.
    - rewrite wc_Length, wc_Width, wc_dx. now rewrite wider_pos, !wider_le.
    - rewrite wc_L0_meters. now apply wider_nonneg.
    - rewrite wc_N0_meters. now apply wider_pos.
  Qed.
  Lemma resolved_wider c : resolved (fun x => x) (wc c) = wc (resolved (fun x => x) c).
  Proof. unfold resolved. destruct c. unfold wider_config. cbn. destruct i_checkpoint_dt; reflexivity. Qed.
  Lemma process_wider c : process_input_to_model (A:=XA) (wc c) = rmp wc (process_input_to_model (A:=XA) c).
  Proof.
    pose proof (process_spec (fun x => x) c) as H1. pose proof (process_spec (fun x => x) (wc c)) as H2.
    destruct (process_input_to_model (A:=XA) c) as [c1 | e1]; destruct (process_input_to_model (A:=XA) (wc c)) as [c2 | e2]; cbn [rmp].
    - destruct H1 as [_ ->]. destruct H2 as [_ ->]. now rewrite resolved_wider.
    - destruct H1 as [K _]. destruct H2 as [_ K']. now rewrite accepted_wider in K'.
    - destruct H1 as [_ K]. destruct H2 as [K' _]. now rewrite accepted_wider in K'.
    - destruct H1 as [-> _]. destruct H2 as [-> _]. reflexivity.
  Qed.
  Lemma seed_wider c (np : N) : determine_random_seed (G:=G) (wc c) np
    = let '(c', s, np') := determine_random_seed (G:=G) c np in (wc c', s, np').
  Proof.
    unfold determine_random_seed. rewrite wc_seed. destruct (i_seed c); [reflexivity |].
    destruct (randint np). destruct c. reflexivity.
  Qed.
  Lemma ratio_wider x y : k * x / (k * y) = x / y.
  Proof.
    unfold Rdiv. rewrite Rinv_mult. transitivity (x * / y * (k * / k)); [ring |]. rewrite Rinv_r by lra. ring.
  Qed.
  Lemma other_wider c : create_other_variables (A:=XA) (wc c)
    = setp_dx (k * i_dx c) (setp_S0 (i_S0 c / k) (setp_SLR (i_SLR c / k)
      (setp_start_subsidence (k * i_start_subsidence c) (setp_save_dt (k * i_save_dt c)
      (setp_checkpoint_dt (k * some_or (i_save_dt c) (i_checkpoint_dt c)) (create_other_variables (A:=XA) c)))))).
  Proof.
    unfold create_other_variables. autorewrite with wc. change (fdiv (Arith:=XA)) with Rdiv. rewrite !ratio_wider.
    replace (some_or (k * i_save_dt c) (option_map (fun t => k * t) (i_checkpoint_dt c)))
      with (k * some_or (i_save_dt c) (i_checkpoint_dt c)) by (destruct (i_checkpoint_dt c); reflexivity).
    reflexivity.
  Qed.
  Lemma boundary_wider c :
    create_boundary_conditions (A:=XA) (wc c) (create_other_variables (A:=XA) (wc c))
    = rmp (wider_params k) (create_boundary_conditions (A:=XA) c (create_other_variables (A:=XA) c)).
  Proof.
    rewrite other_wider.
    set (P0 := create_other_variables (A:=XA) c).
    unfold create_boundary_conditions. cbv zeta. autorewrite with wc.
    change (p_L (setp_dx _ _)) with (p_L P0). change (p_W (setp_dx _ _)) with (p_W P0).
    change (p_Np_water (setp_dx _ _)) with (p_Np_water P0).
    change (p_Np_sed (setp_dx _ _)) with (p_Np_sed P0). change (p_itermax (setp_dx _ _)) with (p_itermax P0).
    assert (ED : forall x y, fdiv (Arith:=XA) (k * x) (k * y) = fdiv (Arith:=XA) x y) by (intros; apply ratio_wider).
    rewrite !ED.
    set (N0 := Z.max 3 _). set (L0 := Z.max 1 _).
    set (sm := match i_stepmax c with None => _ | Some _ => _ end).
    set (dd := fmin _ _). set (C0 := fdiv _ (fz 100)).
    clearbody N0 L0 sm dd C0.
    assert (Hkk : k * k <> 0) by nra.
    rewrite (pydiv_eq (fmul (Arith:=XA) (fmul (Arith:=XA) (flit (A:=XA) 981 100) (i_S0 c)) (i_dx c)) (fmul (Arith:=XA) (i_u0 c) (i_u0 c)) _ _ (fun x => x)).
    2: tauto.
    2: { ra. intros K. f_equal. field. lra. }
    destruct (pydiv (A:=XA) (fmul (Arith:=XA) (fmul (Arith:=XA) _ (i_S0 c)) (i_dx c)) _) as [gam | e]; cbn [rbind rmp]; [| reflexivity].
    set (Qw := fmul (Arith:=XA) (fmul (Arith:=XA) (fmul (Arith:=XA) (i_u0 c) (i_h0 c)) (fz (Arith:=XA) N0)) (i_dx c)).
    replace (fmul (Arith:=XA) (fmul (Arith:=XA) (fmul (Arith:=XA) (i_u0 c) (i_h0 c)) (fz (Arith:=XA) N0)) (k * i_dx c))
      with (k * Qw) by (unfold Qw; ra; ring).
    set (V0 := fmul (Arith:=XA) (i_h0 c) (fmul (Arith:=XA) (i_dx c) (i_dx c))).
    replace (fmul (Arith:=XA) (i_h0 c) (fmul (Arith:=XA) (k * i_dx c) (k * i_dx c))) with (k * k * V0) by (unfold V0; ra; ring).
    set (dVs := fmul (Arith:=XA) (fmul (Arith:=XA) (flit (A:=XA) 1 10) (fz (Arith:=XA) (N0 * N0))) V0).
    replace (fmul (Arith:=XA) (fmul (Arith:=XA) (flit (A:=XA) 1 10) (fz (Arith:=XA) (N0 * N0))) (k * k * V0)) with (k * k * dVs) by (unfold dVs; ra; ring).
    set (Qs := fmul (Arith:=XA) Qw C0). replace (fmul (Arith:=XA) (k * Qw) C0) with (k * Qs) by (unfold Qs; ra; ring).
    clearbody Qs dVs V0 Qw.
    rewrite (pydiv_eq Qw (fz (Arith:=XA) (p_Np_water P0)) _ _ (fun x => k * x)).
    2: tauto.
    2: { ra. intros K. unfold Rdiv. ring. }
    destruct (pydiv (A:=XA) Qw (fz (Arith:=XA) (p_Np_water P0))) as [Qp | e]; cbn [rbind rmp]; [| reflexivity].
    rewrite (pydiv_eq dVs (fz (Arith:=XA) (p_Np_sed P0)) _ _ (fun x => k * k * x)).
    2: tauto.
    2: { ra. intros K. unfold Rdiv. ring. }
    destruct (pydiv (A:=XA) dVs (fz (Arith:=XA) (p_Np_sed P0))) as [Vp | e]; cbn [rbind rmp]; [| reflexivity].
    rewrite (pydiv_eq dVs Qs _ _ (fun x => k * x)).
    2: { apply mult_0_iff. lra. }
    2: { intros K. field. lra. }
    destruct (pydiv (A:=XA) dVs Qs) as [dt | e]; cbn [rbind rmp]; [| reflexivity].
    destruct (pydiv (A:=XA) (fz (Arith:=XA) 2) (fz (Arith:=XA) (p_itermax P0))) as [oi | e]; cbn [rbind rmp]; [| reflexivity].
    rewrite (pydiv_eq dVs V0 _ _ (fun x => x)).
    2: { apply mult_0_iff. assumption. }
    2: { intros K. field. lra. }
    destruct (pydiv (A:=XA) dVs V0) as [cd | e]; cbn [rbind rmp]; [| reflexivity].
    set (Nc := frint (Arith:=XA) cd). clearbody Nc.
    rewrite (pydiv_eq dt (fz (Arith:=XA) Nc) (k * dt) (fz (Arith:=XA) Nc) (fun x => k * x)).
    2: tauto.
    2: { ra. intros K. unfold Rdiv. ring. }
    destruct (pydiv (A:=XA) dt (fz (Arith:=XA) Nc)) as [dp | e]; cbn [rbind rmp]; [| reflexivity].
    rewrite (pydiv_eq (fmul (Arith:=XA) (fmul (Arith:=XA) dp (i_alpha c)) (flit (A:=XA) 1 2)) (fmul (Arith:=XA) (i_dx c) (i_dx c)) _ _ (fun x => x)).
    2: { ra. replace (k * i_dx c * (k * i_dx c)) with (k * k * (i_dx c * i_dx c)) by ring. now apply mult_0_iff. }
    2: { ra. intros K. field. split; [| lra]. intros K'. apply K. rewrite K'. ring. }
    destruct (pydiv (A:=XA) _ (fmul (Arith:=XA) (i_dx c) (i_dx c))) as [mu | e]; cbn [rbind rmp]; [| reflexivity].
    reflexivity.
  Qed.

  Lemma domain_wider c P (s : S) :
    create_domain (A:=XA) (wc c) (wider_params k P) s
    = rmp (fun r => (wider_params k (fst r), widen k (s_sand_frac (snd r)) (s_active_layer (snd r)) (snd r))) (create_domain (A:=XA) c P s).
  Proof.
    unfold create_domain. cbv zeta. change (size_indices (wider_params k P)) with (size_indices P).
    destruct (size_indices P <? 0)%Z; [reflexivity |]. cbn [rmp fst snd]. f_equal.
    replace (basin_depth (A:=XA) (wc c)) with (basin_depth (A:=XA) c) by reflexivity.
    autorewrite with wp. rewrite wc_dx, wc_S0, wc_h0, wc_sand_frac_bc, wc_H_SL.
    change (cell_type_0 (wider_params k P)) with (cell_type_0 P).
    change (create_cell_type (A:=XA) (wider_params k P)) with (create_cell_type (A:=XA) P).
    set (stg := fun i j => if (cell_type_0 P i j =? 0)%Z then fz (Arith:=XA) 0
                           else fmul (Arith:=XA) (fmul (Arith:=XA) (fz (Arith:=XA) (Z.max 0 (p_L0 P - i - 1))) (i_dx c)) (i_S0 c)).
    replace (fun i j => if (cell_type_0 P i j =? 0)%Z then fz (Arith:=XA) 0
                           else fmul (Arith:=XA) (fmul (Arith:=XA) (fz (Arith:=XA) (Z.max 0 (p_L0 P - i - 1))) (k * i_dx c)) (i_S0 c / k))
      with stg.
    2: { apply functional_extensionality; intro i. apply functional_extensionality; intro j. unfold stg.
         destruct (_ =? 0)%Z; [reflexivity |]. ra. field. lra. }
    clearbody stg. f_equal. apply state_ext; try reflexivity.
    - symmetry. apply scaled_0.
    - symmetry. apply scaled_0.
    - cbv beta iota delta [widen s_time]. ra. ring.
  Qed.
  Lemma subsidence_init_wider c P :
    init_subsidence (A:=XA) (wc c) (wider_params k P) = wider_params k (init_subsidence (A:=XA) c P).
  Proof.
    unfold init_subsidence. rewrite wp_toggle_subsidence, wp_L0, wp_dt, wc_subsidence_rate.
    destruct (p_toggle_subsidence P); [| reflexivity].
    match goal with |- setp_sigma ?x _ = wider_params _ (setp_sigma ?y _) => assert (E : x = y); [| rewrite E; reflexivity] end.
    apply functional_extensionality; intro i. apply functional_extensionality; intro j. ra. field. lra.
  Qed.
  Lemma routers_wider P : init_sediment_routers (wider_params k P) = wider_params k (init_sediment_routers P).
  Proof. destruct P. reflexivity. Qed.
  (** The model on wider cells; the first sand fractions are the same. *)
  Definition widen_model (m : model S) : model S :=
    mkModel (wc (m_in m)) (wider_params k (m_P m)) (widen k (s_sand_frac (m_st m)) (s_active_layer (m_st m)) (m_st m)) (m_finalized m).
  Lemma construct_wider c (nb : S) (np : N) :
    construct (A:=XA) (G:=G) (wc c) nb np
    = rmp (fun r => (widen_model (fst r), snd r)) (construct (A:=XA) (G:=G) c nb np).
  Proof.
    unfold construct. rewrite process_wider.
    destruct (process_input_to_model (A:=XA) c) as [c1 | e]; cbn [rbind rmp]; [| reflexivity].
    rewrite seed_wider. destruct (determine_random_seed (G:=G) c1 np) as [[c2 s] np1].
    rewrite boundary_wider.
    destruct (create_boundary_conditions (A:=XA) c2 _) as [P2 | e]; cbn [rbind rmp]; [| reflexivity].
    rewrite domain_wider.
    destruct (create_domain (A:=XA) c2 P2 s) as [[P3 st] | e]; cbn [rbind rmp fst snd]; [| reflexivity].
    rewrite routers_wider, subsidence_init_wider. reflexivity.
  Qed.
  Lemma run_model_wider c (nb : S) (np : N) n :
    wider_result k (run_model (A:=XA) (G:=G) (GN:=GN) c nb np n) (run_model (A:=XA) (G:=G) (GN:=GN) (wc c) nb np n).
  Proof.
    unfold run_model, new_model. rewrite construct_wider.
    destruct (construct (A:=XA) c nb np) as [[m np1] | e]; cbn [rbind rmp fst snd wider_result]; [| reflexivity].
    cbn [widen_model m_P m_st m_in].
    destruct (write_output_wider k Hk (m_P m) (s_sand_frac (m_st m)) (s_active_layer (m_st m)) (m_st m)) as [E1 H1].
    destruct (write_output (A:=XA) (m_P m) _) as [st o]. destruct (write_output (A:=XA) (wider_params k (m_P m)) _) as [st' o'].
    cbn [fst snd] in E1, H1. cbn [rbind m_P m_st].
    assert (Hw : wider k st st') by (rewrite E1; apply widen_wider).
    pose proof (updates_wider k Hk (m_P m) n st st' Hw) as H2.
    destruct (updates (A:=XA) (m_P m) n st) as [[st1 o1] | e]; destruct (updates (A:=XA) (wider_params k (m_P m)) n st') as [[st1' o1'] | e']; cbn [wider_result] in H2; try contradiction; cbn [rbind wider_result]; [| assumption].
    destruct H2 as [H2 F2]. split; [assumption | now apply Forall2_app].
  Qed.
End Wider.
