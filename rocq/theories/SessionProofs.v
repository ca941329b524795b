(** Proofs about resuming, the life cycle and the public attributes. *)
From Coq Require Import ZArith List Bool Reals Lra Lia.
From Flocq Require Import Core.
From Verif Require Import Base RLemmas Shared Params State Water WaterSpec Sed SedSpec RunProofs Iter
  IterSpec FrameProofs IterProofs Inputs Init InitSpec InitProofs Session SessionSpec ResumeProofs.
Import ListNotations.
Local Open Scope Z_scope.

Section Resumed.
  Context {F : Type} {A : Arith F} {S N : Type} {G : Rng F S} {GN : NpRng N}.

  (** ** Width of the path record along a run *)
  Lemma check_width (P : params F) w it : 0 <= p_stepmax P ->
    w <= check_size_of_indices_matrix P w it /\
    (p_stepmax P < 4 -> check_size_of_indices_matrix P w it = w).
  Proof.
    intros H. unfold check_size_of_indices_matrix.
    assert (0 <= p_stepmax P / 4) by (apply Z.div_pos; lia).
    assert (p_stepmax P < 4 -> p_stepmax P / 4 = 0) by (intros; apply Z.div_small; lia).
    destruct (w <=? it); split; intros; lia.
  Qed.
  Lemma loop_width (P : params F) wts stage H_SL ct fuel : 0 <= p_stepmax P -> forall step ps q w s ps' q' w' s',
    water_loop P wts stage H_SL ct fuel step (ps, q, w, s) = Ok (ps', q', w', s') ->
    w <= w' /\ (p_stepmax P < 4 -> w' = w).
  Proof.
    intros Hs. induction fuel as [|fuel IH]; intros step ps q w s ps' q' w' s' E.
    - injection E as <- <- <- <-. split; intros; lia.
    - cbn [water_loop fst] in E. destruct (any_active ps).
      2:{ injection E as <- <- <- <-. split; intros; lia. }
      apply rbind_Ok in E as ([[[ps1 q1] w1] s1] & E1 & E). apply IH in E as [K1 K2].
      unfold water_step in E1.
      apply rbind_Ok in E1 as ([? ?] & _ & E1). apply rbind_Ok in E1 as (? & _ & E1).
      apply rbind_Ok in E1 as (? & _ & E1). apply rbind_Ok in E1 as (? & _ & E1).
      apply rbind_Ok in E1 as (? & _ & E1).
      match type of E1 with (if ?b then _ else _) = _ => destruct b end; [|discriminate].
      apply rbind_Ok in E1 as (? & _ & E1). injection E1 as _ _ E1 _.
      destruct (check_width P w (step + 1) Hs) as [K3 K4]. rewrite E1 in K3, K4.
      split; [lia|]. intros H. rewrite K2, K4; auto.
  Qed.
  Definition wider (P : params F) (w w' : Z) : Prop := w <= w' /\ (p_stepmax P < 4 -> w' = w).
  Lemma wider_refl P w : wider P w w. Proof. split; intros; lia. Qed.
  Lemma wider_trans P a b c : wider P a b -> wider P b c -> wider P a c.
  Proof. unfold wider. intuition lia. Qed.
  Lemma iteration_wider (P : params F) it (a b : state F S) : water_iteration P it a = Ok b -> wider P (s_width a) (s_width b).
  Proof.
    intros E. unfold water_iteration in E. apply rbind_Ok in E as ([[[ps [[qx qy] qw]] w] s] & E1 & E).
    apply rbind_Ok in E as (x & E2 & E). injection E as <-. rewrite finalize_water_width.
    apply surface_width in E2. rewrite E2, after_run_width. clear E2 x.
    unfold run_water_iteration in E1. apply rbind_Ok in E1 as ([starts s1] & _ & E1).
    destruct (s_width a <=? 0); [discriminate|]. apply rbind_Ok in E1 as (wts & _ & E1).
    destruct (Z_le_gt_dec 0 (p_stepmax P)) as [H|H].
    - apply loop_width in E1; auto.
    - replace (Z.to_nat (p_stepmax P)) with O in E1 by lia. injection E1 as _ _ _ _ <- _. apply wider_refl.
  Qed.
  Lemma water_wider (P : params F) (a b : state F S) : route_water P a = Ok b -> wider P (s_width a) (s_width b).
  Proof.
    unfold route_water. generalize 0. revert a. induction (Z.to_nat (p_itermax P)) as [|n IH]; intros a it E.
    - injection E as <-. apply wider_refl.
    - cbn [water_iterations] in E. apply rbind_Ok in E as (x & E1 & E).
      eapply wider_trans; [eapply iteration_wider; eauto|eauto].
  Qed.

  (** ** What every state of a run shares with the fresh model *)
  Record descends (P : params F) (fresh st : state F S) : Prop := {
    dc_types : s_cell_type st = s_cell_type fresh;
    dc_mods : s_mod_water_weight st = s_mod_water_weight fresh /\
      s_mod_sed_weight st = s_mod_sed_weight fresh /\ s_mod_erosion st = s_mod_erosion fresh;
    dc_width : wider P (s_width fresh) (s_width st)
  }.
  Lemma descends_trans P (a b c : state F S) : descends P a b -> descends P b c -> descends P a c.
  Proof.
    intros [H1 H2 H3] [K1 K2 K3]. constructor; [congruence|intuition congruence|eapply wider_trans; eauto].
  Qed.
  Lemma update_descends (P : params F) (a b : state F S) o : update P a = Ok (b, o) -> descends P a b.
  Proof.
    intros E. pose proof (update_frame P a b o E) as K. constructor; try tauto.
    apply update_inv in E as (x & y & E1 & E2 & E3). apply water_wider in E1. apply sediment_counters in E2 as [_ E2].
    apply forget_write in E3 as [_ E3]. rewrite E3.
    destruct (end_counters P (apply_subsidence P y)) as (_ & _ & _ & ->).
    destruct (subsidence_counters P y) as [_ ->]. rewrite E2. exact E1.
  Qed.
  Lemma write_descends (P : params F) (a b : state F S) o : write_output P a = (b, o) -> descends P a b.
  Proof.
    intros E. apply write_output_same, same_fields in E. decompose [and] E. constructor; auto.
    rewrite H20. apply wider_refl.
  Qed.
  Lemma updates_descends (P : params F) n : forall (a b : state F S) o, updates P n a = Ok (b, o) -> descends P a b.
  Proof.
    induction n as [|n IH]; intros a b o E.
    - injection E as <- <-. constructor; auto. apply wider_refl.
    - cbn [updates] in E. apply rbind_Ok in E as ([x ox] & E1 & E). apply rbind_Ok in E as ([y oy] & E2 & E).
      injection E as <- <-. eapply descends_trans; [eapply update_descends; eauto|eauto].
  Qed.

  (** ** The elapsed time since the last record stays finite *)
  Definition finite_since (st : state F S) : Prop := exists x, s_save_time_since_data st = Fin x.
  Lemma output_finite (P : params F) (a : state F S) : fnan (p_save_dt P) = false \/ finite_since a ->
    finite_since (fst (write_output P a)).
  Proof.
    intros H. unfold write_output, output_data, output_checkpoint.
    destruct (ext_geb (s_save_time_since_data a) (p_save_dt P)) eqn:Eg; cbn -[ext_geb];
      destruct (_ && _); cbn; try (eexists; reflexivity);
      (destruct H as [H|H]; [unfold finite_since; cbn; destruct (s_save_time_since_data a); cbn in Eg; first [eexists; reflexivity|rewrite H in Eg; discriminate]|exact H]).
  Qed.
  Lemma update_since (P : params F) (a b : state F S) o : update P a = Ok (b, o) ->
    exists x, s_save_time_since_data x = ext_add (s_save_time_since_data a) (p_dt P) /\
      s_save_time_since_checkpoint x = ext_add (s_save_time_since_checkpoint a) (p_dt P) /\
      s_save_iter x = s_save_iter a /\ write_output P x = (b, o).
  Proof.
    intros E. apply update_inv in E as (x & y & E1 & E2 & E3). apply water_counters in E1. apply sediment_counters in E2 as [E2 _].
    exists (advance_clock P (finalize_timestep P (apply_subsidence P y))).
    destruct (end_counters P (apply_subsidence P y)) as (-> & -> & -> & _).
    destruct (subsidence_counters P y) as [C _].
    assert (C' : counters (apply_subsidence P y) = counters a) by (rewrite C, E2, E1; reflexivity).
    injection C' as -> -> ->. auto.
  Qed.
  Lemma update_finite (P : params F) (a b : state F S) o : update P a = Ok (b, o) -> finite_since a -> finite_since b.
  Proof.
    intros E [x Hx]. apply update_since in E as (y & E1 & _ & _ & E2).
    replace b with (fst (write_output P y)) by (rewrite E2; reflexivity). apply output_finite. right.
    rewrite Hx in E1. eexists. exact E1.
  Qed.
  Lemma updates_finite (P : params F) n : forall (a b : state F S) o, updates P n a = Ok (b, o) -> finite_since a -> finite_since b.
  Proof.
    induction n as [|n IH]; intros a b o E H.
    - injection E as <- <-. auto.
    - cbn [updates] in E. apply rbind_Ok in E as ([x ox] & E1 & E). apply rbind_Ok in E as ([y oy] & E2 & E).
      injection E as <- <-. eapply IH; eauto. eapply update_finite; eauto.
  Qed.

  (** ** Construction again *)
  Lemma domain_rng (inp : inputs F) z (P : params F) (s s' : S) :
    create_domain (seti_seed z inp) P s' = rmap (fun '(P', st) => (P', set_rng s' st)) (create_domain inp P s).
  Proof. unfold create_domain. destruct (size_indices P <? 0); reflexivity. Qed.
  Lemma seed_of (inp : inputs F) (np : N) : exists z, determine_random_seed (G:=G) inp np = (seti_seed (Some z) inp, seed_rng z,
    match i_seed inp with Some _ => np | None => snd (randint np) end).
  Proof.
    unfold determine_random_seed. destruct (i_seed inp) as [z|] eqn:E.
    - exists z. rewrite <- E. destruct inp; reflexivity.
    - destruct (randint np) as [z np']. exists z. reflexivity.
  Qed.
  Lemma construct_other (c : inputs F) nb np (m : model (F:=F) S) np' : construct (G:=G) (GN:=GN) c nb np = Ok (m, np') ->
    m_finalized m = false /\
    forall nb2 np2, exists m2 np3 s, construct (G:=G) (GN:=GN) c nb2 np2 = Ok (m2, np3) /\ m_P m2 = m_P m /\
      m_st m2 = set_rng s (m_st m) /\ m_finalized m2 = false.
  Proof.
    unfold construct. intros E. apply rbind_Ok in E as (c' & E1 & E).
    destruct (seed_of c' np) as (z & K). rewrite K in E. clear K.
    apply rbind_Ok in E as (P & E2 & E). apply rbind_Ok in E as ([P' st] & E3 & E). injection E as <- <-.
    split; [reflexivity|]. intros nb2 np2. rewrite E1. cbn [rbind]. destruct (seed_of c' np2) as (z2 & K). rewrite K. clear K.
    change (create_boundary_conditions (seti_seed (Some z2) c') (create_other_variables (seti_seed (Some z2) c')))
      with (create_boundary_conditions (seti_seed (Some z) c') (create_other_variables (seti_seed (Some z) c'))).
    rewrite E2. cbn [rbind]. clear E2.
    pose proof (domain_rng (seti_seed (Some z) c') (Some z2) P (seed_rng z) (seed_rng z2)) as K.
    change (seti_seed (Some z2) (seti_seed (Some z) c')) with (seti_seed (Some z2) c') in K. rewrite E3 in K. cbn [rmap] in K.
    rewrite K. cbn [rbind].
    exists (mkModel (seti_seed (Some z2) c') (init_subsidence (seti_seed (Some z2) c') (init_sediment_routers P')) (set_rng (seed_rng z2) st) false).
    eexists. exists (seed_rng z2). split; [reflexivity|]. split; [reflexivity|]. split; reflexivity.
  Qed.
  (** *** What the fresh model looks like *)
  Lemma process_save_dt (c c' : inputs F) : process_input_to_model c = Ok c' -> i_save_dt c' = i_save_dt c.
  Proof.
    rewrite process_chain. intros E.
    repeat match type of E with (if ?b then _ else _) = _ => destruct b; [discriminate|] end.
    unfold set_active_layer_thickness in E.
    destruct (i_active_layer_thickness c) as [t|].
    - destruct (fltb t _); [discriminate|]. cbn [rbind] in E.
      repeat match type of E with (if ?b then _ else _) = _ => destruct b; [discriminate|] end.
      injection E as <-. reflexivity.
    - cbn [rbind] in E. repeat match type of E with (if ?b then _ else _) = _ => destruct b; [discriminate|] end.
      injection E as <-. reflexivity.
  Qed.
  Lemma boundary_keeps {T} (f : params F -> T) (c : inputs F) (P P' : params F) :
    (forall P L0 N0 um C0 dd ga V0 Qw qw Qp qs dV Qs Vp sm dt om nc la mu,
       f (setp_L0 L0 (setp_N0 N0 (setp_u_max um (setp_C0 C0 (setp_dry_depth dd
       (setp_gamma ga (setp_V0 V0 (setp_Qw0 Qw (setp_qw0 qw (setp_Qp_water Qp
       (setp_qs0 qs (setp_dVs dV (setp_Qs0 Qs (setp_Vp_sed Vp (setp_stepmax sm
       (setp_dt dt (setp_omega_flow_iter om (setp_N_crossdiff nc
       (setp_lambda la (setp_diffusion_multiplier mu P)))))))))))))))))))) = f P) ->
    create_boundary_conditions c P = Ok P' -> f P' = f P.
  Proof.
    intros K E. unfold create_boundary_conditions in E.
    do 8 (apply rbind_Ok in E as (? & _ & E)). injection E as <-. apply K.
  Qed.
  Lemma construct_fresh (c : inputs F) nb np (m : model (F:=F) S) np' : construct (G:=G) (GN:=GN) c nb np = Ok (m, np') ->
    s_save_time_since_data (m_st m) = Inf /\ s_save_time_since_checkpoint (m_st m) = Inf /\
    s_save_iter (m_st m) = 0 /\ s_time_iter (m_st m) = 0 /\ s_time (m_st m) = fz 0 /\
    s_width (m_st m) = Z.quot (p_stepmax (m_P m)) 2 /\
    p_save_dt (m_P m) = i_save_dt c.
  Proof.
    unfold construct. intros E. apply rbind_Ok in E as (c' & E1 & E). apply process_save_dt in E1.
    destruct (seed_of c' np) as (z & K). rewrite K in E. clear K.
    apply rbind_Ok in E as (P & E2 & E). apply rbind_Ok in E as ([P' st] & E3 & E). injection E as <- <-.
    apply (boundary_keeps p_save_dt) in E2; [|reflexivity].
    unfold create_domain in E3. destruct (size_indices P <? 0); [discriminate|]. injection E3 as <- <-.
    cbn [m_st m_P s_save_time_since_data s_save_time_since_checkpoint s_save_iter s_time_iter s_time s_width].
    repeat split.
    - unfold init_subsidence, init_sediment_routers, size_indices.
      match goal with |- context [if ?b then _ else _] => destruct b end; reflexivity.
    - rewrite <- E1. transitivity (p_save_dt P).
      + unfold init_subsidence, init_sediment_routers. match goal with |- context [if ?b then _ else _] => destruct b end; reflexivity.
      + exact E2.
  Qed.

  (** ** The resumed state *)
  Lemma load_related (P : params F) (fresh st : state F S) s missing st' : descends P fresh st ->
    s_width fresh = Z.quot (p_stepmax P) 2 ->
    load_checkpoint (save_the_checkpoint st) missing (set_rng s fresh) = Ok st' ->
    related P st st'.
  Proof.
    intros [H1 (H2 & H3 & H4) H5] Hw E. unfold load_checkpoint in E.
    destruct (c_save_time_since_data (save_the_checkpoint st)) as [|x]; [discriminate|].
    assert (Hf : forget0 st = forget0 st' /\ s_width st' = s_width fresh).
    { destruct missing; injection E as <-; destruct st, fresh; cbn in *; subst; split; reflexivity. }
    destruct Hf as [Hf Hv]. split; [exact Hf|]. rewrite Hv. unfold widths. destruct H5 as [H5 H6].
    destruct (Z_lt_ge_dec (p_stepmax P) 4) as [Hs|Hs]; [left; auto|].
    right. assert (1 <= Z.quot (p_stepmax P) 2) by (apply Z.quot_le_lower_bound; lia). lia.
  Qed.
  Lemma load_phase (fresh st : state F S) x missing st' :
    s_save_time_since_data st = Fin x -> fz (ftrunc x) = x ->
    load_checkpoint (save_the_checkpoint st) missing fresh = Ok st' ->
    in_phase (if missing then s_save_iter st else 0) st st'.
  Proof.
    intros Hx Hw E. unfold load_checkpoint in E. cbn [c_save_time_since_data save_the_checkpoint] in E. rewrite Hx in E.
    unfold in_phase. destruct missing; injection E as <-; cbn; rewrite Hx, Hw; split; auto; lia.
  Qed.

  Lemma updates_app (P : params F) k : forall n (a : state F S),
    updates P (k + n) a = do (b, o) <- updates P k a; do (c, o') <- updates P n b; Ok (c, o ++ o').
  Proof.
    induction k as [|k IH]; intros n a.
    - cbn. destruct (updates P n a) as [[]|]; reflexivity.
    - cbn [updates Nat.add]. destruct (update P a) as [[b o]|]; [|reflexivity]. cbn [rbind]. rewrite IH.
      destruct (updates P k b) as [[c o']|]; [|reflexivity]. cbn [rbind].
      destruct (updates P n c) as [[d o'']|]; [|reflexivity]. cbn [rbind]. rewrite app_assoc. reflexivity.
  Qed.
  Lemma run_model_app (c : inputs F) nb np k n (m : model (F:=F) S) np' st o :
    construct (G:=G) (GN:=GN) c nb np = Ok (m, np') -> run_model (G:=G) (GN:=GN) c nb np k = Ok (st, o) ->
    run_model (G:=G) (GN:=GN) c nb np (k + n) = do (b, o') <- updates (m_P m) n st; Ok (b, o ++ o').
  Proof.
    intros E1 E2. unfold run_model, new_model in *. rewrite E1 in *. cbn [rbind] in *.
    destruct (write_output (m_P m) (m_st m)) as [st1 o0]. cbn [rbind m_P m_st] in *.
    apply rbind_Ok in E2 as ([st2 o1] & E2 & E3). injection E3 as <- <-.
    rewrite updates_app, E2. cbn [rbind]. destruct (updates (m_P m) n st2) as [[b o']|]; [|reflexivity].
    cbn [rbind]. rewrite app_assoc. reflexivity.
  Qed.

  Lemma run_reached (c : inputs F) nb np k (m : model (F:=F) S) np' st o :
    construct (G:=G) (GN:=GN) c nb np = Ok (m, np') -> run_model (G:=G) (GN:=GN) c nb np k = Ok (st, o) ->
    descends (m_P m) (m_st m) st /\ (fnan (i_save_dt c) = false -> finite_since st).
  Proof.
    intros E1 E2. pose proof E1 as E0. apply run_model_inv in E2 as (m' & np2 & st1 & o0 & o1 & Ec & Ew & Eu & _).
    rewrite E1 in Ec. injection Ec as <- <-. split.
    - eapply descends_trans; [eapply write_descends; eauto|eapply updates_descends; eauto].
    - intros Hn. apply construct_fresh in E0 as (_ & _ & _ & _ & _ & _ & E0).
      eapply updates_finite; [exact Eu|]. replace st1 with (fst (write_output (m_P m) (m_st m))) by (rewrite Ew; reflexivity).
      apply output_finite. left. rewrite E0. exact Hn.
  Qed.

  (** The resumed model, next to the uninterrupted one. *)
  Lemma resume_related (c : inputs F) nb np k (m : model (F:=F) S) np' st o nb' np2 missing :
    construct (G:=G) (GN:=GN) c nb np = Ok (m, np') -> run_model (G:=G) (GN:=GN) c nb np k = Ok (st, o) ->
    fnan (i_save_dt c) = false ->
    exists r np3, resume (GN:=GN) c (save_the_checkpoint st) missing nb' np2 = Ok (r, np3) /\
      m_P r = m_P m /\ m_finalized r = false /\ related (m_P m) st (m_st r) /\
      s_save_time_since_checkpoint (m_st r) = Inf /\
      (forall x, s_save_time_since_data st = Fin x ->
         s_save_time_since_data (m_st r) = Fin (fz (ftrunc x)) /\
         (fz (ftrunc x) = x -> in_phase (if missing then s_save_iter st else 0) st (m_st r))).
  Proof.
    intros E1 E2 Hn. destruct (run_reached c nb np k m np' st o E1 E2) as [HD HF]. specialize (HF Hn).
    destruct (construct_other c nb np m np' E1) as [_ HC].
    destruct (HC nb' np2) as (m2 & np3 & s & E3 & HP & Hst & Hfin).
    pose proof (construct_fresh c nb np m np' E1) as (_ & Hck & _ & _ & _ & Hw & _).
    destruct HF as [x Hx].
    destruct (load_checkpoint (save_the_checkpoint st) missing (set_rng s (m_st m))) as [st'|] eqn:El.
    2:{ unfold load_checkpoint in El. cbn [c_save_time_since_data save_the_checkpoint] in El. rewrite Hx in El. discriminate. }
    exists (mkModel (m_in m2) (m_P m2) st' (m_finalized m2)), np3.
    split. { unfold resume. rewrite E3. cbn [rbind]. rewrite Hst, El. reflexivity. }
    cbn [m_P m_st m_finalized]. split; [exact HP|]. split; [exact Hfin|].
    split; [eapply load_related; eauto|]. split.
    { unfold load_checkpoint in El. cbn [c_save_time_since_data save_the_checkpoint] in El. rewrite Hx in El.
      destruct missing; injection El as <-; exact Hck. }
    intros y Hy. rewrite Hx in Hy. injection Hy as <-. split.
    { unfold load_checkpoint in El. cbn [c_save_time_since_data save_the_checkpoint] in El. rewrite Hx in El.
      destruct missing; injection El as <-; reflexivity. }
    intros Hz. eapply load_phase; eauto.
  Qed.

  (** Checkpoints of a run are states of the run. *)
  Lemma updates_checkpoint_inv (P : params F) n : forall (a b : state F S) o c, updates P n a = Ok (b, o) ->
    In (Checkpoint c) o -> exists j x ox, (1 <= j <= n)%nat /\ updates P j a = Ok (x, ox) /\ c = save_the_checkpoint x.
  Proof.
    induction n as [|n IH]; intros a b o c E H.
    - injection E as <- <-. destruct H.
    - cbn [updates] in E. apply rbind_Ok in E as ([x ox] & E1 & E). apply rbind_Ok in E as ([y oy] & E2 & E).
      injection E as <- <-. apply in_app_or in H as [H|H].
      + apply (proj2 (written P a x ox E1)) in H. exists 1%nat, x, (ox ++ []). split; [lia|].
        split; [cbn [updates]; rewrite E1; reflexivity|exact H].
      + destruct (IH _ _ _ _ E2 H) as (j & z & oz & Hj & Ez & Hc). exists (Datatypes.S j), z, (ox ++ oz).
        split; [lia|]. split; [cbn [updates]; rewrite E1; cbn [rbind]; rewrite Ez; reflexivity|exact Hc].
  Qed.
  Lemma updates_iter (P : params F) n : forall (a b : state F S) o, updates P n a = Ok (b, o) ->
    s_time_iter b = s_time_iter a + Z.of_nat n.
  Proof.
    induction n as [|n IH]; intros a b o E.
    - injection E as <- <-. lia.
    - cbn [updates] in E. apply rbind_Ok in E as ([x ox] & E1 & E). apply rbind_Ok in E as ([y oy] & E2 & E).
      injection E as <- <-. apply IH in E2. apply update_frame in E1. decompose [and] E1. lia.
  Qed.
  Lemma run_iter (c : inputs F) nb np k st o : run_model (G:=G) (GN:=GN) c nb np k = Ok (st, o) -> s_time_iter st = Z.of_nat k.
  Proof.
    intros E. apply run_model_inv in E as (m & np2 & st1 & o0 & o1 & Ec & Ew & Eu & _).
    apply construct_fresh in Ec as (_ & _ & _ & Ec & _). apply write_output_same, same_fields in Ew.
    apply updates_iter in Eu. decompose [and] Ew. rewrite Eu. rewrite H19, Ec. lia.
  Qed.
  Lemma run_checkpoint (c : inputs F) nb np k st o ck : run_model (G:=G) (GN:=GN) c nb np k = Ok (st, o) ->
    In (Checkpoint ck) o -> exists x ox, 0 <= c_time_iter ck <= Z.of_nat k /\
      run_model (G:=G) (GN:=GN) c nb np (Z.to_nat (c_time_iter ck)) = Ok (x, ox) /\ ck = save_the_checkpoint x.
  Proof.
    intros E H. pose proof E as E'. apply run_model_inv in E as (m & np2 & st1 & o0 & o1 & Ec & Ew & Eu & ->).
    assert (K : exists j x ox, (j <= k)%nat /\ updates (m_P m) j st1 = Ok (x, ox) /\ ck = save_the_checkpoint x).
    { apply in_app_or in H as [H|H].
      - exists O, st1, []. split; [lia|]. split; [reflexivity|]. clear -Ew H.
        unfold write_output, output_data, output_checkpoint in Ew.
        revert Ew. destruct (ext_geb _ (p_save_dt _)); cbn -[ext_geb]; destruct (_ && _); intros Ew; injection Ew as <- <-;
          repeat (destruct H as [H|H]; [try discriminate|]); try contradiction; injection H as <-; reflexivity.
      - destruct (updates_checkpoint_inv _ _ _ _ _ _ Eu H) as (j & x & ox & Hj & Ex & Hc). exists j, x, ox. split; [lia|auto]. }
    destruct K as (j & x & ox & Hj & Ex & ->).
    assert (Er : run_model (G:=G) (GN:=GN) c nb np j = Ok (x, o0 ++ ox)).
    { unfold run_model, new_model. rewrite Ec. cbn [rbind]. rewrite Ew. cbn [rbind m_P m_st]. rewrite Ex. reflexivity. }
    exists x, (o0 ++ ox). pose proof (run_iter _ _ _ _ _ _ Er) as Hi. cbn [c_time_iter save_the_checkpoint]. rewrite Hi.
    split; [lia|]. rewrite Nat2Z.id. auto.
  Qed.

  (** ** C35, C36 *)
  Lemma resumed_run (c : inputs F) nb np k st o ck nb' np2 missing :
    run_model (G:=G) (GN:=GN) c nb np k = Ok (st, o) -> In (Checkpoint ck) o -> fnan (i_save_dt c) = false ->
    exists r np3, resume (GN:=GN) c ck missing nb' np2 = Ok (r, np3) /\ m_finalized r = false /\
      forall n, alike (fun x y => same_point (fst x) (fst y))
        (run_model (G:=G) (GN:=GN) c nb np (Z.to_nat (c_time_iter ck) + n)) (updates (m_P r) n (m_st r)).
  Proof.
    intros E H Hn. destruct (run_checkpoint _ _ _ _ _ _ _ E H) as (x & ox & _ & Ex & ->).
    pose proof Ex as Ei. apply run_model_inv in Ei as (m & np' & st1 & o0 & o1 & Ec & _ & _ & _).
    destruct (resume_related c nb np _ m np' x ox nb' np2 missing Ec Ex Hn) as (r & np3 & Er & HP & Hfin & HR & _).
    exists r, np3. split; [exact Er|]. split; [exact Hfin|]. intros n.
    rewrite (run_model_app c nb np _ n m np' x ox Ec Ex), HP.
    pose proof (updates_alike (m_P m) 0 n _ _ HR) as K.
    destruct (updates (m_P m) n x) as [[a oa]|], (updates (m_P m) n (m_st r)) as [[b ob]|]; cbn in K |- *; tauto.
  Qed.

  Lemma resumed_records (c : inputs F) nb np k st o ck x nb' np2 missing :
    run_model (G:=G) (GN:=GN) c nb np k = Ok (st, o) -> In (Checkpoint ck) o -> fnan (i_save_dt c) = false ->
    c_save_time_since_data ck = Fin x -> fz (ftrunc x) = x ->
    exists r np3 ox, resume (GN:=GN) c ck missing nb' np2 = Ok (r, np3) /\
      rmap snd (run_model (G:=G) (GN:=GN) c nb np (Z.to_nat (c_time_iter ck))) = Ok ox /\
      forall n, alike (fun a b => exists oa, snd a = ox ++ oa /\
          Forall2 (same_record (if missing then c_save_iter ck else 0)) (shown_records oa) (shown_records (snd b)))
        (run_model (G:=G) (GN:=GN) c nb np (Z.to_nat (c_time_iter ck) + n)) (updates (m_P r) n (m_st r)).
  Proof.
    intros E H Hn Hx Hw. destruct (run_checkpoint _ _ _ _ _ _ _ E H) as (y & oy & _ & Ey & ->).
    pose proof Ey as Ei. apply run_model_inv in Ei as (m & np' & st1 & o0 & o1 & Ec & _ & _ & _).
    destruct (resume_related c nb np _ m np' y oy nb' np2 missing Ec Ey Hn) as (r & np3 & Er & HP & Hfin & HR & _ & Hph).
    cbn [c_save_time_since_data save_the_checkpoint] in Hx. destruct (Hph x Hx) as [_ Hph']. specialize (Hph' Hw).
    exists r, np3, oy. split; [exact Er|]. split; [rewrite Ey; reflexivity|]. intros n.
    rewrite (run_model_app c nb np _ n m np' y oy Ec Ey), HP.
    pose proof (updates_alike (m_P m) (if missing then s_save_iter y else 0) n _ _ HR) as K.
    destruct (updates (m_P m) n y) as [[a oa]|], (updates (m_P m) n (m_st r)) as [[b ob]|]; cbn in K |- *; try tauto.
    exists oa. split; [reflexivity|]. apply (proj2 (proj2 K)). exact Hph'.
  Qed.

  Lemma first_checkpoint (c : inputs F) nb np k st o ck nb' np2 missing r np3 st' o' :
    run_model (G:=G) (GN:=GN) c nb np k = Ok (st, o) -> In (Checkpoint ck) o -> fnan (i_save_dt c) = false ->
    resume (GN:=GN) c ck missing nb' np2 = Ok (r, np3) ->
    update (m_P r) (m_st r) = Ok (st', o') ->
    p_save_checkpoint (m_P r) = true -> fnan (p_checkpoint_dt (m_P r)) = false ->
    In (Checkpoint (save_the_checkpoint st')) o'.
  Proof.
    intros E H Hn Er Eu Hs Hd. destruct (run_checkpoint _ _ _ _ _ _ _ E H) as (y & oy & _ & Ey & ->).
    pose proof Ey as Ei. apply run_model_inv in Ei as (m & np' & st1 & o0 & o1 & Ec & _ & _ & _).
    destruct (resume_related c nb np _ m np' y oy nb' np2 missing Ec Ey Hn) as (r' & np3' & Er' & HP & Hfin & HR & Hck & _).
    rewrite Er in Er'. injection Er' as <- <-.
    apply update_since in Eu as (x & _ & Ex & _ & Ew). rewrite Hck in Ex. cbn in Ex.
    unfold write_output, output_data, output_checkpoint in Ew. revert Ew.
    destruct (ext_geb (s_save_time_since_data x) _); cbn -[ext_geb]; rewrite Ex, Hs; cbn [ext_geb]; rewrite Hd; cbn;
      intros Ew; injection Ew as <- <-; cbn; auto.
  Qed.
End Resumed.
