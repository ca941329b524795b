(** Proofs about going on from a checkpoint with another configuration. *)
From Coq Require Import ZArith List Bool Reals Lia Lra.
From Verif Require Import Base SharedSpec Params State Shared Water WaterSpec Sed SedSpec Diffusion RunProofs Iter IterSpec IterProofs Inputs Init
  InitSpec InitProofs Session SessionSpec ResumeProofs SessionProofs AttrProofs Assign AssignSpec AssignProofs QuietSpec
  QuietProofs BranchProofs ScenarioSpec.
Import ListNotations.
Local Open Scope Z_scope.

Section Scenario.
  Context {F : Type} {A : Arith F} {S N : Type} {G : Rng F S} {GN : NpRng N}.

  (** ** The domain of a new model *)
  Lemma process_keeps {T} (f : inputs F -> T) (c c' : inputs F) :
    (forall x c, f (seti_active_layer_thickness x c) = f c) -> (forall x c, f (seti_checkpoint_dt x c) = f c) ->
    process_input_to_model c = Ok c' -> f c' = f c.
  Proof.
    intros K1 K2. rewrite process_chain. intros E.
    repeat match type of E with (if ?b then _ else _) = _ => destruct b; [discriminate|] end.
    apply rbind_Ok in E as (c1 & E1 & E).
    repeat match type of E with (if ?b then _ else _) = _ => destruct b; [discriminate|] end.
    apply okay_inj in E. subst c'. unfold set_checkpoint_dt. rewrite K2.
    unfold set_active_layer_thickness in E1. destruct (i_active_layer_thickness c) as [t|].
    - destruct (fltb t _); [discriminate|]. apply okay_inj in E1. subst c1. apply K1.
    - apply okay_inj in E1. subst c1. apply K1.
  Qed.
  Lemma process_domain (a b c c' : inputs F) : process_input_to_model c = Ok a -> process_input_to_model c' = Ok b ->
    same_domain c c' -> same_domain a b.
  Proof.
    intros E E' [H1 H2 H3 H4 H5 H6]. constructor.
    - rewrite (process_keeps i_Length c' b), (process_keeps i_Length c a); auto.
    - rewrite (process_keeps i_Width c' b), (process_keeps i_Width c a); auto.
    - rewrite (process_keeps i_dx c' b), (process_keeps i_dx c a); auto.
    - rewrite (process_keeps i_L0_meters c' b), (process_keeps i_L0_meters c a); auto.
    - rewrite (process_keeps i_N0_meters c' b), (process_keeps i_N0_meters c a); auto.
    - rewrite (process_keeps i_stepmax c' b), (process_keeps i_stepmax c a); auto.
  Qed.

  (** Constants the domain is made from. *)
  Definition same_plan (P P' : params F) : Prop :=
    p_L P' = p_L P /\ p_W P' = p_W P /\ p_CTR P' = p_CTR P /\ p_L0 P' = p_L0 P /\ p_N0 P' = p_N0 P /\ p_stepmax P' = p_stepmax P.
  Lemma boundary_plan (a b : inputs F) (P P' : params F) : same_domain a b ->
    create_boundary_conditions a (create_other_variables a) = Ok P ->
    create_boundary_conditions b (create_other_variables b) = Ok P' -> same_plan P P'.
  Proof.
    intros [H1 H2 H3 H4 H5 H6] E E'. unfold create_boundary_conditions in E, E'.
    do 8 (apply rbind_Ok in E as (? & _ & E)). apply okay_inj in E.
    do 8 (apply rbind_Ok in E' as (? & _ & E')). apply okay_inj in E'. subst P P'.
    unfold same_plan. cbn. rewrite H1, H2, H3, H4, H5, H6. repeat split; reflexivity.
  Qed.
  Lemma plan_types (P P' : params F) : same_plan P P' -> create_cell_type P' = create_cell_type P.
  Proof.
    intros (H1 & H2 & H3 & H4 & H5 & _). unfold create_cell_type, cell_type_0, outside_radius, channel_col, channel_inds.
    rewrite H1, H2, H3, H4, H5. reflexivity.
  Qed.

  Lemma construct_plan (c c' : inputs F) nb np nb' np2 (m m' : model (F:=F) S) np' np3 :
    construct (G:=G) (GN:=GN) c nb np = Ok (m, np') -> construct (G:=G) (GN:=GN) c' nb' np2 = Ok (m', np3) ->
    same_domain c c' ->
    s_cell_type (m_st m') = s_cell_type (m_st m) /\ s_mod_water_weight (m_st m') = s_mod_water_weight (m_st m) /\
    s_mod_sed_weight (m_st m') = s_mod_sed_weight (m_st m) /\ s_mod_erosion (m_st m') = s_mod_erosion (m_st m) /\
    s_width (m_st m') = s_width (m_st m) /\ p_stepmax (m_P m') = p_stepmax (m_P m).
  Proof.
    unfold construct. intros E E' H.
    apply rbind_Ok in E as (a & Ea & E). apply rbind_Ok in E' as (b & Eb & E').
    destruct (seed_of a np) as (z & K). rewrite K in E. clear K. destruct (seed_of b np2) as (z' & K). rewrite K in E'. clear K.
    apply rbind_Ok in E as (P & E1 & E). apply rbind_Ok in E' as (P' & E1' & E').
    apply rbind_Ok in E as ([P2 st] & E2 & E). apply rbind_Ok in E' as ([P2' st'] & E2' & E').
    apply okay_inj, (f_equal fst) in E. apply okay_inj, (f_equal fst) in E'. cbn [fst] in E, E'. subst m m'. cbn [m_st m_P].
    assert (HD : same_domain (seti_seed (Some z) a) (seti_seed (Some z') b))
      by (destruct (process_domain a b c c' Ea Eb H); constructor; assumption).
    pose proof (boundary_plan _ _ _ _ HD E1 E1') as HP. clear HD E1 E1' Ea Eb H.
    assert (Hsm : forall (i : inputs F) (Q : params F), p_stepmax (init_subsidence i (init_sediment_routers Q)) = p_stepmax Q).
    { intros i Q. unfold init_subsidence, init_sediment_routers. match goal with |- context [if ?b then _ else _] => destruct b end; reflexivity. }
    rewrite !Hsm. clear Hsm.
    unfold create_domain in E2, E2'. destruct (size_indices P <? 0); [discriminate|]. destruct (size_indices P' <? 0); [discriminate|].
    apply okay_inj in E2. apply okay_inj in E2'.
    pose proof (f_equal fst E2) as E3. pose proof (f_equal snd E2) as E4. cbn [fst snd] in E3, E4. clear E2.
    pose proof (f_equal fst E2') as E3'. pose proof (f_equal snd E2') as E4'. cbn [fst snd] in E3', E4'. clear E2'.
    subst P2 P2' st st'. cbn [s_cell_type s_mod_water_weight s_mod_sed_weight s_mod_erosion s_width].
    rewrite (plan_types P P' HP). unfold size_indices. destruct HP as (H1 & H2 & _ & _ & _ & H6). rewrite H1, H2, H6.
    repeat split; try reflexivity. exact H6.
  Qed.

  (** ** Resuming *)
  Lemma load_holds (ck : checkpoint F S) missing (st st' : state F S) :
    load_checkpoint ck missing st = Ok st' -> holds ck st' /\ s_cell_type st' = s_cell_type st /\ s_width st' = s_width st /\
      s_mod_water_weight st' = s_mod_water_weight st /\ s_mod_sed_weight st' = s_mod_sed_weight st /\ s_mod_erosion st' = s_mod_erosion st.
  Proof.
    unfold load_checkpoint. destruct (c_save_time_since_data ck); [discriminate|]. intros E. apply okay_inj in E. subst st'.
    destruct missing; (split; [constructor; repeat split; reflexivity|repeat split; reflexivity]).
  Qed.
  Lemma resume_holds (c : inputs F) (ck : checkpoint F S) missing nb np (r : model (F:=F) S) np' :
    resume (GN:=GN) c ck missing nb np = Ok (r, np') ->
    exists m, construct (G:=G) (GN:=GN) c nb np = Ok (m, np') /\ m_P r = m_P m /\ m_in r = m_in m /\ m_finalized r = false /\
      holds ck (m_st r) /\ s_cell_type (m_st r) = s_cell_type (m_st m).
  Proof.
    intros E. apply resume_inv in E as (m & E & H1 & H2 & H3 & H4). exists m. apply load_holds in H4 as (H4 & H5 & _).
    rewrite H3, (construct_open _ _ _ _ _ E). auto 10.
  Qed.

  Lemma resume_elsewhere (c c' : inputs F) nb np j (m m' : model (F:=F) S) np' nb' np2 np3 x ox k t missing :
    construct (G:=G) (GN:=GN) c nb np = Ok (m, np') -> run_model (G:=G) (GN:=GN) c nb np j = Ok (x, ox) ->
    construct (G:=G) (GN:=GN) c' nb' np2 = Ok (m', np3) -> same_domain c c' ->
    exists r, resume (GN:=GN) c' (save_the_checkpoint (recount k t x)) missing nb' np2 = Ok (r, np3) /\
      m_P r = m_P m' /\ m_in r = m_in m' /\ m_finalized r = false /\ related (m_P m') x (m_st r).
  Proof.
    intros E1 E2 E3 HS. destruct (run_reached c nb np j m np' x ox E1 E2) as [[H1 (H2 & H3 & H4) H5] _].
    destruct (construct_plan _ _ _ _ _ _ _ _ _ _ E1 E3 HS) as (K1 & K2 & K3 & K4 & K5 & K6).
    assert (HD : descends (m_P m') (m_st m') (recount k t x)).
    { constructor; [rewrite K1; exact H1|rewrite K2, K3, K4; auto|].
      unfold wider in *. rewrite K5, K6. exact H5. }
    pose proof (construct_fresh c' nb' np2 m' np3 E3) as (_ & _ & _ & _ & _ & Hw & _).
    destruct (load_checkpoint (save_the_checkpoint (recount k t x)) missing (m_st m')) as [st'|] eqn:El; [|discriminate].
    exists (mkModel (m_in m') (m_P m') st' (m_finalized m')).
    split. { unfold resume. rewrite E3. cbn [rbind]. rewrite El. reflexivity. }
    cbn [m_P m_in m_st m_finalized]. split; [reflexivity|]. split; [reflexivity|]. split; [eapply construct_open; eauto|].
    assert (El' : load_checkpoint (save_the_checkpoint (recount k t x)) missing (set_rng (s_rng (m_st m')) (m_st m')) = Ok st')
      by (rewrite <- El; f_equal; destruct (m_st m'); reflexivity).
    pose proof (load_related (m_P m') (m_st m') (recount k t x) (s_rng (m_st m')) missing st' HD Hw El') as [Hr1 Hr2].
    split; [exact Hr1|exact Hr2].
  Qed.

  Lemma related_goes_on (P : params F) (x : state F S) (r : model (F:=F) S) : m_P r = P -> related P x (m_st r) -> goes_on P x r.
  Proof.
    intros HP H n. rewrite HP. pose proof (updates_alike P 0 n _ _ H) as K.
    destruct (updates P n x), (updates P n (m_st r)); cbn in *; tauto.
  Qed.

  Lemma checkpoint_point (c : inputs F) nb np k st o ck : run_model (G:=G) (GN:=GN) c nb np k = Ok (st, o) ->
    In (Checkpoint ck) o -> fnan (i_save_dt c) = false ->
    exists m np' x ox t, construct (G:=G) (GN:=GN) c nb np = Ok (m, np') /\
      run_model (G:=G) (GN:=GN) c nb np (Z.to_nat (c_time_iter ck)) = Ok (x, ox) /\
      ck = save_the_checkpoint (recount (s_save_iter x) t x).
  Proof.
    intros E Hin Hn. destruct (run_checkpoint c nb np k st o ck E Hin) as (x & ox & _ & Ex & Hck).
    pose proof Ex as Ex'. apply run_model_inv in Ex' as (m & np' & _ & _ & _ & Ec & _).
    destruct (run_reached c nb np _ m np' x ox Ec Ex) as [_ HF]. destruct (HF Hn) as [t Ht].
    exists m, np', x, ox, t. split; [exact Ec|]. split; [exact Ex|]. rewrite Hck. unfold recount. rewrite <- Ht.
    destruct x; reflexivity.
  Qed.

  (** ** Settings that act at once *)
  Lemma configured_domain (ch : change F) (c : inputs F) : acts_at_once ch c -> same_domain c (configured ch c).
  Proof. destruct ch; intros H; try contradiction; constructor; reflexivity. Qed.

  (** The states of a run are those of a model in use. *)
  Lemma updates_snoc (P : params F) n : forall (a : state F S), updates P (Datatypes.S n) a =
    do (b, o) <- updates P n a; do (c, o') <- update P b; Ok (c, o ++ o').
  Proof.
    intros a. replace (Datatypes.S n) with (n + 1)%nat by lia. rewrite updates_app.
    destruct (updates P n a) as [[b o]|]; [|reflexivity]. cbn [rbind updates].
    destruct (update P b) as [[d o']|]; [|reflexivity]. cbn [rbind]. rewrite app_nil_r. reflexivity.
  Qed.
  Lemma run_in_use (c : inputs F) nb np (m : model (F:=F) S) np' : construct (G:=G) (GN:=GN) c nb np = Ok (m, np') ->
    forall j x ox, run_model (G:=G) (GN:=GN) c nb np j = Ok (x, ox) ->
    exists m1, in_use (G:=G) (GN:=GN) c nb np m1 /\ m_st m1 = x /\ m_P m1 = m_P m /\ m_in m1 = m_in m /\ m_finalized m1 = false.
  Proof.
    intros Ec. induction j as [|j IH]; intros x ox E.
    - pose proof E as E'. unfold run_model in E. apply rbind_Ok in E as ([[m1 o1] np1] & E1 & E). cbn in E.
      apply okay_inj, (f_equal fst) in E. cbn [fst] in E. exists m1. split; [eapply in_use_new; exact E1|].
      apply new_model_inv in E1 as (m0 & E1 & HP & HI & Hf). rewrite Ec in E1. apply okay_inj, (f_equal fst) in E1. cbn [fst] in E1. subst m0.
      split; [exact E|]. split; [exact HP|]. split; [exact HI|]. apply Hf.
    - pose proof E as E'. unfold run_model in E. apply rbind_Ok in E as ([[m1 o1] np1] & E1 & E).
      apply rbind_Ok in E as ([y oy] & Ey & E). apply okay_inj, (f_equal fst) in E. cbn [fst] in E. subst y.
      rewrite updates_snoc in Ey. apply rbind_Ok in Ey as ([y oy'] & Ey & Eu). apply rbind_Ok in Eu as ([z oz] & Eu & Ez).
      apply okay_inj in Ez. pose proof (f_equal fst Ez) as Ez1. cbn [fst] in Ez1. subst z.
      destruct (IH y (o1 ++ oy')) as (m2 & U2 & S2 & P2 & I2 & F2).
      { unfold run_model. rewrite E1. cbn [rbind]. rewrite Ey. reflexivity. }
      apply new_model_inv in E1 as (m0 & E1 & HP & HI & Hf). rewrite Ec in E1. apply okay_inj, (f_equal fst) in E1. cbn [fst] in E1. subst m0.
      exists (mkModel (m_in m2) (m_P m2) x (m_finalized m2)). split.
      + eapply in_use_update; [exact U2|]. unfold model_update. rewrite F2, S2, P2, <- HP, Eu. reflexivity.
      + cbn. auto.
  Qed.

  Lemma in_use_run (c : inputs F) nb np (m : model (F:=F) S) : in_use (G:=G) (GN:=GN) c nb np m ->
    exists j ox, run_model (G:=G) (GN:=GN) c nb np j = Ok (m_st m, ox).
  Proof.
    induction 1 as [m o np' E|m m' o H IH E].
    - exists O, (o ++ []). unfold run_model. rewrite E. reflexivity.
    - destruct IH as (j & ox & IH). exists (Datatypes.S j).
      destruct (in_use_made _ _ _ _ H) as (m0 & np' & E0 & _ & HP).
      apply AttrProofs.model_update_inv in E as (_ & _ & _ & _ & E).
      unfold run_model in IH |- *. apply rbind_Ok in IH as ([[m1 o1] np1] & E1 & IH). rewrite E1. cbn [rbind].
      apply rbind_Ok in IH as ([y oy] & Ey & IH). apply okay_inj, (f_equal fst) in IH. cbn [fst] in IH. subst y.
      rewrite updates_snoc, Ey. cbn [rbind].
      apply new_model_inv in E1 as (m2 & E1 & HP1 & _). rewrite E0 in E1. apply okay_inj, (f_equal fst) in E1. cbn [fst] in E1. subst m2.
      rewrite HP1, <- HP. rewrite E. cbn [rbind]. eexists. reflexivity.
  Qed.

  Lemma as_assigned (ch : change F) (c : inputs F) nb np nb' np' (m m1 : model (F:=F) S) missing :
    in_use (G:=G) (GN:=GN) c nb np m -> fnan (i_save_dt c) = false -> acts_at_once ch c -> apply_change ch m = Ok m1 ->
    exists r np2, resume (GN:=GN) (configured ch c) (save_the_checkpoint (m_st m)) missing nb' np' = Ok (r, np2) /\
      goes_on (m_P m1) (m_st m1) r.
  Proof.
    intros HU Hn Ha E. destruct (in_use_made _ _ _ _ HU) as (m0 & np0 & E0 & HI & HP).
    destruct (in_use_run _ _ _ _ HU) as (j & ox & Er).
    destruct (run_reached c nb np j m0 np0 (m_st m) ox E0 Er) as [_ HF]. destruct (HF Hn) as [t Ht].
    destruct (construct_acts ch c nb np m0 m m1 np0 Ha E0 HI HP E) as (m2 & E2 & K1 & K2 & _).
    destruct (construct_other _ _ _ _ _ E2) as [_ HC]. destruct (HC nb' np') as (m3 & np3 & s & E3 & HP3 & _).
    destruct (resume_elsewhere c (configured ch c) nb np j m0 m3 np0 nb' np' np3 (m_st m) ox (s_save_iter (m_st m)) t missing E0 Er E3 (configured_domain ch c Ha))
      as (r & Erm & R1 & R2 & _ & R4).
    exists r, np3. split.
    - rewrite <- Erm. f_equal. f_equal. unfold recount. rewrite <- Ht. destruct (m_st m); reflexivity.
    - destruct (apply_state _ _ _ E) as [Hs _]. rewrite Hs, <- K1, <- HP3. apply related_goes_on; [exact R1|exact R4].
  Qed.

  (** ** Settings that do not matter *)
  Lemma quiet_point (a b d : state F S) : same_but_counters a b -> same_point b d -> same_point a d.
  Proof.
    intros H [H1 H2 H3 H4 H5 H6 H7 H8 H9].
    pose proof (f_equal s_eta H) as E1. pose proof (f_equal s_stage H) as E2. pose proof (f_equal s_depth H) as E3.
    pose proof (f_equal s_ux H) as E4. pose proof (f_equal s_uy H) as E5. pose proof (f_equal s_uw H) as E6.
    pose proof (f_equal s_qx H) as E7. pose proof (f_equal s_qy H) as E8. pose proof (f_equal s_qw H) as E9.
    pose proof (f_equal s_sand_frac H) as E10. pose proof (f_equal s_active_layer H) as E11. pose proof (f_equal s_H_SL H) as E12.
    pose proof (f_equal s_time H) as E13. pose proof (f_equal s_time_iter H) as E14. pose proof (f_equal s_rng H) as E15.
    clear H. cbn in *. constructor; rewrite ?E1, ?E2, ?E3, ?E4, ?E5, ?E6, ?E7, ?E8, ?E9, ?E10, ?E11, ?E12, ?E13, ?E14, ?E15; assumption.
  Qed.
  Lemma process_seed z (c : inputs F) : process_input_to_model (seti_seed z c) = rmap (seti_seed z) (process_input_to_model c).
  Proof.
    rewrite !process_chain. cbn [i_Length i_Width i_dx i_L0_meters i_itermax i_Np_water i_N0_meters i_Np_sed i_f_bedload seti_seed i_active_layer_thickness].
    repeat match goal with |- (if ?b then _ else _) = _ => destruct b; [reflexivity|] end.
    unfold set_active_layer_thickness. cbn [i_h0 seti_seed].
    destruct (i_active_layer_thickness c) as [t|]; [destruct (fltb t (fz 0)); [reflexivity|]|]; cbn [rbind];
    change (i_C0_percent (seti_active_layer_thickness _ (seti_seed z c))) with (i_C0_percent c);
    change (i_Csmooth (seti_active_layer_thickness _ (seti_seed z c))) with (i_Csmooth c);
    change (i_C0_percent (seti_active_layer_thickness _ c)) with (i_C0_percent c);
    change (i_Csmooth (seti_active_layer_thickness _ c)) with (i_Csmooth c);
    repeat match goal with |- (if ?b then _ else _) = _ => destruct b; [reflexivity|] end; reflexivity.
  Qed.
  Lemma construct_seed z (c : inputs F) nb np (m : model (F:=F) S) np' nb' np2 : construct (G:=G) (GN:=GN) c nb np = Ok (m, np') ->
    exists m2 np3, construct (G:=G) (GN:=GN) (seti_seed z c) nb' np2 = Ok (m2, np3) /\ m_P m2 = m_P m.
  Proof.
    unfold construct. intros E. apply rbind_Ok in E as (c' & E1 & E). rewrite process_seed, E1. cbn [rmap rbind].
    destruct (seed_of c' np) as (u & K). rewrite K in E. clear K. destruct (seed_of (seti_seed z c') np2) as (v & K). rewrite K. clear K.
    apply rbind_Ok in E as (P & E2 & E). apply rbind_Ok in E as ([P' st] & E3 & E). apply okay_inj, (f_equal fst) in E. cbn [fst] in E. subst m.
    change (seti_seed (Some v) (seti_seed z c')) with (seti_seed (Some v) c').
    change (create_boundary_conditions (seti_seed (Some v) c') (create_other_variables (seti_seed (Some v) c')))
      with (create_boundary_conditions (seti_seed (Some u) c') (create_other_variables (seti_seed (Some u) c'))).
    rewrite E2. cbn [rbind]. clear E2.
    pose proof (domain_rng (seti_seed (Some u) c') (Some v) P (seed_rng u) (seed_rng v)) as K.
    change (seti_seed (Some v) (seti_seed (Some u) c')) with (seti_seed (Some v) c') in K. rewrite E3 in K. cbn [rmap] in K.
    rewrite K. cbn [rbind]. eexists. eexists. split; [reflexivity|]. reflexivity.
  Qed.
  Lemma immaterial (c c' : inputs F) z nb np k st o ck nb' np2 missing : run_model (G:=G) (GN:=GN) c nb np k = Ok (st, o) ->
    In (Checkpoint ck) o -> fnan (i_save_dt c) = false -> same_inputs (seti_seed z c) c' ->
    exists r np3, resume (GN:=GN) c' ck missing nb' np2 = Ok (r, np3) /\
      forall n, alike (fun a b => same_point (fst a) (fst b))
        (run_model (G:=G) (GN:=GN) c nb np (Z.to_nat (c_time_iter ck) + n)) (updates (m_P r) n (m_st r)).
  Proof.
    intros E Hin Hn HS. destruct (checkpoint_point c nb np k st o ck E Hin Hn) as (m & np' & x & ox & t & E0 & Ex & Hck).
    destruct (construct_seed z c nb np m np' nb' np2 E0) as (m2 & np3 & E2 & HP2).
    pose proof (construct_quiet (seti_seed z c) c' nb' np2 HS) as K. rewrite E2 in K.
    destruct (construct (G:=G) (GN:=GN) c' nb' np2) as [[m3 np4]|] eqn:E3; [|destruct K]. destruct K as [K _]. cbn [fst] in K.
    assert (HD : same_domain c c').
    { clear -HS. unfold same_inputs in HS. rewrite HS. constructor; reflexivity. }
    rewrite Hck. rewrite Hck in Ex. cbn [c_time_iter save_the_checkpoint] in *.
    destruct (resume_elsewhere c c' nb np _ m m3 np' nb' np2 np4 x ox (s_save_iter x) t missing E0 Ex E3 HD) as (r & Er & R1 & R2 & _ & R4).
    exists r, np4. split; [exact Er|]. intros n.
    rewrite (run_model_app c nb np _ n m np' x ox E0 Ex).
    pose proof (related_goes_on _ _ _ R1 R4 n) as Kn.
    assert (HC : same_constants (m_P m) (m_P m3)) by (rewrite <- HP2; apply K).
    pose proof (updates_quiet (m_P m) (m_P m3) n x x HC eq_refl) as Q.
    destruct (updates (m_P m) n x) as [[a oa]|], (updates (m_P m3) n x) as [[b ob]|]; cbn in Q; try contradiction;
      destruct (updates (m_P r) n (m_st r)) as [[d od]|]; cbn in Kn |- *; try contradiction.
    - eapply quiet_point; [exact Q|exact Kn].
    - congruence.
  Qed.
End Scenario.

(** ** Never fails *)
Section Total.
  Context {S N : Type} {G : Rng R S} {GN : NpRng N}.
  Notation XA := (RA (fun x => x)).

  Lemma resumed_total (c : inputs R) (ck : checkpoint R S) missing nb np t n :
    runnable c -> uniform_range G -> (forall s : S, (0 < fst (draw s))%R) -> c_save_time_since_data ck = Fin t ->
    exists r np' st o, resume (A:=XA) (GN:=GN) c ck missing nb np = Ok (r, np') /\ updates (A:=XA) (m_P r) n (m_st r) = Ok (st, o).
  Proof.
    intros HR HG Hu Ht. destruct (runnable_ready (G:=G) (GN:=GN) c nb np HR) as (m & np' & E & HW & HS & HV).
    destruct (load_checkpoint (A:=XA) ck missing (m_st m)) as [st'|] eqn:El.
    2:{ unfold load_checkpoint in El. rewrite Ht in El. discriminate. }
    destruct (load_holds _ _ _ _ El) as (_ & Hc & Hw & _).
    assert (HM : model_ready (m_P m) st').
    { split; [destruct HW; constructor; rewrite ?Hc, ?Hw; auto|]. split; [apply (sed_ready_frame (m_P m) (m_st m)); auto|exact HV]. }
    destruct (updates_total (m_P m) n st' HM HG Hu) as (st & o & Eu & _).
    exists (mkModel (m_in m) (m_P m) st' (m_finalized m)), np', st, o.
    split; [unfold resume; rewrite E; cbn [rbind]; rewrite El; reflexivity|exact Eu].
  Qed.
End Total.
