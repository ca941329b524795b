(** Proofs about assignments to a model in use. *)
From Coq Require Import ZArith List Bool Reals Lra Lia.
From Flocq Require Import Core.
From Verif Require Import Base RLemmas Params State Inputs Iter Init InitSpec RunProofs InitProofs Session SessionSpec SessionProofs AttrProofs MirrorFlow Assign AssignSpec.
Import ListNotations.

Section Generic.
  Context {F : Type} {A : Arith F} {S N : Type} {G : Rng F S} {GN : NpRng N}.

  Lemma apply_state : forall ch (m m1 : model (F:=F) S), apply_change ch m = Ok m1 ->
    m_st m1 = m_st m /\ m_finalized m1 = m_finalized m.
  Proof.
    intros ch m m1 E. destruct ch; unfold apply_change, stored in E; cbv zeta in E;
      try (apply rbind_Ok in E as (inp & E0 & E)); apply Ok_inj in E; subst m1; split; reflexivity.
  Qed.

  Lemma apply_ignored : forall ch (m m1 : model (F:=F) S), used_when_made ch -> apply_change ch m = Ok m1 -> m_P m1 = m_P m.
  Proof.
    intros ch m m1 H E. destruct ch; try contradiction; unfold apply_change, stored in E; cbv zeta in E;
      try (apply rbind_Ok in E as (inp & E0 & E)); apply Ok_inj in E; subst m1; reflexivity.
  Qed.

  (** The parts of an assignment that acts at once. *)
  Definition new_in (ch : change F) (inp : inputs F) : inputs F :=
    match ch with
    | To_active_layer_thickness None => seti_active_layer_thickness (Some (fdiv (i_h0 inp) (fz 2))) inp
    | To_checkpoint_dt x => set_checkpoint_dt x inp
    | _ => configured ch inp
    end.
  Definition new_P (ch : change F) (inp : inputs F) (P : params F) : params F :=
    match ch with
    | To_Csmooth x => setp_Csmooth x P | To_Nsmooth n => setp_Nsmooth n P
    | To_omega_sfc x => setp_omega_sfc x P | To_omega_flow x => setp_omega_flow x P
    | To_SLR x => setp_SLR x P | To_start_subsidence x => setp_start_subsidence x P
    | To_active_layer_thickness x => setp_active_layer_thickness (some_or (fdiv (i_h0 inp) (fz 2)) x) P
    | To_save_dt x => setp_save_dt x P | To_checkpoint_dt x => setp_checkpoint_dt (some_or (i_save_dt inp) x) P
    | To_save_checkpoint b => setp_save_checkpoint b P | To_sand_frac_bc x => setp_sand_frac_bc x P
    | _ => P
    end.

  Lemma apply_parts : forall ch c (m m1 : model (F:=F) S), acts_at_once ch c -> apply_change ch m = Ok m1 ->
    m_in m1 = new_in ch (m_in m) /\ m_P m1 = new_P ch (m_in m) (m_P m).
  Proof.
    intros ch c m m1 H E. destruct ch; try contradiction; unfold apply_change, stored in E; cbv zeta in E;
      try (apply rbind_Ok in E as (inp & E0 & E)); apply Ok_inj in E; subst m1; try (split; reflexivity).
    - unfold set_Csmooth in E0. destruct (fltb x (fz 0)); [discriminate|]. apply Ok_inj in E0. subst inp. split; reflexivity.
    - unfold set_active_layer_thickness in E0. destruct x as [t|].
      + destruct (fltb t (fz 0)); [discriminate|]. apply Ok_inj in E0. subst inp. split; reflexivity.
      + apply Ok_inj in E0. subst inp. split; reflexivity.
  Qed.

  Lemma other_acts : forall ch c, acts_at_once ch c ->
    create_other_variables (new_in ch c) = new_P ch c (create_other_variables c).
  Proof.
    intros ch c H. destruct ch; try contradiction; try reflexivity; try (destruct x; reflexivity).
    cbn [acts_at_once] in H. unfold create_other_variables, new_in, new_P, configured. cbn. destruct (i_checkpoint_dt c); [reflexivity|contradiction].
  Qed.
  Lemma boundary_acts : forall ch c c' P, acts_at_once ch c' ->
    create_boundary_conditions (new_in ch c) (new_P ch c P) = rmap (new_P ch c) (create_boundary_conditions c P).
  Proof.
    intros ch c c' P H. destruct ch; try contradiction; try (destruct x as [x|]); unfold create_boundary_conditions; cbn;
    repeat match goal with |- context [pydiv ?a ?b] => destruct (pydiv a b); cbn; [|reflexivity] end.
    all: try (destruct P; vm_compute; reflexivity).
  Qed.
  Lemma domain_acts : forall ch c c' P (s : S) P2 st, acts_at_once ch c' -> create_domain c P s = Ok (P2, st) ->
    exists st', create_domain (new_in ch c) (new_P ch c P) s = Ok (new_P ch c P2, st') /\
      (match ch with To_sand_frac_bc _ => True | _ => st' = st end).
  Proof.
    intros ch c c' P s P2 st H E. unfold create_domain in E.
    destruct (size_indices P <? 0)%Z eqn:Ez; [discriminate|]. apply Ok_inj in E.
    apply (f_equal fst) in E as E1. apply (f_equal snd) in E as E2. cbn [fst snd] in E1, E2. subst P2 st. clear E.
    assert (Hz : (size_indices (new_P ch c P) <? 0)%Z = false).
    { rewrite <- Ez. destruct ch; try contradiction; reflexivity. }
    unfold create_domain. rewrite Hz. eexists. split.
    - f_equal. f_equal. destruct ch; try contradiction; try (destruct x as [x|]); reflexivity.
    - destruct ch; try contradiction; try (destruct x as [x|]); try exact I; reflexivity.
  Qed.
  Lemma routers_acts : forall ch c c' P, acts_at_once ch c' ->
    init_sediment_routers (new_P ch c P) = new_P ch c (init_sediment_routers P).
  Proof. intros ch c c' P H. destruct ch; try contradiction; try (destruct x as [x|]); reflexivity. Qed.
  Lemma subsidence_acts : forall ch c c' P, acts_at_once ch c' ->
    init_subsidence (new_in ch c) (new_P ch c P) = new_P ch c (init_subsidence c P).
  Proof.
    intros ch c c' P H. unfold init_subsidence.
    assert (Ht : p_toggle_subsidence (new_P ch c P) = p_toggle_subsidence P) by (destruct ch; try contradiction; reflexivity).
    rewrite Ht. destruct (p_toggle_subsidence P); [|reflexivity].
    destruct ch; try contradiction; try (destruct x as [x|]); reflexivity.
  Qed.
  Lemma process_parts : forall c c' : inputs F, process_input_to_model c = Ok c' ->
    c' = set_checkpoint_dt (i_checkpoint_dt c)
           (seti_active_layer_thickness (Some (some_or (fdiv (i_h0 c) (fz 2)) (i_active_layer_thickness c))) c) /\
    i_checkpoint_dt c' <> None.
  Proof.
    intros c c' E. rewrite process_chain in E.
    repeat match type of E with (if ?b then _ else _) = _ => destruct b; [discriminate|] end.
    apply rbind_Ok in E as (c1 & E1 & E). repeat match type of E with (if ?b then _ else _) = _ => destruct b; [discriminate|] end.
    apply Ok_inj in E. subst c'. unfold set_active_layer_thickness in E1. destruct (i_active_layer_thickness c).
    - destruct (fltb f (fz 0)); [discriminate|]. apply Ok_inj in E1. subst c1. split; [reflexivity|discriminate].
    - apply Ok_inj in E1. subst c1. split; [reflexivity|discriminate].
  Qed.
  Definition value_ok (ch : change F) : Prop :=
    match ch with
    | To_Csmooth x => fltb x (fz 0) = false
    | To_active_layer_thickness (Some t) => fltb t (fz 0) = false
    | _ => True
    end.
  Lemma apply_ok : forall ch c (m m1 : model (F:=F) S), acts_at_once ch c -> apply_change ch m = Ok m1 -> value_ok ch.
  Proof.
    intros ch c m m1 H E. destruct ch; try exact I; try contradiction; unfold apply_change in E; cbv zeta in E;
      apply rbind_Ok in E as (inp & E0 & E).
    - unfold set_Csmooth in E0. cbn. destruct (fltb x (fz 0)); [discriminate|reflexivity].
    - destruct x as [t|]; [|exact I]. cbn in *. destruct (fltb t (fz 0)); [discriminate|reflexivity].
  Qed.
  Lemma process_acts : forall ch c c', acts_at_once ch c -> value_ok ch -> process_input_to_model c = Ok c' ->
    process_input_to_model (configured ch c) = Ok (new_in ch c').
  Proof.
    intros ch c c' H V E. pose proof (proj1 (process_parts c c' E)) as K. rewrite process_chain in E |- *.
    destruct ch; try contradiction; unfold configured in *; cbn in V |- *; cbn in E;
    repeat match type of E with (if ?b then _ else _) = _ => destruct b; [discriminate|] end;
    apply rbind_Ok in E as (c1 & E1 & E);
    repeat match type of E with (if ?b then _ else _) = _ => destruct b eqn:?; [discriminate|] end.
    all: unfold set_active_layer_thickness in *; destruct (i_active_layer_thickness c) as [y|] eqn:Ey;
         [destruct (fltb y (fz 0)) eqn:?; [discriminate|]|];
         apply Ok_inj in E1; subst c1; subst c'; cbn in *.
    all: try (rewrite V). all: cbn.
    all: try (destruct x as [x|]; cbn in *; try rewrite V; cbn).
    all: repeat match goal with K : ?b = false |- context [if ?b then _ else _] => rewrite K; cbn end.
    all: try reflexivity.
    all: try (destruct (i_checkpoint_dt c); [reflexivity|exfalso; apply H; reflexivity]).
  Qed.
  (** Making the model with the value in the configuration. *)
  Lemma construct_acts : forall ch c nb np (m0 m m1 : model (F:=F) S) np', acts_at_once ch c ->
    construct (G:=G) (GN:=GN) c nb np = Ok (m0, np') -> m_in m = m_in m0 -> m_P m = m_P m0 ->
    apply_change ch m = Ok m1 ->
    exists m2, construct (G:=G) (GN:=GN) (configured ch c) nb np = Ok (m2, np') /\ m_P m2 = m_P m1 /\ m_in m2 = m_in m1 /\
      (match ch with To_sand_frac_bc _ => True | _ => m_st m2 = m_st m0 end).
  Proof.
    intros ch c nb np m0 m m1 np' Ha E Hi HP E1.
    pose proof (apply_ok _ _ _ _ Ha E1) as Hv. destruct (apply_parts _ _ _ _ Ha E1) as [K1 K2]. rewrite Hi, HP in K2. rewrite Hi in K1.
    unfold construct in E |- *. apply rbind_Ok in E as (c' & Ep & E).
    rewrite (process_acts _ _ _ Ha Hv Ep). cbn [rbind].
    destruct (determine_random_seed (G:=G) c' np) as [[c'' s] np2] eqn:Es.
    assert (Es' : determine_random_seed (G:=G) (new_in ch c') np = (new_in ch c'', s, np2)).
    { unfold determine_random_seed in Es |- *.
      assert (Hs : i_seed (new_in ch c') = i_seed c') by (destruct ch; try contradiction; try (destruct x as [x|]); reflexivity).
      rewrite Hs. destruct (i_seed c').
      - injection Es as <- <- <-. reflexivity.
      - destruct (randint np) as [z np3]. injection Es as <- <- <-. f_equal. f_equal.
        destruct ch; try contradiction; try (destruct x as [x|]); reflexivity. }
    rewrite Es'.
    assert (Ha2 : acts_at_once ch c'').
    { destruct ch; try exact Ha. cbn in *. destruct (process_parts _ _ Ep) as [_ K].
      unfold determine_random_seed in Es. destruct (i_seed c'); [injection Es as <- _ _; exact K|].
      destruct (randint np). injection Es as <- _ _. exact K. }
    apply rbind_Ok in E as (P & Eb & E). apply rbind_Ok in E as ([P2 st] & Ed & E). apply Ok_inj in E.
    apply (f_equal fst) in E as E2. apply (f_equal snd) in E as E3. cbn [fst snd] in E2, E3. subst m0 np'. cbn [m_in m_P m_st] in *.
    rewrite (other_acts _ _ Ha2), (boundary_acts _ _ _ _ Ha2), Eb. cbn [rmap rbind].
    destruct (domain_acts _ _ _ _ _ _ _ Ha2 Ed) as (st' & Ed' & Hst). rewrite Ed'. cbn [rbind].
    eexists. split; [reflexivity|]. cbn [m_P m_in m_st].
    rewrite (routers_acts _ _ _ _ Ha2), (subsidence_acts _ _ _ _ Ha2), K1, K2. split; [reflexivity|]. split; [reflexivity|exact Hst].
  Qed.
End Generic.

Section InUse.
  Context {F : Type} {A : Arith F} {S N : Type} {G : Rng F S} {GN : NpRng N}.

  Lemma in_use_made c nb np (m : model (F:=F) S) : in_use (G:=G) (GN:=GN) c nb np m ->
    exists m0 np', construct (G:=G) (GN:=GN) c nb np = Ok (m0, np') /\ m_in m = m_in m0 /\ m_P m = m_P m0.
  Proof.
    induction 1 as [m o np' E|m m' o H IH E].
    - apply new_model_inv in E as (m0 & E & HP & HI & _). eauto.
    - destruct IH as (m0 & np' & E0 & HI & HP). apply AttrProofs.model_update_inv in E as (_ & EP & EI & _).
      exists m0, np'. rewrite EP, EI. auto.
  Qed.

  Lemma acts_as_configured ch c nb np (m m1 : model (F:=F) S) :
    in_use (G:=G) (GN:=GN) c nb np m -> acts_at_once ch c -> apply_change ch m = Ok m1 ->
    exists m2 o np', new_model (G:=G) (GN:=GN) (configured ch c) nb np = Ok (m2, o, np') /\
      m_in m1 = m_in m2 /\ m_st m1 = m_st m /\
      forall n, updates (m_P m1) n (m_st m1) = updates (m_P m2) n (m_st m).
  Proof.
    intros HU Ha E. destruct (in_use_made _ _ _ _ HU) as (m0 & np' & E0 & HI & HP).
    destruct (construct_acts ch c nb np m0 m m1 np' Ha E0 HI HP E) as (m2 & E2 & K1 & K2 & _).
    destruct (apply_state _ _ _ E) as [Hs _].
    destruct (write_output (m_P m2) (m_st m2)) as [st o] eqn:Ew.
    exists (mkModel (m_in m2) (m_P m2) st false), o, np'.
    split; [unfold new_model; rewrite E2; cbn [rbind]; rewrite Ew; reflexivity|].
    cbn [m_in m_P m_st]. rewrite Hs, K1, K2. auto.
  Qed.

  Lemma construct_open c nb np (m : model (F:=F) S) np' : construct (G:=G) (GN:=GN) c nb np = Ok (m, np') -> m_finalized m = false.
  Proof.
    unfold construct. intros E. apply rbind_Ok in E as (c' & _ & E). destruct (determine_random_seed c' np) as [[? ?] ?].
    apply rbind_Ok in E as (P & _ & E). apply rbind_Ok in E as ([P2 st] & _ & E).
    apply Ok_inj in E. apply (f_equal fst) in E. cbn [fst] in E. subst m. reflexivity.
  Qed.

  Lemma before_first ch c nb np (m m1 : model (F:=F) S) np' :
    construct (G:=G) (GN:=GN) c nb np = Ok (m, np') -> acts_at_once ch c -> (forall x, ch <> To_sand_frac_bc x) ->
    apply_change ch m = Ok m1 -> construct (G:=G) (GN:=GN) (configured ch c) nb np = Ok (m1, np').
  Proof.
    intros E0 Ha Hn E. destruct (construct_acts ch c nb np m m m1 np' Ha E0 eq_refl eq_refl E) as (m2 & E2 & K1 & K2 & K3).
    rewrite E2. f_equal. f_equal. destruct (apply_state _ _ _ E) as [Hs Hf].
    pose proof (construct_open _ _ _ _ _ E0) as F0. pose proof (construct_open _ _ _ _ _ E2) as F2.
    assert (K4 : m_st m2 = m_st m) by (destruct ch; try exact K3; exfalso; eapply Hn; reflexivity).
    destruct m1, m2; cbn in *. congruence.
  Qed.

  Lemma change_settled ch (m m1 : model (F:=F) S) : apply_change ch m = Ok m1 -> settled (m_P m) (m_P m1).
  Proof.
    intros E. destruct ch; unfold apply_change, stored in E; cbv zeta in E;
      try (apply rbind_Ok in E as (inp & E0 & E)); apply Ok_inj in E; subst m1; repeat split; reflexivity.
  Qed.
  Lemma untouched_settled : forall (P P' : params F),
    (forall T (f : params F -> T), untouched f -> f P' = f P) -> settled P P'.
  Proof. intros P P' H. repeat split; apply H; repeat split; reflexivity. Qed.
  Lemma later_settled s x (m m1 : model (F:=F) S) : assign_later s x m = Ok m1 -> settled (m_P m) (m_P m1).
  Proof.
    intros E. unfold assign_later in E. apply rbind_Ok in E as (m' & E0 & E). apply Ok_inj in E.
    assert (K : settled (m_P m) (m_P m')) by (apply untouched_settled; intros; eapply assign_untouched; eauto).
    destruct s; subst m1; exact K.
  Qed.
  Lemma handled_settled (m m' : model (F:=F) S) : handled (G:=G) m m' -> settled (m_P m) (m_P m').
  Proof.
    induction 1 as [m|m m1 m2 o H IH E|ch m m1 m2 H IH E|s x m m1 m2 H IH E].
    - repeat split.
    - apply AttrProofs.model_update_inv in E as (_ & EP & _). rewrite EP. exact IH.
    - apply change_settled in E. unfold settled in *. intuition congruence.
    - apply later_settled in E. unfold settled in *. intuition congruence.
  Qed.
End InUse.

Section Exact.
  Local Open Scope R_scope.
  Notation XA := (RA (fun x => x)).
  Context {S : Type}.

  Lemma change_refused (ch : change R) (m : model (F:=R) S) :
    (in_range ch -> exists m1, apply_change (A:=XA) ch m = Ok m1) /\
    (~ in_range ch -> apply_change (A:=XA) ch m = Err ValueError).
  Proof.
    destruct ch; try (split; [intros _; eexists; reflexivity|intros H; exfalso; apply H; exact I]);
      unfold apply_change; cbv zeta; cbn [in_range].
    - unfold set_Csmooth. cbn [fltb fz RA]. destruct (Rltb_spec x 0); split; intros H; try lra; cbn [rbind]; [reflexivity|eexists; reflexivity].
    - destruct x as [x|]; [|split; [intros _; eexists; reflexivity|intros H; exfalso; apply H; exact I]].
      unfold set_active_layer_thickness. cbn [fltb fz RA].
      destruct (Rltb_spec x 0); split; intros H; try lra; cbn [rbind]; [reflexivity|eexists; reflexivity].
    - unfold set_L0_meters. cbn [fltb fz RA]. destruct (Rltb_spec x 0); split; intros H; try lra; cbn [rbind]; [reflexivity|eexists; reflexivity].
    - unfold set_N0_meters. cbn [fleb fz RA]. destruct (Rleb_spec x 0); split; intros H; try lra; cbn [rbind]; [reflexivity|eexists; reflexivity].
    - unfold set_C0_percent. cbn [fltb fz RA]. destruct (Rltb_spec x 0); split; intros H; try lra; cbn [rbind]; [reflexivity|eexists; reflexivity].
    - unfold set_itermax. destruct (Z.ltb_spec n 0); split; intros H0; try lia; cbn [rbind]; [reflexivity|eexists; reflexivity].
    - unfold set_Np_sed. destruct (Z.leb_spec n 0); split; intros H0; try lia; cbn [rbind]; [reflexivity|eexists; reflexivity].
  Qed.
  Lemma range_accepted (ch : change R) c : accepted c -> (in_range ch <-> accepted (configured ch c)).
  Proof.
    intros [K1 K2 K3 K4 K5 K6 K7 K8 K9 K10 K11 K12].
    split.
    - intros H. destruct ch; cbn [in_range configured] in *; constructor; try assumption; try (cbn; assumption).
      + destruct x as [x|]; cbn; intros t Et; [injection Et as <-; exact H|discriminate].
    - intros [J1 J2 J3 J4 J5 J6 J7 J8 J9 J10 J11 J12].
      destruct ch; cbn [in_range]; try exact I; try assumption.
      + destruct x as [x|]; [|exact I]. apply J10. reflexivity.
  Qed.

  Lemma rebuilt (inp : inputs R) P (m m' : model S) : rebuild (A:=XA) inp P m = Ok m' ->
    m_in m' = inp /\ recomputed inp (setp_beta (i_beta inp) (m_P m')).
  Proof.
    intros E. apply rebuild_inv in E as (P' & Ec & ->). cbn [m_in m_P]. split; [reflexivity|].
    pose proof (boundary_spec inp P) as H. cbn zeta in H. rewrite Ec in H.
    set (N0 := Z.max 3 (Z.min (ZnearestE (i_N0_meters inp / i_dx inp)) (p_W P / 4))) in *.
    destruct H as (H1 & H2 & H3 & H4 & H5 & H6 & H7 & H8 & ->).
    set (dVs := 1 / 10 * IZR (N0 * N0) * (i_h0 inp * (i_dx inp * i_dx inp))) in *.
    set (Nc := ZnearestE (dVs / (i_h0 inp * (i_dx inp * i_dx inp)))) in *.
    assert (Hd : i_dx inp <> 0) by (intros K; apply H8; rewrite K; ring).
    assert (Hu : i_u0 inp <> 0) by (intros K; apply H1; rewrite K; ring).
    constructor; cbn [setp_beta].
    - reflexivity.
    - reflexivity.
    - eexists. split; [apply nearest_rounded|reflexivity].
    - eexists. split; [apply nearest_rounded|reflexivity].
    - change (i_C0_percent inp * 1 / 100 = i_C0_percent inp / 100). lra.
    - change (981 / 100 * i_S0 inp * i_dx inp / (i_u0 inp * i_u0 inp) * (i_u0 inp * i_u0 inp) = 981 / 100 * i_S0 inp * i_dx inp). field. auto.
    - set (dt := dVs / (i_u0 inp * i_h0 inp * IZR N0 * i_dx inp * (i_C0_percent inp * 1 / 100))) in *.
      change (dt / IZR Nc * i_alpha inp * (1 / 2) / (i_dx inp * i_dx inp) * (2 * (i_dx inp * i_dx inp)) * IZR Nc = dt * i_alpha inp).
      clearbody dt. field. auto.
    - change (2 / IZR (p_itermax P) * IZR (p_itermax P) = 2). field. auto.
    - change (IZR (p_Np_sed P) * (dVs / IZR (p_Np_sed P)) = dVs). clearbody dVs. field. auto.
  Qed.
  Lemma later_recomputes s x (m m1 : model (F:=R) S) : inlet_setting s = true -> assign_later (A:=XA) s x m = Ok m1 ->
    recomputed (m_in m1) (m_P m1) /\
    exists g, m_in m1 = g (m_in m) /\ (forall c, i_sed_lag (g c) = i_sed_lag c /\ i_beta (g c) = i_beta c /\ i_L0_meters (g c) = i_L0_meters c /\
      i_S0 (g c) = i_S0 c /\ i_alpha (g c) = i_alpha c /\ i_dx (g c) = i_dx c /\
      (s <> ChannelWidth -> i_N0_meters (g c) = i_N0_meters c) /\ (s <> Concentration -> i_C0_percent (g c) = i_C0_percent c)).
  Proof.
    intros Hs E. unfold assign_later in E. apply rbind_Ok in E as (m' & E0 & E). apply Ok_inj in E.
    destruct s; try discriminate Hs; cbn [assign] in E0; subst m1; cbn [m_in m_P].
    - apply rebuilt in E0 as [EI HR]. rewrite EI. split; [exact HR|]. eexists (seti_u0 x). split; [reflexivity|]. intros c. repeat split.
    - apply set_width_inv in E0 as [Hx E0]. apply rebuilt in E0 as [EI HR]. rewrite EI. split; [exact HR|].
      eexists (seti_N0_meters x). split; [reflexivity|]. intros c. repeat split. intros K. exfalso. apply K. reflexivity.
    - apply rebuilt in E0 as [EI HR]. rewrite EI. split; [exact HR|]. eexists (seti_h0 x). split; [reflexivity|]. intros c. repeat split.
    - apply set_concentration_inv in E0 as [Hx E0]. apply rebuilt in E0 as [EI HR]. rewrite EI. split; [exact HR|].
      eexists (seti_C0_percent (x * 100)). split; [reflexivity|]. intros c. repeat split. intros K. exfalso. apply K. reflexivity.
  Qed.
End Exact.
