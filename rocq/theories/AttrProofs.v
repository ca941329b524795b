(** Proofs about the life cycle and the public attributes. *)
From Coq Require Import ZArith List Bool Reals Lra Lia.
From Flocq Require Import Core.
From Verif Require Import Base RLemmas Shared Params State Water WaterSpec Sed SedSpec RunProofs Iter
  IterSpec FrameProofs IterProofs Inputs Init InitSpec InitProofs Session SessionSpec ResumeProofs SessionProofs.
Import ListNotations.
Local Open Scope Z_scope.

Section Generic.
  Context {F : Type} {A : Arith F} {S N : Type} {G : Rng F S} {GN : NpRng N}.

  (** ** C32 *)
  Lemma called_open (m : model (F:=F) S) c r m' : called c m r m' -> m_finalized m = false ->
    match c with
    | Update => m_finalized m' = false /\
        match update (m_P m) (m_st m) with
        | Ok (st, o) => r = Returned o /\ m_P m' = m_P m /\ m_in m' = m_in m /\ m_st m' = st
        | Err e => r = Raised e
        end
    | Finalize => r = Returned [] /\ m' = mkModel (m_in m) (m_P m) (m_st m) true
    end.
  Proof.
    intros H Hf. destruct H as [m m' o E|m e E|m e st E0 E|m m' E|m e E]; try congruence;
      unfold model_update, model_finalize in E; rewrite Hf in E.
    - destruct (update (m_P m) (m_st m)) as [[st o']|]; [|discriminate]. injection E as <- <-. cbn. auto.
    - destruct (update (m_P m) (m_st m)) as [[st' o']|]; [discriminate|]. injection E as <-. auto.
    - injection E as <-. auto.
    - discriminate.
  Qed.
  Lemma called_closed (m : model (F:=F) S) c r m' : called c m r m' -> m_finalized m = true ->
    r = Raised RuntimeError /\ m' = m.
  Proof.
    intros H Hf. destruct H as [m m' o E|m e E0 E|m e st E0 E|m m' E|m e E]; try congruence;
      unfold model_update, model_finalize in E; rewrite Hf in E; try discriminate; injection E as <-; auto.
  Qed.
  Lemma calls_closed (m : model (F:=F) S) tr m' : calls m tr m' -> m_finalized m = true ->
    m' = m /\ forall c a r b, In (c, a, r, b) tr -> r = Raised RuntimeError /\ a = m /\ b = m.
  Proof.
    induction 1 as [m|m c r m1 tr m' Hc Ht IH]; intros Hf; [split; [auto|intros ? ? ? ? []]|].
    destruct (called_closed _ _ _ _ Hc Hf) as [-> ->]. destruct (IH Hf) as [-> K]. split; [auto|].
    intros c' a r b [H|H]; [injection H as <- <- <- <-; auto|eauto].
  Qed.
  Lemma calls_split (m : model (F:=F) S) tr m' pre c a r b post : calls m tr m' -> tr = pre ++ (c, a, r, b) :: post ->
    calls m pre a /\ called c a r b /\ calls b post m'.
  Proof.
    intros H. revert pre. induction H as [m|m c0 r0 m1 tr m' Hc Ht IH]; intros pre E.
    - destruct pre; discriminate.
    - destruct pre as [|x pre].
      + cbn in E. injection E as <- <- <- <- <-. split; [constructor|]. auto.
      + cbn in E. injection E as <- E. destruct (IH _ E) as (H1 & H2 & H3). split; [econstructor; eauto|]. auto.
  Qed.
  Lemma calls_state (m : model (F:=F) S) tr m' : calls m tr m' -> m_finalized m = false ->
    (m_finalized m' = true <-> exists x, In x tr /\ call_of x = Finalize).
  Proof.
    induction 1 as [m|m c r m1 tr m' Hc Ht IH]; intros Hf.
    - split; [congruence|intros (x & [] & _)].
    - pose proof (called_open _ _ _ _ Hc Hf) as K. destruct c.
      + destruct K as [K _]. rewrite (IH K). split; intros (x & H1 & H2).
        * exists x. split; [right; auto|auto].
        * destruct H1 as [<-|H1]; [discriminate|exists x; auto].
      + destruct K as [-> ->]. destruct (calls_closed _ _ _ Ht eq_refl) as [-> _].
        split; [intros _; eexists; split; [left; reflexivity|reflexivity]|intros _; reflexivity].
  Qed.
  Lemma life_cycle (m : model (F:=F) S) tr m' pre c a r b post : calls m tr m' -> m_finalized m = false ->
    tr = pre ++ (c, a, r, b) :: post ->
    ((exists x, In x pre /\ call_of x = Finalize) -> r = Raised RuntimeError /\ b = a) /\
    (~ (exists x, In x pre /\ call_of x = Finalize) ->
      match c with
      | Update => m_finalized b = false /\
          match update (m_P a) (m_st a) with
          | Ok (st, o) => r = Returned o /\ m_P b = m_P a /\ m_in b = m_in a /\ m_st b = st
          | Err e => r = Raised e
          end
      | Finalize => r = Returned [] /\ b = mkModel (m_in a) (m_P a) (m_st a) true
      end).
  Proof.
    intros H Hf E. destruct (calls_split _ _ _ _ _ _ _ _ _ H E) as (H1 & H2 & _).
    pose proof (calls_state _ _ _ H1 Hf) as K. split; intros Hx.
    - apply K in Hx. eapply called_closed; eauto.
    - assert (m_finalized a = false) by (destruct (m_finalized a); [exfalso; tauto|auto]).
      eapply called_open; eauto.
  Qed.

  (** ** Constants no attribute changes *)
  Definition untouched {T} (f : params F -> T) : Prop :=
    (forall P x, f (setp_u0 x P) = f P) /\ (forall P x, f (setp_h0 x P) = f P) /\
    (forall P x, f (setp_SLR x P) = f P) /\ (forall P x, f (setp_f_bedload x P) = f P) /\
    (forall P x, f (setp_f_bedload_router x P) = f P) /\ (forall P x, f (setp_sigma x P) = f P) /\
    (forall P x, f (setp_dt x P) = f P) /\
    (forall P L0 N0 um C0 dd ga V0 Qw qw Qp qs dV Qs Vp sm dt om nc la mu,
       f (setp_L0 L0 (setp_N0 N0 (setp_u_max um (setp_C0 C0 (setp_dry_depth dd
       (setp_gamma ga (setp_V0 V0 (setp_Qw0 Qw (setp_qw0 qw (setp_Qp_water Qp
       (setp_qs0 qs (setp_dVs dV (setp_Qs0 Qs (setp_Vp_sed Vp (setp_stepmax sm
       (setp_dt dt (setp_omega_flow_iter om (setp_N_crossdiff nc
       (setp_lambda la (setp_diffusion_multiplier mu P)))))))))))))))))))) = f P).
  Lemma rebuild_inv inp P (m m' : model (F:=F) S) : rebuild inp P m = Ok m' ->
    exists P', create_boundary_conditions inp P = Ok P' /\ m' = mkModel inp (init_sediment_routers P') (m_st m) (m_finalized m).
  Proof. unfold rebuild. intros E. apply rbind_Ok in E as (P' & E1 & E). injection E as <-. eauto. Qed.
  Lemma assign_untouched {T} (f : params F -> T) s x (m m' : model (F:=F) S) : untouched f -> assign s x m = Ok m' ->
    f (m_P m') = f (m_P m).
  Proof.
    intros (U1 & U2 & U3 & U4 & U5 & U6 & U7 & U8) E.
    assert (Hr : forall inp P, rebuild inp P m = Ok m' -> f P = f (m_P m) -> f (m_P m') = f (m_P m)).
    { intros inp P Er Hp. apply rebuild_inv in Er as (P' & Ec & ->). cbn [m_P]. unfold init_sediment_routers. rewrite U5.
      apply (boundary_keeps f) in Ec; [congruence|exact U8]. }
    destruct s; cbn [assign] in E.
    - unfold set_time_step, init_sediment_routers in E. injection E as <-. cbn [m_P]. rewrite U5, U7. destruct (p_toggle_subsidence (m_P m)); rewrite ?U6; reflexivity.
    - eapply Hr; eauto.
    - unfold set_channel_width in E. apply rbind_Ok in E as (inp & _ & E). eapply Hr; eauto.
    - eapply Hr; eauto.
    - injection E as <-. reflexivity.
    - injection E as <-. cbn. apply U3.
    - unfold set_bedload_fraction in E. apply rbind_Ok in E as (inp & _ & E). injection E as <-. cbn. apply U4.
    - unfold set_influx_sediment_concentration in E. apply rbind_Ok in E as (inp & _ & E). eapply Hr; eauto.
  Qed.
  Lemma assign_state s x (m m' : model (F:=F) S) : assign s x m = Ok m' ->
    m_st m' = (match s with SeaLevel => set_H_SL x (m_st m) | _ => m_st m end) /\ m_finalized m' = m_finalized m.
  Proof.
    intros E.
    assert (Hr : forall inp P, rebuild inp P m = Ok m' -> m_st m' = m_st m /\ m_finalized m' = m_finalized m).
    { intros inp P Er. apply rebuild_inv in Er as (P' & Ec & ->). auto. }
    destruct s; cbn [assign] in E.
    - injection E as <-. auto.
    - eapply Hr; eauto.
    - unfold set_channel_width in E. apply rbind_Ok in E as (inp & _ & E). eapply Hr; eauto.
    - eapply Hr; eauto.
    - injection E as <-. auto.
    - injection E as <-. auto.
    - unfold set_bedload_fraction in E. apply rbind_Ok in E as (inp & _ & E). injection E as <-. auto.
    - unfold set_influx_sediment_concentration in E. apply rbind_Ok in E as (inp & _ & E). eapply Hr; eauto.
  Qed.
  Lemma model_update_inv (m m' : model (F:=F) S) o : model_update m = Ok (m', o) ->
    m_finalized m = false /\ m_P m' = m_P m /\ m_in m' = m_in m /\ m_finalized m' = false /\ update (m_P m) (m_st m) = Ok (m_st m', o).
  Proof.
    unfold model_update. destruct (m_finalized m) eqn:Ef; [discriminate|]. intros E. apply rbind_Ok in E as ([st o'] & E1 & E).
    injection E as <- <-. auto.
  Qed.
  Lemma new_model_inv (c : inputs F) nb np (m : model (F:=F) S) o np' : new_model (G:=G) (GN:=GN) c nb np = Ok (m, o, np') ->
    exists m0, construct (G:=G) (GN:=GN) c nb np = Ok (m0, np') /\ m_P m = m_P m0 /\ m_in m = m_in m0 /\ m_finalized m = false /\
      write_output (m_P m0) (m_st m0) = (m_st m, o).
  Proof.
    unfold new_model. intros E. apply rbind_Ok in E as ([m0 np0] & E1 & E).
    destruct (write_output (m_P m0) (m_st m0)) as [st o'] eqn:Ew. injection E as <- <- <-. exists m0. auto.
  Qed.
  Lemma resume_inv (c : inputs F) ck missing nb np (m : model (F:=F) S) np' : resume (GN:=GN) c ck missing nb np = Ok (m, np') ->
    exists m0, construct (G:=G) (GN:=GN) c nb np = Ok (m0, np') /\ m_P m = m_P m0 /\ m_in m = m_in m0 /\ m_finalized m = m_finalized m0 /\
      load_checkpoint ck missing (m_st m0) = Ok (m_st m).
  Proof.
    unfold resume. intros E. apply rbind_Ok in E as ([m0 np0] & E1 & E). apply rbind_Ok in E as (st & E2 & E).
    injection E as <- <-. exists m0. auto.
  Qed.
  Lemma load_types ck missing (a b : state F S) : load_checkpoint ck missing a = Ok b -> s_cell_type b = s_cell_type a.
  Proof.
    unfold load_checkpoint. destruct (c_save_time_since_data ck); [discriminate|]. destruct missing; intros E; injection E as <-; reflexivity.
  Qed.
  Lemma reached_untouched {T} (f : params F -> T) (c : inputs F) nb np m0 np' (m : model (F:=F) S) : untouched f ->
    construct (G:=G) (GN:=GN) c nb np = Ok (m0, np') -> reached (N:=N) (GN:=GN) c m ->
    f (m_P m) = f (m_P m0) /\ s_cell_type (m_st m) = s_cell_type (m_st m0).
  Proof.
    intros HU Ec H. destruct (construct_other c nb np m0 np' Ec) as [_ HC].
    induction H as [nb' np2 m o np3 E|ck missing nb' np2 m np3 E|m m' o H IH E|s x m m' H IH E|m m' H IH E].
    - apply new_model_inv in E as (m1 & E1 & EP & _ & _ & Ew). destruct (HC nb' np2) as (m2 & np4 & s & E2 & HP & Hs & _).
      rewrite E1 in E2. injection E2 as <- <-. rewrite EP, HP. split; [auto|].
      apply write_output_same, same_fields in Ew. transitivity (s_cell_type (m_st m1)); [tauto|]. rewrite Hs. reflexivity.
    - apply resume_inv in E as (m1 & E1 & EP & _ & _ & El). destruct (HC nb' np2) as (m2 & np4 & s & E2 & HP & Hs & _).
      rewrite E1 in E2. injection E2 as <- <-. rewrite EP, HP. split; [auto|].
      apply load_types in El. rewrite El, Hs. reflexivity.
    - apply model_update_inv in E as (_ & EP & _ & _ & Eu). rewrite EP. destruct IH as [I1 I2]. split; [exact I1|].
      apply update_frame in Eu. rewrite <- I2. tauto.
    - destruct IH as [I1 I2]. split; [rewrite <- I1; eapply assign_untouched; eauto|]. rewrite <- I2.
      apply assign_state in E as [-> _]. destruct s; reflexivity.
    - unfold model_finalize in E. destruct (m_finalized m); [discriminate|]. injection E as <-. exact IH.
  Qed.
  Lemma assign_read s x (m m' : model (F:=F) S) : assign s x m = Ok m' ->
    match s with ChannelWidth | Concentration => True | _ => read s m' = x end.
  Proof.
    intros E.
    destruct s; cbn [assign] in E; auto.
    - injection E as <-. reflexivity.
    - apply rebuild_inv in E as (P' & Ec & ->). apply (boundary_keeps p_u0) in Ec; [|reflexivity]. exact Ec.
    - apply rebuild_inv in E as (P' & Ec & ->). apply (boundary_keeps p_h0) in Ec; [|reflexivity]. exact Ec.
    - injection E as <-. reflexivity.
    - injection E as <-. reflexivity.
    - unfold set_bedload_fraction in E. apply rbind_Ok in E as (inp & _ & E). injection E as <-. reflexivity.
  Qed.
End Generic.

Section Exact.
  Notation XA := (RA (fun x => x)).
  Context {S N : Type} {G : Rng R S} {GN : NpRng N}.
  Local Open Scope R_scope.

  (** ** Inlet quantities *)

  (** The inputs and constants the inlet is built from. *)
  Record buildable (c inp : inputs R) (P : params R) : Prop := {
    bu_same : i_dx inp = i_dx c /\ i_L0_meters inp = i_L0_meters c /\ i_S0 inp = i_S0 c;
    bu_dx : 0 < i_dx inp;
    bu_u0 : i_u0 inp <> 0;
    bu_h0 : i_h0 inp <> 0;
    bu_C0 : 0 < i_C0_percent inp;
    bu_copies : p_u0 P = i_u0 inp /\ p_h0 P = i_h0 inp;
    bu_counts : (0 < p_Np_water P)%Z /\ (0 < p_Np_sed P)%Z /\ (0 < p_itermax P)%Z
  }.
  Definition strip_rows (c : inputs R) (P : params R) : Z :=
    Z.max 1 (Z.min (ZnearestE (i_L0_meters c / i_dx c)) (p_L P / 4)).

  Lemma boundary_ok (c inp : inputs R) (P : params R) : buildable c inp P ->
    exists P', create_boundary_conditions (A:=XA) inp P = Ok P' /\
      inlet_consistent inp (init_sediment_routers P') /\ p_L0 P' = strip_rows c P /\ p_dt P' <> 0.
  Proof.
    intros [(B1 & B2 & B3) B4 B5 B6 B7 (B8 & B9) (B10 & B11 & B12)].
    pose proof (boundary_spec inp P) as H. cbn zeta in H.
    set (N0 := Z.max 3 (Z.min (ZnearestE (i_N0_meters inp / i_dx inp)) (p_W P / 4))) in *.
    assert (HN : (3 <= N0)%Z) by (unfold N0; lia).
    pose proof (passes_ge N0 HN) as HP.
    assert (HN0 : IZR N0 <> 0) by (apply not_0_IZR; lia).
    assert (Hdx : i_dx inp <> 0) by lra.
    assert (Hsq : i_dx inp * i_dx inp <> 0) by (apply Rmult_integral_contrapositive_currified; lra).
    assert (HV : i_h0 inp * (i_dx inp * i_dx inp) <> 0) by (apply Rmult_integral_contrapositive_currified; auto).
    assert (Hn2 : IZR (N0 * N0) <> 0) by (apply not_0_IZR; lia).
    assert (HQ : i_u0 inp * i_h0 inp * IZR N0 * i_dx inp * (i_C0_percent inp * 1 / 100) <> 0).
    { repeat apply Rmult_integral_contrapositive_currified; auto; lra. }
    assert (HdV : 1 / 10 * IZR (N0 * N0) * (i_h0 inp * (i_dx inp * i_dx inp)) <> 0).
    { repeat apply Rmult_integral_contrapositive_currified; auto; lra. }
    assert (Hc : IZR (ZnearestE (1 / 10 * IZR (N0 * N0) * (i_h0 inp * (i_dx inp * i_dx inp)) / (i_h0 inp * (i_dx inp * i_dx inp)))) <> 0).
    { apply not_0_IZR. replace (1 / 10 * IZR (N0 * N0) * (i_h0 inp * (i_dx inp * i_dx inp)) / (i_h0 inp * (i_dx inp * i_dx inp))) with (IZR (N0 * N0) / 10) by (field; auto).
      pose proof (rounded_ge (IZR (N0 * N0) / 10) _ 1%Z (nearest_rounded _)) as K. assert (1 - 1 / 2 < IZR (N0 * N0) / 10) by lra. specialize (K H0). lia. }
    destruct (create_boundary_conditions inp P) as [P'|e] eqn:E.
    2:{ exfalso. assert (i_u0 inp * i_u0 inp <> 0) by (apply Rmult_integral_contrapositive_currified; auto).
        assert (IZR (p_Np_water P) <> 0) by (apply not_0_IZR; lia). assert (IZR (p_Np_sed P) <> 0) by (apply not_0_IZR; lia).
        assert (IZR (p_itermax P) <> 0) by (apply not_0_IZR; lia). tauto. }
    exists P'. split; [reflexivity|]. destruct H as (_ & Hw & Hs & _ & _ & _ & _ & _ & HP').
    match type of HP' with _ = ?t => set (P1 := t) in HP' end. subst P'.
    assert (Hdt : p_dt P1 <> 0) by (change (1 / 10 * IZR (N0 * N0) * (i_h0 inp * (i_dx inp * i_dx inp)) / (i_u0 inp * i_h0 inp * IZR N0 * i_dx inp * (i_C0_percent inp * 1 / 100)) <> 0);
      unfold Rdiv at 3; apply Rmult_integral_contrapositive_currified; [exact HdV|apply Rinv_neq_0_compat; exact HQ]).
    split; [|split; [|exact Hdt]].
    2:{ change (p_L0 P1) with (Z.max 1 (Z.min (ZnearestE (i_L0_meters inp / i_dx inp)) (p_L P / 4))). rewrite B1, B2. reflexivity. }
    unfold init_sediment_routers. constructor.
    - exists (ZnearestE (i_N0_meters inp / i_dx inp)). split; [apply nearest_rounded|reflexivity].
    - split; [exact B8|reflexivity].
    - split; [exact B9|]. change (Rmin (1 / 10) (1 / 10 * i_h0 inp) = Rmin (1 / 10) (i_h0 inp / 10)). f_equal. field.
    - change (i_C0_percent inp * 1 / 100 = i_C0_percent inp / 100). field.
    - split; [reflexivity|]. split.
      + change (i_u0 inp * i_h0 inp * IZR N0 * i_dx inp = i_u0 inp * i_h0 inp * (IZR N0 * i_dx inp)). ring.
      + change (IZR (p_Np_water P) * (i_u0 inp * i_h0 inp * IZR N0 * i_dx inp / IZR (p_Np_water P)) = i_u0 inp * i_h0 inp * IZR N0 * i_dx inp). field. auto.
    - split; [reflexivity|]. split; [reflexivity|].
      change (IZR (p_Np_sed P) * (1 / 10 * IZR (N0 * N0) * (i_h0 inp * (i_dx inp * i_dx inp)) / IZR (p_Np_sed P)) = 1 / 10 * IZR (N0 * N0) * (i_h0 inp * (i_dx inp * i_dx inp))). field. auto.
    - change (1 / 10 * IZR (N0 * N0) * (i_h0 inp * (i_dx inp * i_dx inp)) = IZR (N0 * N0) / 10 * (i_h0 inp * (i_dx inp * i_dx inp))). field.
    - change (1 / 10 * IZR (N0 * N0) * (i_h0 inp * (i_dx inp * i_dx inp)) / (i_u0 inp * i_h0 inp * IZR N0 * i_dx inp * (i_C0_percent inp * 1 / 100))
        * (i_u0 inp * i_h0 inp * IZR N0 * i_dx inp * (i_C0_percent inp * 1 / 100)) = 1 / 10 * IZR (N0 * N0) * (i_h0 inp * (i_dx inp * i_dx inp))).
      field. repeat split; auto. lra.
    - change (981 / 100 * i_S0 inp * i_dx inp / (i_u0 inp * i_u0 inp) * (i_u0 inp * i_u0 inp) = 981 / 100 * i_S0 inp * i_dx inp). field. auto.
    - reflexivity.
  Qed.
  Lemma boundary_zero (inp : inputs R) (P : params R) :
    i_u0 inp = 0 \/ i_h0 inp = 0 \/ i_C0_percent inp = 0 -> create_boundary_conditions (A:=XA) inp P = Err ZeroDivisionError.
  Proof.
    intros Hz. pose proof (boundary_spec inp P) as H. cbn zeta in H.
    destruct (create_boundary_conditions inp P) as [P'|e].
    - exfalso. destruct H as (H1 & _ & _ & H2 & _). destruct Hz as [Hz|[Hz|Hz]].
      + rewrite Hz in H1. apply H1. ring.
      + rewrite Hz in H2. apply H2. ring.
      + rewrite Hz in H2. apply H2. unfold Rdiv. ring.
    - destruct H as [-> _]. reflexivity.
  Qed.

  (** ** What holds of every reached model *)
  Record wired (c : inputs R) (m : model (F:=R) S) : Prop := {
    wi_build : buildable c (m_in m) (m_P m);
    wi_N0 : 0 < i_N0_meters (m_in m);
    wi_width : p_N0 (m_P m) = Z.max 3 (Z.min (ZnearestE (i_N0_meters (m_in m) / i_dx (m_in m))) (p_W (m_P m) / 4));
    wi_L0 : p_L0 (m_P m) = strip_rows c (m_P m);
    wi_sub : p_toggle_subsidence (m_P m) = i_toggle_subsidence c;
    wi_bed : p_f_bedload (m_P m) = i_f_bedload (m_in m);
    wi_slr : p_SLR (m_P m) = i_SLR (m_in m);
    wi_C0 : p_C0 (m_P m) = i_C0_percent (m_in m) / 100
  }.
  Lemma construct_wired (c : inputs R) nb np (m : model S) np' : construct (A:=XA) (G:=G) (GN:=GN) c nb np = Ok (m, np') -> wired c m.
  Proof.
    intros E. pose proof (construct_outcome (G:=G) (GN:=GN) c nb np) as H. rewrite E in H.
    destruct H as (HA & HV & _ & z & _ & HI & _ & _ & HD & _).
    destruct HD as [D1 D2 (n1 & D3 & D3') (n2 & D4 & D4') D5 D6 D7 D8 D9 D10 D11 D12 D13 D14 D15 D16 D17 D18 D19 D20 D21 D22 D23 D24 D25 D26 D27 D28].
    decompose [and] D28. destruct HA.
    assert (i_u0 c <> 0 /\ i_h0 c <> 0 /\ i_C0_percent c <> 0 /\ i_itermax c <> 0%Z) as (V1 & V2 & V3 & V4).
    { unfold vanishing in HV. tauto. }
    constructor; rewrite ?HI.
    - constructor; cbn; try tauto.
      + lra.
      + lia.
    - cbn. auto.
    - cbn. rewrite D4'. rewrite (rounded_unique _ _ _ D4 (nearest_rounded _)). reflexivity.
    - rewrite D3'. unfold strip_rows. rewrite (rounded_unique _ _ _ D3 (nearest_rounded _)). reflexivity.
    - auto.
    - auto.
    - auto.
    - exact D6.
  Qed.
  Lemma rebuild_wired (c inp : inputs R) P (m m' : model S) : buildable c inp P -> 0 < i_N0_meters inp ->
    p_toggle_subsidence P = i_toggle_subsidence c -> p_f_bedload P = i_f_bedload inp -> p_SLR P = i_SLR inp ->
    rebuild (A:=XA) inp P m = Ok m' -> wired c m'.
  Proof.
    intros HB HN Ht Hb Hs E. apply rebuild_inv in E as (P' & Ec & ->).
    destruct (boundary_ok c inp P HB) as (P'' & E2 & HI & HL & _). rewrite Ec in E2. injection E2 as <-.
    pose proof (boundary_keeps (A:=XA) p_L inp P P' ltac:(reflexivity) Ec) as KL.
    pose proof (boundary_keeps (A:=XA) p_Np_water inp P P' ltac:(reflexivity) Ec) as K1.
    pose proof (boundary_keeps (A:=XA) p_Np_sed inp P P' ltac:(reflexivity) Ec) as K2.
    pose proof (boundary_keeps (A:=XA) p_itermax inp P P' ltac:(reflexivity) Ec) as K3.
    pose proof (boundary_keeps (A:=XA) p_toggle_subsidence inp P P' ltac:(reflexivity) Ec) as K4.
    pose proof (boundary_keeps (A:=XA) p_f_bedload inp P P' ltac:(reflexivity) Ec) as K5.
    pose proof (boundary_keeps (A:=XA) p_SLR inp P P' ltac:(reflexivity) Ec) as K6.
    pose proof (boundary_keeps (A:=XA) p_u0 inp P P' ltac:(reflexivity) Ec) as K7.
    pose proof (boundary_keeps (A:=XA) p_h0 inp P P' ltac:(reflexivity) Ec) as K8.
    destruct HB as [B1 B2 B3 B4 B5 (B6 & B7) (B8 & B9 & B10)].
    constructor; cbn [m_in m_P].
    - constructor; auto.
      + change (p_u0 P' = i_u0 inp /\ p_h0 P' = i_h0 inp). split; congruence.
      + change ((0 < p_Np_water P')%Z /\ (0 < p_Np_sed P')%Z /\ (0 < p_itermax P')%Z). rewrite K1, K2, K3. auto.
    - auto.
    - destruct (ic_width _ _ HI) as (n & Hn & HW). rewrite HW. rewrite (rounded_unique _ _ _ Hn (nearest_rounded _)). reflexivity.
    - change (p_L0 P' = strip_rows c P'). rewrite HL. unfold strip_rows. rewrite KL. reflexivity.
    - change (p_toggle_subsidence P' = i_toggle_subsidence c). congruence.
    - change (p_f_bedload P' = i_f_bedload inp). congruence.
    - change (p_SLR P' = i_SLR inp). congruence.
    - exact (ic_concentration _ _ HI).
  Qed.
  Lemma set_width_inv x (m : model (F:=R) S) m' : set_channel_width (A:=XA) x m = Ok m' ->
    0 < x /\ rebuild (A:=XA) (seti_N0_meters x (m_in m)) (m_P m) m = Ok m'.
  Proof.
    unfold set_channel_width, set_N0_meters. cbn [fleb fz RA]. destruct (Rleb_spec x 0); [discriminate|]. cbn [rbind]. intros E. split; [lra|exact E].
  Qed.
  Lemma set_concentration_inv x (m : model (F:=R) S) m' : set_influx_sediment_concentration (A:=XA) x m = Ok m' ->
    0 < x /\ rebuild (A:=XA) (seti_C0_percent (x * 100) (m_in m)) (m_P m) m = Ok m'.
  Proof.
    unfold set_influx_sediment_concentration, set_C0_percent. cbn [fltb fmul fz RA].
    destruct (Rltb_spec (x * 100) 0); [discriminate|]. cbn [rbind]. intros E. split; [|exact E].
    destruct (Req_dec x 0) as [->|]; [|lra]. exfalso. unfold rebuild in E.
    rewrite boundary_zero in E; [discriminate|]. right. right. cbn. ring.
  Qed.
  Lemma set_velocity_inv x (m : model (F:=R) S) m' : set_channel_flow_velocity (A:=XA) x m = Ok m' ->
    x <> 0 /\ rebuild (A:=XA) (seti_u0 x (m_in m)) (setp_u0 x (m_P m)) m = Ok m'.
  Proof.
    intros E. split; [|exact E]. intros ->. unfold set_channel_flow_velocity, rebuild in E.
    rewrite boundary_zero in E; [discriminate|]. left. reflexivity.
  Qed.
  Lemma set_depth_inv x (m : model (F:=R) S) m' : set_channel_flow_depth (A:=XA) x m = Ok m' ->
    x <> 0 /\ rebuild (A:=XA) (seti_h0 x (m_in m)) (setp_h0 x (m_P m)) m = Ok m'.
  Proof.
    intros E. split; [|exact E]. intros ->. unfold set_channel_flow_depth, rebuild in E.
    rewrite boundary_zero in E; [discriminate|]. right. left. reflexivity.
  Qed.

  Lemma build_velocity c x (m : model (F:=R) S) : wired c m -> x <> 0 ->
    buildable c (seti_u0 x (m_in m)) (setp_u0 x (m_P m)).
  Proof. intros [[B1 B2 B3 B4 B5 (B6 & B7) B8] _ _ _ _ _ _] Hx. constructor; auto. Qed.
  Lemma build_depth c x (m : model (F:=R) S) : wired c m -> x <> 0 ->
    buildable c (seti_h0 x (m_in m)) (setp_h0 x (m_P m)).
  Proof. intros [[B1 B2 B3 B4 B5 (B6 & B7) B8] _ _ _ _ _ _] Hx. constructor; auto. Qed.
  Lemma build_width c x (m : model (F:=R) S) : wired c m -> buildable c (seti_N0_meters x (m_in m)) (m_P m).
  Proof. intros [[B1 B2 B3 B4 B5 (B6 & B7) B8] _ _ _ _ _ _]. constructor; auto. Qed.
  Lemma build_concentration c x (m : model (F:=R) S) : wired c m -> 0 < x -> buildable c (seti_C0_percent (x * 100) (m_in m)) (m_P m).
  Proof. intros [[B1 B2 B3 B4 B5 (B6 & B7) B8] _ _ _ _ _ _] Hx. constructor; auto. change (0 < x * 100). lra. Qed.

  Lemma time_step_params {T} (f : params R -> T) x (m : model (F:=R) S) :
    (forall P v, f (setp_f_bedload_router v P) = f P) -> (forall P v, f (setp_dt v P) = f P) -> (forall P v, f (setp_sigma v P) = f P) ->
    f (init_sediment_routers (setp_dt x (if p_toggle_subsidence (m_P m)
      then setp_sigma (fun i j => p_sigma (m_P m) i j / p_dt (m_P m) * x) (m_P m) else m_P m))) = f (m_P m).
  Proof. intros K1 K2 K3. unfold init_sediment_routers. rewrite K1, K2. destruct (p_toggle_subsidence (m_P m)); rewrite ?K3; reflexivity. Qed.
  Lemma set_bedload_inv x (m : model (F:=R) S) m' : set_bedload_fraction (A:=XA) x m = Ok m' ->
    0 <= x <= 1 /\ m' = mkModel (seti_f_bedload x (m_in m)) (setp_f_bedload x (m_P m)) (m_st m) (m_finalized m).
  Proof.
    unfold set_bedload_fraction, set_f_bedload. cbn [fltb fz RA].
    destruct (Rltb_spec x 0); [discriminate|]. destruct (Rltb_spec 1 x); [discriminate|]. cbn [orb rbind].
    intros E. injection E as <-. split; [lra|reflexivity].
  Qed.
  Lemma wired_frame c (m m' : model (F:=R) S) : wired c m ->
    (i_dx (m_in m') = i_dx (m_in m) /\ i_L0_meters (m_in m') = i_L0_meters (m_in m) /\ i_S0 (m_in m') = i_S0 (m_in m) /\
     i_u0 (m_in m') = i_u0 (m_in m) /\ i_h0 (m_in m') = i_h0 (m_in m) /\ i_C0_percent (m_in m') = i_C0_percent (m_in m) /\
     i_N0_meters (m_in m') = i_N0_meters (m_in m)) ->
    (p_u0 (m_P m') = p_u0 (m_P m) /\ p_h0 (m_P m') = p_h0 (m_P m) /\ p_Np_water (m_P m') = p_Np_water (m_P m) /\
     p_Np_sed (m_P m') = p_Np_sed (m_P m) /\ p_itermax (m_P m') = p_itermax (m_P m) /\ p_N0 (m_P m') = p_N0 (m_P m) /\
     p_W (m_P m') = p_W (m_P m) /\ p_L0 (m_P m') = p_L0 (m_P m) /\ p_L (m_P m') = p_L (m_P m) /\
     p_toggle_subsidence (m_P m') = p_toggle_subsidence (m_P m) /\ p_C0 (m_P m') = p_C0 (m_P m)) ->
    p_f_bedload (m_P m') = i_f_bedload (m_in m') -> p_SLR (m_P m') = i_SLR (m_in m') -> wired c m'.
  Proof.
    intros [[(B1 & B2 & B3) B4 B5 B6 B7 (B8 & B9) (B10 & B11 & B12)] W1 W2 W3 W4 W5 W6 W7]
      (I1 & I2 & I3 & I4 & I5 & I6 & I7) (J1 & J2 & J3 & J4 & J5 & J6 & J7 & J8 & J9 & J10 & J11) Hb Hs.
    constructor; auto.
    - constructor; rewrite ?I1, ?I2, ?I3, ?I4, ?I5, ?I6, ?J1, ?J2, ?J3, ?J4, ?J5; auto.
    - rewrite I7. auto.
    - rewrite J6, W2, I7, I1, J7. reflexivity.
    - rewrite J8, W3. unfold strip_rows. rewrite J9. reflexivity.
    - congruence.
    - rewrite J11, W7, I6. reflexivity.
  Qed.
  Lemma assign_wired c s x (m m' : model (F:=R) S) : wired c m -> assign (A:=XA) s x m = Ok m' -> wired c m'.
  Proof.
    intros HW E. destruct s; cbn [assign] in E.
    - unfold set_time_step in E. injection E as <-. apply (wired_frame c m _ HW); cbn [m_in m_P].
      + repeat split.
      + repeat split;
        match goal with |- ?f _ = _ => apply (time_step_params f x m); reflexivity end.
      + rewrite <- (wi_bed _ _ HW). apply (time_step_params p_f_bedload x m); reflexivity.
      + rewrite <- (wi_slr _ _ HW). apply (time_step_params p_SLR x m); reflexivity.
    - apply set_velocity_inv in E as [Hx E]. eapply rebuild_wired; [apply build_velocity; eauto|..|exact E]; apply HW.
    - apply set_width_inv in E as [Hx E]. eapply rebuild_wired; [apply build_width; eauto|..|exact E]; try apply HW. exact Hx.
    - apply set_depth_inv in E as [Hx E]. eapply rebuild_wired; [apply build_depth; eauto|..|exact E]; apply HW.
    - injection E as <-. apply (wired_frame c m _ HW); cbn [m_in m_P]; [repeat split|repeat split|apply HW|apply HW].
    - injection E as <-. apply (wired_frame c m _ HW); cbn [m_in m_P]; [repeat split|repeat split|apply HW|reflexivity].
    - apply set_bedload_inv in E as [_ ->]. apply (wired_frame c m _ HW); cbn [m_in m_P]; [repeat split|repeat split|reflexivity|apply HW].
    - apply set_concentration_inv in E as [Hx E]. eapply rebuild_wired; [apply build_concentration; eauto|..|exact E]; apply HW.
  Qed.
  Lemma same_wired c (m m' : model (F:=R) S) : wired c m -> m_in m' = m_in m -> m_P m' = m_P m -> wired c m'.
  Proof. intros HW E1 E2. apply (wired_frame c m); rewrite ?E1, ?E2; auto; try apply HW; repeat split. Qed.
  Lemma reached_wired c (m : model (F:=R) S) : reached (A:=XA) (G:=G) (GN:=GN) c m -> wired c m.
  Proof.
    induction 1 as [nb' np2 m o np3 E|ck missing nb' np2 m np3 E|m m' o H IH E|s x m m' H IH E|m m' H IH E].
    - apply new_model_inv in E as (m1 & E1 & EP & EI & _ & _). apply (same_wired c m1); auto. eapply construct_wired; eauto.
    - apply resume_inv in E as (m1 & E1 & EP & EI & _ & _). apply (same_wired c m1); auto. eapply construct_wired; eauto.
    - apply model_update_inv in E as (_ & EP & EI & _). apply (same_wired c m); auto.
    - eapply assign_wired; eauto.
    - unfold model_finalize in E. destruct (m_finalized m); [discriminate|]. injection E as <-. apply (same_wired c m); auto.
  Qed.

  (** ** C45 *)
  Lemma assign_outcome c s x (m : model (F:=R) S) : reached (A:=XA) (G:=G) (GN:=GN) c m ->
    (takes s x -> exists m', assign (A:=XA) s x m = Ok m') /\
    (out_of_range s x -> assign (A:=XA) s x m = Err ValueError) /\
    (zero_refused s x -> assign (A:=XA) s x m = Err ZeroDivisionError).
  Proof.
    intros H. apply reached_wired in H.
    assert (Hr : forall inp P, buildable c inp P -> exists m', rebuild (A:=XA) inp P m = Ok m').
    { intros inp P HB. destruct (boundary_ok c inp P HB) as (P' & E & _). unfold rebuild. rewrite E. eexists. reflexivity. }
    destruct s; cbn [takes out_of_range zero_refused assign]; (split; [|split]); intros Hx; try contradiction.
    - eexists. reflexivity.
    - apply Hr. apply build_velocity; auto.
    - unfold set_channel_flow_velocity, rebuild. rewrite boundary_zero; [reflexivity|left; exact Hx].
    - unfold set_channel_width, set_N0_meters. cbn [fleb fz RA]. destruct (Rleb_spec x 0); [lra|]. apply Hr. apply build_width; auto.
    - unfold set_channel_width, set_N0_meters. cbn [fleb fz RA]. destruct (Rleb_spec x 0); [reflexivity|lra].
    - apply Hr. apply build_depth; auto.
    - unfold set_channel_flow_depth, rebuild. rewrite boundary_zero; [reflexivity|right; left; exact Hx].
    - eexists. reflexivity.
    - eexists. reflexivity.
    - unfold set_bedload_fraction, set_f_bedload. cbn [fltb fz RA].
      destruct (Rltb_spec x 0); [lra|]. destruct (Rltb_spec 1 x); [lra|]. eexists. reflexivity.
    - unfold set_bedload_fraction, set_f_bedload. cbn [fltb fz RA].
      destruct (Rltb_spec x 0); [reflexivity|]. destruct (Rltb_spec 1 x); [reflexivity|lra].
    - unfold set_influx_sediment_concentration, set_C0_percent. cbn [fltb fmul fz RA]. destruct (Rltb_spec (x * 100) 0); [lra|].
      apply Hr. apply build_concentration; auto.
    - unfold set_influx_sediment_concentration, set_C0_percent. cbn [fltb fmul fz RA]. destruct (Rltb_spec (x * 100) 0); [reflexivity|lra].
    - unfold set_influx_sediment_concentration, set_C0_percent. cbn [fltb fmul fz RA]. destruct (Rltb_spec (x * 100) 0); [lra|].
      cbn [rbind]. unfold rebuild. rewrite boundary_zero; [reflexivity|right; right; cbn; rewrite Hx; ring].
  Qed.
  Lemma assign_rebuilds c s x (m m' : model (F:=R) S) : wired c m -> assign (A:=XA) s x m = Ok m' -> inlet_setting s = true ->
    exists P0, rebuild (A:=XA) (m_in m') P0 m = Ok m' /\ buildable c (m_in m') P0 /\
      p_sigma P0 = p_sigma (m_P m) /\ p_L P0 = p_L (m_P m) /\ p_W P0 = p_W (m_P m) /\ p_f_bedload P0 = p_f_bedload (m_P m) /\
      p_SLR P0 = p_SLR (m_P m).
  Proof.
    intros HW E Hs. destruct s; cbn [inlet_setting] in Hs; try discriminate; cbn [assign] in E.
    - apply set_velocity_inv in E as [Hx E]. pose proof E as E'. apply rebuild_inv in E' as (P' & _ & E'). assert (Em : m_in m' = seti_u0 x (m_in m)) by (rewrite E'; reflexivity). rewrite Em.
      eexists. split; [exact E|]. split; [apply build_velocity; auto|]. repeat split.
    - apply set_width_inv in E as [Hx E]. pose proof E as E'. apply rebuild_inv in E' as (P' & _ & E'). assert (Em : m_in m' = seti_N0_meters x (m_in m)) by (rewrite E'; reflexivity). rewrite Em.
      eexists. split; [exact E|]. split; [apply build_width; auto|]. repeat split.
    - apply set_depth_inv in E as [Hx E]. pose proof E as E'. apply rebuild_inv in E' as (P' & _ & E'). assert (Em : m_in m' = seti_h0 x (m_in m)) by (rewrite E'; reflexivity). rewrite Em.
      eexists. split; [exact E|]. split; [apply build_depth; auto|]. repeat split.
    - apply set_concentration_inv in E as [Hx E]. pose proof E as E'. apply rebuild_inv in E' as (P' & _ & E'). assert (Em : m_in m' = seti_C0_percent (x * 100) (m_in m)) by (rewrite E'; reflexivity). rewrite Em.
      eexists. split; [exact E|]. split; [apply build_concentration; auto|]. repeat split.
  Qed.
  Lemma assign_consistent c s x (m m' : model (F:=R) S) : reached (A:=XA) (G:=G) (GN:=GN) c m ->
    assign (A:=XA) s x m = Ok m' -> inlet_setting s = true ->
    inlet_consistent (m_in m') (m_P m') /\ p_dt (m_P m') <> 0.
  Proof.
    intros H E Hs. apply reached_wired in H. destruct (assign_rebuilds c s x m m' H E Hs) as (P0 & Er & HB & _).
    apply rebuild_inv in Er as (P' & Ec & Em). destruct (boundary_ok c _ _ HB) as (P'' & E2 & HI & _ & Hd).
    rewrite Ec in E2. injection E2 as <-. rewrite Em. rewrite Em in HI. cbn [m_in m_P] in *. split; [exact HI|exact Hd].
  Qed.
  Lemma assign_width c x (m m' : model (F:=R) S) : reached (A:=XA) (G:=G) (GN:=GN) c m ->
    assign (A:=XA) ChannelWidth x m = Ok m' ->
    exists n, rounded (x / i_dx c) n /\ read (A:=XA) ChannelWidth m' = IZR (Z.max 3 (Z.min n (p_W (m_P m) / 4))) * i_dx c.
  Proof.
    intros H E. pose proof (reached_wired _ _ (reached_assign c _ _ _ _ H E)) as HW'. apply reached_wired in H.
    pose proof E as E'. cbn [assign] in E'. apply set_width_inv in E' as [_ E']. apply rebuild_inv in E' as (P' & Ec & Em).
    pose proof (wi_width _ _ HW') as K. destruct (bu_same _ _ _ (wi_build _ _ HW')) as (Hdx & _).
    assert (HWd : p_W (m_P m') = p_W (m_P m)).
    { rewrite Em. cbn [m_P]. change (p_W P' = p_W (m_P m)). exact (boundary_keeps (A:=XA) p_W _ _ _ ltac:(reflexivity) Ec). }
    assert (HN : i_N0_meters (m_in m') = x) by (rewrite Em; reflexivity).
    rewrite HN, HWd, Hdx in K. exists (ZnearestE (x / i_dx c)). split; [apply nearest_rounded|].
    cbn [read]. unfold get_channel_width. cbn [fmul fz RA]. rewrite K, Hdx. reflexivity.
  Qed.
  Lemma assign_concentration x (m m' : model (F:=R) S) :
    assign (A:=XA) Concentration x m = Ok m' -> read (A:=XA) Concentration m' = 100 * x /\ p_C0 (m_P m') = x.
  Proof.
    intros E. cbn [assign] in E. apply set_concentration_inv in E as [Hx E]. apply rebuild_inv in E as (P' & Ec & ->).
    pose proof (boundary_spec (seti_C0_percent (x * 100) (m_in m)) (m_P m)) as K. cbn zeta in K. rewrite Ec in K.
    destruct K as (_ & _ & _ & _ & _ & _ & _ & _ & ->). cbn. split; [ring|field].
  Qed.
  Lemma assign_others c s t x (m m' : model (F:=R) S) : reached (A:=XA) (G:=G) (GN:=GN) c m ->
    assign (A:=XA) s x m = Ok m' -> s <> t -> (t = TimeStep -> inlet_setting s = false) ->
    read (A:=XA) t m' = read (A:=XA) t m.
  Proof.
    intros H E Hst Ht. pose proof (reached_wired _ _ (reached_assign c _ _ _ _ H E)) as HW'. apply reached_wired in H.
    assert (Hp : p_W (m_P m') = p_W (m_P m)).
    { eapply assign_untouched; [|exact E]. repeat split. }
    assert (Hin : (s <> FlowVelocity -> i_u0 (m_in m') = i_u0 (m_in m)) /\ (s <> FlowDepth -> i_h0 (m_in m') = i_h0 (m_in m)) /\
      (s <> ChannelWidth -> i_N0_meters (m_in m') = i_N0_meters (m_in m)) /\ (s <> SeaLevelRate -> i_SLR (m_in m') = i_SLR (m_in m)) /\
      (s <> BedloadFraction -> i_f_bedload (m_in m') = i_f_bedload (m_in m)) /\
      (s <> Concentration -> i_C0_percent (m_in m') = i_C0_percent (m_in m)) /\ i_dx (m_in m') = i_dx (m_in m)).
    { destruct s; cbn [assign] in E.
      - injection E as <-. repeat split.
      - apply set_velocity_inv in E as [_ E]. apply rebuild_inv in E as (P' & _ & ->). repeat split. congruence.
      - apply set_width_inv in E as [_ E]. apply rebuild_inv in E as (P' & _ & ->). repeat split. congruence.
      - apply set_depth_inv in E as [_ E]. apply rebuild_inv in E as (P' & _ & ->). repeat split. congruence.
      - injection E as <-. repeat split.
      - injection E as <-. repeat split. congruence.
      - apply set_bedload_inv in E as [_ ->]. repeat split. congruence.
      - apply set_concentration_inv in E as [_ E]. apply rebuild_inv in E as (P' & _ & ->). repeat split. congruence. }
    destruct Hin as (I1 & I2 & I3 & I4 & I5 & I6 & I7).
    destruct HW' as [B' _ W2' _ _ W5' W6' _], H as [B _ W2 _ _ W5 W6 _].
    destruct (bu_copies _ _ _ B') as [C1' C2'], (bu_copies _ _ _ B) as [C1 C2].
    destruct t; cbn [read]; unfold get_time_step, get_channel_flow_velocity, get_channel_width, get_channel_flow_depth,
      get_sea_surface_mean_elevation, get_sea_surface_elevation_change, get_bedload_fraction, get_influx_sediment_concentration.
    - specialize (Ht eq_refl). destruct s; try discriminate; try congruence; cbn [assign] in E.
      + injection E as <-. reflexivity.
      + injection E as <-. reflexivity.
      + apply set_bedload_inv in E as [_ ->]. reflexivity.
    - rewrite C1', C1. auto.
    - cbn [fmul fz RA]. rewrite W2', W2, I7, Hp, I3 by auto. reflexivity.
    - rewrite C2', C2. auto.
    - apply assign_state in E as [-> _]. destruct s; try reflexivity. congruence.
    - rewrite W6', W6. auto.
    - rewrite W5', W5. auto.
    - auto.
  Qed.

  (** ** C29: subsidence after attribute changes *)
  Lemma assign_rate c s x (m m' : model (F:=R) S) rate : reached (A:=XA) (G:=G) (GN:=GN) c m ->
    i_toggle_subsidence c = true -> rate_kept rate (m_P m) -> p_dt (m_P m) <> 0 -> assign (A:=XA) s x m = Ok m' ->
    rate_kept (new_rate s rate (m_P m) (m_P m')) (m_P m').
  Proof.
    intros H Ht HR Hd E. pose proof (reached_wired _ _ (reached_assign c _ _ _ _ H E)) as HW'.
    unfold rate_kept, new_rate, lowering in *. destruct (inlet_setting s) eqn:Es.
    - pose proof (assign_consistent c s x m m' H E Es) as [_ Hd']. apply reached_wired in H.
      destruct (assign_rebuilds c s x m m' H E Es) as (P0 & Er & HB & Hsig & HL & _). apply rebuild_inv in Er as (P' & Ec & Em).
      intros i j. assert (K : p_sigma (m_P m') = p_sigma (m_P m)).
      { rewrite Em. cbn [m_P]. change (p_sigma P' = p_sigma (m_P m)). rewrite <- Hsig. exact (boundary_keeps (A:=XA) p_sigma _ _ _ ltac:(reflexivity) Ec). }
      rewrite K, HR. assert (HLL : p_L (m_P m') = p_L (m_P m)) by (eapply assign_untouched; [|exact E]; repeat split).
      rewrite (wi_L0 _ _ HW'), (wi_L0 _ _ H). unfold strip_rows. rewrite HLL.
      destruct (i <? _)%Z; [reflexivity|]. field. auto.
    - apply reached_wired in H.
      destruct s; try discriminate; cbn [assign] in E.
      + unfold set_time_step in E. rewrite (wi_sub _ _ H), Ht in E. injection E as <-. cbn [m_P]. intros i j.
        change (p_sigma (m_P m) i j / p_dt (m_P m) * x = if (i <? p_L0 (m_P m))%Z then 0 else rate * x).
        rewrite HR. destruct (i <? _)%Z; field; auto.
      + injection E as <-. exact HR.
      + injection E as <-. exact HR.
      + apply set_bedload_inv in E as [_ ->]. exact HR.
  Qed.

  Lemma gentle_step c s x (m m' : model (F:=R) S) : reached (A:=XA) (G:=G) (GN:=GN) c m -> gentle (s, x) ->
    p_dt (m_P m) <> 0 -> assign (A:=XA) s x m = Ok m' -> p_dt (m_P m') <> 0.
  Proof.
    intros H [H1 H2] Hd E. cbn [fst snd] in H1, H2. destruct s; try discriminate.
    - apply assign_read in E. cbn [read] in E. unfold get_time_step in E. rewrite E. auto.
    - injection E as <-. exact Hd.
    - injection E as <-. exact Hd.
    - cbn [assign] in E. apply set_bedload_inv in E as [_ ->]. exact Hd.
  Qed.
  Lemma session_rate c l (m m' : model (F:=R) S) rate : session (A:=XA) l m m' -> reached (A:=XA) (G:=G) (GN:=GN) c m ->
    i_toggle_subsidence c = true -> Forall gentle l -> rate_kept rate (m_P m) -> p_dt (m_P m) <> 0 ->
    rate_kept rate (m_P m') /\ p_dt (m_P m') <> 0.
  Proof.
    induction 1 as [m|l m m1 m2 o E H IH|s x l m m1 m2 E H IH]; intros HR Ht Hl Hk Hd; [auto| |].
    - pose proof (reached_update c _ _ _ HR E) as HR1. apply model_update_inv in E as (_ & EP & _).
      apply IH; auto; rewrite EP; auto.
    - inversion Hl as [|? ? Hg Hl']; subst. apply IH; auto.
      + eapply reached_assign; eauto.
      + pose proof (assign_rate c s x m m1 rate HR Ht Hk Hd E) as K. destruct Hg as [Hg _]. cbn [fst] in Hg.
        unfold new_rate in K. rewrite Hg in K. exact K.
      + eapply gentle_step; eauto.
  Qed.
  Lemma fresh_rate (c : inputs R) nb np (m : model S) np' : construct (A:=XA) (G:=G) (GN:=GN) c nb np = Ok (m, np') ->
    p_dt (m_P m) <> 0 /\ (i_toggle_subsidence c = true -> rate_kept (i_subsidence_rate c) (m_P m)).
  Proof.
    intros E. pose proof (construct_outcome (G:=G) (GN:=GN) c nb np) as K. rewrite E in K.
    destruct K as (HA & HV & _ & z & _ & _ & _ & _ & HD & _). split.
    - intros Hz. pose proof (de_dt _ _ HD) as [K _]. rewrite Hz, Rmult_0_l, (de_dVs _ _ HD) in K.
      destruct (de_N0 _ _ HD) as (n & _ & Kn). assert (3 <= p_N0 (m_P m))%Z by lia. pose proof (passes_ge (p_N0 (m_P m)) H).
      destruct (ac_dx _ HA) as [Hx _]. symmetry in K. apply Rmult_integral in K as [K|K]; [lra|].
      apply Rmult_integral in K as [K|K]; [apply HV; right; left; exact K|].
      apply Rmult_integral in K. lra.
    - intros Ht i j. rewrite (de_sigma _ _ HD), Ht. reflexivity.
  Qed.
  Lemma zseq_length n : forall k, length (zseq k n) = n.
  Proof. induction n as [|n IH]; intros k; cbn; [auto|rewrite IH; auto]. Qed.
  Lemma inlet_cells (c : inputs R) nb np (m0 : model S) np' m : construct (A:=XA) (G:=G) (GN:=GN) c nb np = Ok (m0, np') ->
    (5 <= p_W (m_P m0))%Z -> reached (A:=XA) (G:=G) (GN:=GN) c m ->
    Z.of_nat (length (p_inlet (m_P m))) = p_N0 (m_P m0).
  Proof.
    intros E HW H. pose proof (construct_outcome (G:=G) (GN:=GN) c nb np) as K. rewrite E in K.
    destruct K as (_ & _ & _ & z & _ & _ & _ & _ & HD & _ & HL & _). destruct (HL HW) as [first HF].
    destruct (reached_untouched (A:=XA) p_inlet c nb np m0 np' m ltac:(repeat split) E H) as [K6 _]. rewrite K6.
    rewrite (la_inlet _ _ _ HF), zseq_length. destruct (de_N0 _ _ HD) as (n & _ & Kn). lia.
  Qed.

  (** ** C57 *)
  Lemma reached_stale c (m : model (F:=R) S) nb np m0 np' : construct (A:=XA) (G:=G) (GN:=GN) c nb np = Ok (m0, np') ->
    reached (A:=XA) (G:=G) (GN:=GN) c m ->
    p_U_dep_mud (m_P m) = i_coeff_U_dep_mud c * i_u0 c /\ p_U_ero_mud (m_P m) = i_coeff_U_ero_mud c * i_u0 c /\
    p_U_ero_sand (m_P m) = i_coeff_U_ero_sand c * i_u0 c /\
    p_hb (m_P m) = p_hb (m_P m0) /\ p_active_layer_thickness (m_P m) = p_active_layer_thickness (m_P m0) /\
    p_inlet (m_P m) = p_inlet (m_P m0) /\ s_cell_type (m_st m) = s_cell_type (m_st m0).
  Proof.
    intros Ec H. pose proof (construct_outcome (G:=G) (GN:=GN) c nb np) as K. rewrite Ec in K.
    destruct K as (_ & _ & _ & z & _ & _ & _ & _ & HD & _). pose proof (de_thresholds _ _ HD) as (D1 & D2 & D3).
    destruct (reached_untouched (A:=XA) p_U_dep_mud c nb np m0 np' m ltac:(repeat split) Ec H) as [K1 K0].
    destruct (reached_untouched (A:=XA) p_U_ero_mud c nb np m0 np' m ltac:(repeat split) Ec H) as [K2 _].
    destruct (reached_untouched (A:=XA) p_U_ero_sand c nb np m0 np' m ltac:(repeat split) Ec H) as [K3 _].
    destruct (reached_untouched (A:=XA) p_hb c nb np m0 np' m ltac:(repeat split) Ec H) as [K4 _].
    destruct (reached_untouched (A:=XA) p_active_layer_thickness c nb np m0 np' m ltac:(repeat split) Ec H) as [K5 _].
    destruct (reached_untouched (A:=XA) p_inlet c nb np m0 np' m ltac:(repeat split) Ec H) as [K6 _].
    rewrite K1, K2, K3, K4, K5, K6. auto 10.
  Qed.
  Lemma time_step_stale x (m m' : model (F:=R) S) : assign (A:=XA) TimeStep x m = Ok m' ->
    p_dt (m_P m') = x /\ p_Vp_sed (m_P m') = p_Vp_sed (m_P m) /\ p_dVs (m_P m') = p_dVs (m_P m) /\ p_Qs0 (m_P m') = p_Qs0 (m_P m) /\
    p_diffusion_multiplier (m_P m') = p_diffusion_multiplier (m_P m) /\ p_Np_sed (m_P m') = p_Np_sed (m_P m).
  Proof.
    intros E. cbn [assign] in E. unfold set_time_step in E. injection E as <-. cbn [m_P].
    split; [reflexivity|]. repeat split; match goal with |- ?f _ = _ => apply (time_step_params f x m); reflexivity end.
  Qed.
  Lemma bedload_stale x (m m' : model (F:=R) S) : assign (A:=XA) BedloadFraction x m = Ok m' ->
    p_f_bedload (m_P m') = x /\ p_f_bedload_router (m_P m') = p_f_bedload_router (m_P m).
  Proof. intros E. cbn [assign] in E. apply set_bedload_inv in E as [_ ->]. split; reflexivity. Qed.

  (** ** C36: time of the next record *)
  Lemma since_keeps (P : params R) (a b : state R S) o : update (A:=XA) P a = Ok (b, o) -> forall x, s_save_time_since_data a = Fin x ->
    (p_save_dt P <= x + p_dt P /\ records o <> [] /\ s_save_time_since_data b = Fin 0) \/
    (x + p_dt P < p_save_dt P /\ records o = [] /\ s_save_time_since_data b = Fin (x + p_dt P)).
  Proof.
    intros E x Hx. apply advance_since in E as (st0 & E & _ & _ & E1 & _). rewrite Hx in E1. cbn in E1.
    apply write_records in E as (_ & [(H1 & H2 & _ & H3)|(H1 & H2 & _ & H3)]); rewrite E1 in H1.
    - left. apply ext_geb_Fin in H1. split; [auto|]. split; [rewrite H2; discriminate|auto].
    - right. apply ext_geb_Fin_f in H1. split; [auto|]. split; [auto|]. congruence.
  Qed.
  Lemma next_record (P : params R) n : 0 < p_dt P -> forall (a b : state R S) o x, s_save_time_since_data a = Fin x ->
    updates (A:=XA) P n a = Ok (b, o) -> (records o = [] <-> n = O \/ x + INR n * p_dt P < p_save_dt P).
  Proof.
    intros Hd. induction n as [|n IH]; intros a b o x Hx E.
    - injection E as <- <-. cbn. tauto.
    - cbn [updates] in E. apply rbind_Ok in E as ([y oy] & E1 & E). apply rbind_Ok in E as ([z oz] & E2 & E). injection E as <- <-.
      rewrite S_INR. pose proof (pos_INR n) as Hn. assert (0 <= INR n * p_dt P) by (apply Rmult_le_pos; lra).
      rewrite records_app. destruct (since_keeps P a y oy E1 x Hx) as [(H1 & H2 & H3)|(H1 & H2 & H3)].
      + split; [|intros [K|K]; [discriminate|lra]]. intros K. apply app_eq_nil in K as [K _]. contradiction.
      + rewrite H2. cbn [app]. rewrite (IH y z oz _ H3 E2). destruct n as [|n].
        * split; [intros _; right; cbn [INR]; lra|auto].
        * split; [intros [K|K]; [discriminate|right; lra]|intros [K|K]; [discriminate|right; lra]].
  Qed.
  Lemma since_nonneg (P : params R) n : 0 < p_dt P -> forall (a b : state R S) o x, s_save_time_since_data a = Fin x -> 0 <= x ->
    updates (A:=XA) P n a = Ok (b, o) -> exists y, s_save_time_since_data b = Fin y /\ 0 <= y.
  Proof.
    intros Hd. induction n as [|n IH]; intros a b o x Hx H0 E.
    - injection E as <- <-. eauto.
    - cbn [updates] in E. apply rbind_Ok in E as ([y oy] & E1 & E). apply rbind_Ok in E as ([z oz] & E2 & E). injection E as <- <-.
      destruct (since_keeps P a y oy E1 x Hx) as [(_ & _ & H3)|(_ & _ & H3)]; eapply IH; eauto; lra.
  Qed.
  Lemma run_since (c : inputs R) nb np k st o (m : model S) np' : construct (A:=XA) (G:=G) (GN:=GN) c nb np = Ok (m, np') ->
    run_model (A:=XA) (G:=G) (GN:=GN) c nb np k = Ok (st, o) -> 0 < p_dt (m_P m) ->
    exists x, s_save_time_since_data st = Fin x /\ 0 <= x.
  Proof.
    intros Ec E Hd. apply run_model_inv in E as (m' & np2 & st1 & o0 & o1 & Ec' & Ew & Eu & _).
    rewrite Ec in Ec'. injection Ec' as <- <-.
    assert (K : s_save_time_since_data st1 = Fin 0).
    { destruct (construct_fresh c nb np m np' Ec) as (Hi & _).
      apply write_records in Ew as (_ & [(H1 & _ & _ & H3)|(H1 & _)]); [auto|]. rewrite Hi in H1. cbn in H1. discriminate. }
    eapply since_nonneg; eauto. lra.
  Qed.
  Lemma run_positive_step (c : inputs R) nb np (m : model S) np' : construct (A:=XA) (G:=G) (GN:=GN) c nb np = Ok (m, np') ->
    0 < i_u0 c -> 0 < p_dt (m_P m).
  Proof.
    intros E Hu. pose proof (construct_outcome (G:=G) (GN:=GN) c nb np) as K. rewrite E in K.
    destruct K as (_ & _ & _ & z & _ & _ & _ & _ & HD & _). apply (de_dt_sign _ _ HD). exact Hu.
  Qed.

  Lemma resumed_timing (c : inputs R) nb np k st o ck nb' np2 missing r np3 x :
    run_model (A:=XA) (G:=G) (GN:=GN) c nb np k = Ok (st, o) -> In (Checkpoint ck) o -> 0 < i_u0 c ->
    c_save_time_since_data ck = Fin x ->
    resume (A:=XA) (GN:=GN) c ck missing nb' np2 = Ok (r, np3) ->
    0 <= x /\ 0 < p_dt (m_P r) /\
    exists ox, rmap snd (run_model (A:=XA) (G:=G) (GN:=GN) c nb np (Z.to_nat (c_time_iter ck))) = Ok ox /\
    forall n,
      (forall a oa, run_model (A:=XA) (G:=G) (GN:=GN) c nb np (Z.to_nat (c_time_iter ck) + n) = Ok (a, ox ++ oa) ->
        (records oa = [] <-> n = O \/ x + INR n * p_dt (m_P r) < p_save_dt (m_P r))) /\
      (forall b ob, updates (A:=XA) (m_P r) n (m_st r) = Ok (b, ob) ->
        (records ob = [] <-> n = O \/ IZR (Ztrunc x) + INR n * p_dt (m_P r) < p_save_dt (m_P r))).
  Proof.
    intros E H Hu Hx Er. destruct (run_checkpoint _ _ _ _ _ _ _ E H) as (y & oy & _ & Ey & Hck).
    pose proof Ey as Ei. apply run_model_inv in Ei as (m & np' & st1 & o0 & o1 & Ec & _ & _ & _).
    destruct (resume_related (A:=XA) c nb np _ m np' y oy nb' np2 missing Ec Ey eq_refl) as (r' & np3' & Er' & HP & Hfin & HR & _ & Hph).
    rewrite <- Hck, Er in Er'. injection Er' as <- <-.
    pose proof (run_positive_step c nb np m np' Ec Hu) as Hd.
    assert (Hx' : s_save_time_since_data y = Fin x) by (rewrite Hck in Hx; exact Hx).
    destruct (run_since c nb np _ y oy m np' Ec Ey Hd) as (x' & Hx2 & H0). rewrite Hx' in Hx2. injection Hx2 as <-.
    destruct (Hph x Hx') as [Hph1 _]. rewrite HP. split; [exact H0|]. split; [exact Hd|]. exists oy. split; [rewrite Ey; reflexivity|].
    intros n. split.
    - intros a oa Ea. rewrite (run_model_app c nb np _ n m np' y oy Ec Ey) in Ea.
      apply rbind_Ok in Ea as ([a' oa'] & Eu & Ea). injection Ea as <- Ea. apply app_inv_head in Ea. subst oa'.
      eapply next_record; eauto.
    - intros b ob Eb. eapply next_record; eauto.
  Qed.
End Exact.
