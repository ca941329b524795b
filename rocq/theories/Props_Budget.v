(** Property C79 (the sediment account of a run). *)
From Coq Require Import ZArith List Bool Reals Lra Lia.
From Verif Require Import Base RLemmas Shared SharedSpec Params State Water Sed Iter WaterSpec SedSpec ChanceSpec SedRules
  SedCor IterSpec IterProofs Inputs Init InitSpec InitProofs FrameProofs BudgetSpec BudgetProofs Examples Props_Sed Props_Iter Props_Init.
Import ListNotations.
Local Open Scope R_scope.

(** Every run has an account: one line for each update, and the volume of the
    bed changes by the sum of the lines.  With physical constants no line
    leaves a negative volume in the parcels. *)
Theorem C79_run_has_an_account :
  forall (S : Type) (G : Rng R S) (P : params R) (n : nat) (st st' : state R S) o,
    uniform_range G -> (forall s, 0 < fst (draw s)) -> (0 <= p_Np_sed P)%Z -> 0 <= p_f_bedload P <= 1 ->
    model_ready P st -> updates (A:=RX) P n st = Ok (st', o) ->
    exists l, List.length l = n /\ accounts P st l st' /\
      bed_volume P (s_eta st') - bed_volume P (s_eta st) = total net l /\
      (physical P st -> Forall (fun a => 0 <= a_left a) l).
Proof.
  intros S G P n st st' o HG Hu HN Hf Hr E.
  destruct (accounts_exist P HG Hu HN Hf n st st' o Hr E) as (l & H1 & H2 & H3).
  exists l. split; [exact H1|]. split; [exact H2|]. split; [|exact H3].
  apply accounts_volume; [|exact H2]. destruct Hr as (_ & _ & HD). exact (dv_dx _ _ HD).
Qed.
Print Assumptions C79_run_has_an_account.

(** Any account by the rules explains the change of the bed. *)
Theorem C79_accounts_balance :
  forall (S : Type) (G : Rng R S) (P : params R) (st st' : state R S) l,
    p_dx P <> 0 -> accounts P st l st' ->
    bed_volume P (s_eta st') - bed_volume P (s_eta st) = total net l.
Proof. intros S G P st st' l. exact (accounts_volume P st st' l). Qed.
Print Assumptions C79_accounts_balance.

(** The sediment delivered to a configured model is the configured sediment
    discharge times the time that has passed, when the share of sand is a whole
    number of parcels; otherwise one parcel of every update is missing. *)
Theorem C79_delivered :
  forall (S : Type) (G : Rng R S) (c : inputs R) (P : params R) (st st' : state R S) l,
    derived c P -> (0 < i_Np_sed c)%Z -> accounts P st l st' ->
    let supply := i_u0 c * i_h0 c * (IZR (p_N0 P) * i_dx c) * (i_C0_percent c / 100) in
    (whole_shares P -> total a_fed l = supply * (s_time st' - s_time st)) /\
    (~ whole_shares P -> total a_fed l = (1 - / IZR (i_Np_sed c)) * (supply * (s_time st' - s_time st))).
Proof.
  intros S G c P st st' l Hd HN Ha. cbv zeta. destruct (fed_total P st st' l Ha) as (H1 & H2 & H3).
  rewrite H3. pose proof (de_Qs0 _ _ Hd) as EQ. rewrite (de_Qw0 _ _ Hd) in EQ. rewrite <- EQ.
  pose proof (de_sed_parcels _ _ Hd) as EV. destruct (de_dt _ _ Hd) as [Edt _].
  assert (EN : p_Np_sed P = i_Np_sed c) by (destruct (de_copied _ _ Hd) as (_ & _ & _ & _ & _ & _ & E & _); exact E).
  rewrite EN in H1, H2. assert (0 < IZR (i_Np_sed c)) by (apply IZR_lt; exact HN).
  split; intros Hw.
  - rewrite (H1 Hw), EV, <- Edt. ring.
  - rewrite (H2 Hw). apply (Rmult_eq_reg_l (IZR (i_Np_sed c))); [|lra].
    replace (IZR (i_Np_sed c) * (INR (Datatypes.length l) * ((IZR (i_Np_sed c) - 1) * p_Vp_sed P)))
      with (INR (Datatypes.length l) * (IZR (i_Np_sed c) - 1) * (IZR (i_Np_sed c) * p_Vp_sed P)) by ring.
    rewrite EV, <- Edt. field. lra.
Qed.
Print Assumptions C79_delivered.

(** Subsidence takes the configured rate from every row past the inlet, once
    it has started. *)
Theorem C79_sunk :
  forall (S : Type) (G : Rng R S) (c : inputs R) (P : params R) (st st' : state R S) a,
    derived c P -> accounted P st st' a ->
    (subsides P st -> a_sunk a = i_dx c * i_dx c * (IZR (p_W P) * IZR (p_L P - p_L0 P)) * (i_subsidence_rate c * p_dt P)) /\
    (~ subsides P st -> a_sunk a = 0).
Proof.
  intros S G c P st st' a Hd (sw & s0 & s1 & s2 & sd & Vs1 & Vs2 & x & y & low & _ & _ & _ & _ & _ & _ & _ & _ & _ & _ & _ & A6 & A7 & _).
  rewrite A7. destruct (de_copied _ _ Hd) as (Edx & _ & _ & _ & _ & _ & _ & _ & _ & _ & _ & _ & _ & _ & _ & _ & _ & Et & _).
  destruct (de_rows _ _ Hd) as [_ HL]. destruct (de_cols _ _ Hd) as [_ HW]. destruct (de_L0 _ _ Hd) as (n0 & _ & EL).
  assert (HL0 : (0 <= p_L0 P <= p_L P)%Z).
  { pose proof (Z.div_le_upper_bound (p_L P) 4 (p_L P)). rewrite EL. lia. }
  split; intros Hs.
  - rewrite <- Edx. apply sunk_rows; [exact HL0|lia|]. intros i j. rewrite (proj1 (A6 i j) Hs).
    rewrite (de_sigma _ _ Hd). destruct Hs as [Hs _]. rewrite <- Et, Hs. reflexivity.
  - replace 0 with (p_dx P * p_dx P * (IZR (p_W P) * IZR (p_L P - p_L0 P)) * (0 * p_dt P)) by ring.
    apply sunk_rows; [exact HL0|lia|]. intros i j. rewrite (proj2 (A6 i j) Hs). unfold lowering.
    destruct (_ <? _)%Z; lra.
Qed.
Print Assumptions C79_sunk.

(** Without diffusion nothing crosses the border or comes from land. *)
Theorem C79_no_diffusion :
  forall (S : Type) (G : Rng R S) (P : params R) (st st' : state R S) a,
    p_diffusion_multiplier P = 0 -> accounted P st st' a -> a_border a = 0 /\ a_fixed a = 0.
Proof.
  intros S G P st st' a Hm (sw & s0 & s1 & s2 & sd & Vs1 & Vs2 & x & y & low & _ & _ & _ & _ & _ & _ & _ & _ & A3 & A4 & A5 & _).
  destruct (no_diffusion P _ _ _ _ _ _ (or_introl Hm) A3) as [-> ->]. rewrite A4, A5. lra.
Qed.
Print Assumptions C79_no_diffusion.

(** A configured model, from its configuration to any number of updates: the
    bed cannot gain more than was delivered, apart from what diffusion brings
    and the resetting of the inlet. *)
Theorem C79_bed_gains_at_most_the_supply :
  forall (S N : Type) (G : Rng R S) (GN : NpRng N) (c : inputs R) (nb : S) (np np' : N) (m : model S) (n : nat) st' o,
    uniform_range G -> (forall s, 0 < fst (draw s)) ->
    runnable c -> 0 < i_h0 c -> 0 <= i_beta c -> 0 <= i_sed_lag c <= 1 ->
    construct (A:=RX) c nb np = Ok (m, np') -> updates (A:=RX) (m_P m) n (m_st m) = Ok (st', o) ->
    exists l, List.length l = n /\ accounts (m_P m) (m_st m) l st' /\
      bed_volume (m_P m) (s_eta st') - bed_volume (m_P m) (s_eta (m_st m)) = total net l /\
      bed_volume (m_P m) (s_eta st') - bed_volume (m_P m) (s_eta (m_st m))
        <= i_u0 c * i_h0 c * (IZR (p_N0 (m_P m)) * i_dx c) * (i_C0_percent c / 100) * s_time st'
           - total a_border l + total a_fixed l - total a_sunk l + total a_filled l.
Proof.
  intros S N G GN c nb np np' m n st' o HG Hu Hr Hh Hb Hlag E E2.
  destruct (runnable_ready (G:=G) c nb np Hr) as (m0 & np0 & E0 & Hm).
  change RX with (RA (fun x => x)) in *. rewrite E in E0. injection E0 as <- <-.
  pose proof (construct_outcome c nb np) as H. rewrite E in H.
  destruct H as (Ha & _ & _ & z & _ & _ & _ & _ & Hd & Hi & _).
  pose proof (de_copied _ _ Hd) as Hc. destruct Hc as (Cdx & Ch & Cu & _ & Cit & _ & Cn & Cf & _ & Cb & Cl & _).
  pose proof (ac_Np_sed _ Ha) as HN. pose proof (ac_f_bedload _ Ha) as Hf.
  destruct (C79_run_has_an_account S G (m_P m) n (m_st m) st' o HG Hu ltac:(lia) ltac:(rewrite Cf; exact Hf) Hm E2)
    as (l & L1 & L2 & L3 & L4).
  exists l. split; [exact L1|]. split; [exact L2|]. split; [exact L3|]. rewrite L3.
  pose proof (ac_dx _ Ha) as (Hdx & _). pose proof (ru_u0 _ Hr) as Hu0.
  pose proof (ru_thresholds _ Hr) as (T1 & T2 & T3). destruct (de_thresholds _ _ Hd) as (D1 & D2 & D3).
  assert (HN' : 0 < IZR (i_Np_sed c)) by (apply IZR_lt; exact HN).
  assert (Hph : physical (m_P m) (m_st m)).
  { split; [|split; [rewrite Cl; exact Hlag|split; [|split; [|split]]]].
    - constructor; try (rewrite ?Cdx, ?Cu, ?Cb, ?D2, ?D3; lra).
      + pose proof (de_sed_parcels _ _ Hd) as EV. rewrite (de_dVs _ _ Hd) in EV.
        assert (0 <= IZR (p_N0 (m_P m) * p_N0 (m_P m))) by (apply IZR_le; nia).
        assert (0 <= IZR (p_N0 (m_P m) * p_N0 (m_P m)) / 10 * (i_h0 c * (i_dx c * i_dx c))).
        { apply Rmult_le_pos; [lra|]. apply Rmult_le_pos; [lra|]. apply Rmult_le_pos; lra. }
        apply (Rmult_le_reg_l (IZR (i_Np_sed c))); lra.
      + rewrite D3. apply Rmult_lt_0_compat; lra.
      + rewrite D2. apply Rmult_lt_0_compat; lra.
      + intros i j. destruct (in_modifiers _ _ _ Hi i j) as (_ & _ & ->). lra.
    - rewrite (de_u_max _ _ Hd). lra.
    - rewrite (de_dry _ _ Hd). apply Rmin_glb; lra.
    - rewrite (de_qw0 _ _ Hd). apply Rmult_le_pos; lra.
    - rewrite Cit. pose proof (ru_itermax _ Hr). lia. }
  specialize (L4 Hph).
  assert (Hsplit : total net l = total a_fed l - total a_left l - total a_border l + total a_fixed l - total a_sunk l + total a_filled l).
  { unfold total. clear. induction l as [|a l IH]; cbn [map rsum]; [lra|]. unfold net at 1. lra. }
  assert (Hleft : 0 <= total a_left l) by (unfold total; clear - L4; induction L4; cbn [map rsum]; lra).
  destruct (in_clock _ _ _ Hi) as (Ht & _).
  assert (Hfed : total a_fed l <= i_u0 c * i_h0 c * (IZR (p_N0 (m_P m)) * i_dx c) * (i_C0_percent c / 100) * s_time st').
  { destruct (fed_total (m_P m) (m_st m) st' l L2) as (F1 & F2 & F3).
    pose proof (de_sed_parcels _ _ Hd) as EV. destruct (de_dt _ _ Hd) as [Edt _].
    pose proof (de_Qs0 _ _ Hd) as EQ. rewrite (de_Qw0 _ _ Hd) in EQ. rewrite <- EQ, F3, Ht.
    rewrite Rplus_0_l. replace (p_Qs0 (m_P m) * (INR (Datatypes.length l) * p_dt (m_P m)))
      with (INR (Datatypes.length l) * (IZR (i_Np_sed c) * p_Vp_sed (m_P m))) by (rewrite EV, <- Edt; ring).
    pose proof (pos_INR (Datatypes.length l)). rewrite Cn in F1, F2.
    assert (0 <= p_Vp_sed (m_P m)) by (destruct Hph as [Q _]; exact (sp_Vp _ _ Q)).
    assert (whole_shares (m_P m) \/ ~ whole_shares (m_P m)) as [Hw|Hw].
    { rewrite <- Cn in HN. destruct (num_starts_split (m_P m) ltac:(lia) ltac:(rewrite Cf; exact Hf)) as (_ & _ & _ & K).
      destruct (Z.eq_dec (num_starts (A:=RX) (m_P m) Sand + num_starts (A:=RX) (m_P m) Mud) (p_Np_sed (m_P m))) as [e|e].
      - left. apply K. exact e.
      - right. intros H5. apply e, K, H5. }
    - rewrite (F1 Hw). lra.
    - rewrite (F2 Hw). apply Rmult_le_compat_l; [assumption|]. lra. }
  lra.
Qed.
Print Assumptions C79_bed_gains_at_most_the_supply.

(** The example configuration meets the conditions; its share of sand is two
    of four parcels. *)
Example C79_hypotheses :
  runnable (exI (A:=RX)) /\ 0 < i_h0 (exI (A:=RX)) /\ 0 <= i_beta (exI (A:=RX)) /\ 0 <= i_sed_lag (exI (A:=RX)) <= 1 /\
  forall n, exists m np' st' o,
    construct (A:=RX) (G:=half_rng) (GN:=count_rng) (exI (A:=RX)) tt 0%Z = Ok (m, np') /\
    updates (A:=RX) (G:=half_rng) (m_P m) n (m_st m) = Ok (st', o) /\ whole_shares (m_P m).
Proof.
  split; [exact exI_runnable|]. split; [cbn; lra|]. split; [cbn; lra|]. split; [cbn; lra|]. intros n.
  destruct (runnable_ready (G:=half_rng) (exI (A:=RX)) tt 0%Z exI_runnable) as (m & np' & E & Hm).
  destruct (updates_total (G:=half_rng) (m_P m) n (m_st m) Hm half_rng_range half_rng_pos) as (st' & o & E2 & _).
  exists m, np', st', o. split; [exact E|]. split; [exact E2|].
  pose proof (construct_outcome (G:=half_rng) (exI (A:=RX)) tt 0%Z) as H. rewrite E in H.
  destruct H as (_ & _ & _ & z & _ & _ & _ & _ & Hd & _).
  destruct (de_copied _ _ Hd) as (_ & _ & _ & _ & _ & _ & Cn & Cf & _).
  exists 2%Z. rewrite Cn, Cf. cbn. lra.
Qed.

(** A share that is not whole: half of five parcels. *)
Definition ex_five : inputs R := seti_Np_sed 5 (exI (A:=RX)).
Example C79_missing_parcel : forall P, derived ex_five P -> ~ whole_shares P.
Proof.
  intros P Hd [z Hz]. destruct (de_copied _ _ Hd) as (_ & _ & _ & _ & _ & _ & Cn & Cf & _). rewrite Cn, Cf in Hz.
  assert (E : (2 * z)%Z = 5%Z) by (apply eq_IZR; rewrite mult_IZR, Hz; cbn; lra). lia.
Qed.
