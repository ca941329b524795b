(** The routers follow the rules of SedRules.v. *)
From Coq Require Import ZArith List Bool Reals Lra Lia.
From Flocq Require Import Core.Raux.
From Verif Require Import Base RLemmas Shared SharedSpec SharedProofs Params State Sed
  VecLemmas WaterSpec WeightSpec WeightFormula SedSpec WeightProofs RunProofs SedProofs SedEvents SedCor Diffusion ChanceSpec ChanceProofs SedRules.
Import ListNotations.
Local Open Scope R_scope.

Section Follow.
  Notation XA := (RA (fun x => x)).
  Notation id := (fun x : R => x).
  Context {S : Type} {G : Rng R S} (P : params R) (g : grain) (st : state R S).
  Notation L := (p_L P).
  Notation W := (p_W P).

  Lemma share_pos v k : (forall k, (k < 9)%nat -> 0 <= v k) -> (k < 9)%nat ->
    0 < v k / sum9 v -> share v k = v k / sum9 v.
  Proof.
    intros Hv Hk Hp. unfold share. destruct (Rlt_dec 0 (sum9 v)) as [|N]; auto.
    assert (0 <= sum9 v) by (apply sum9_nonneg; auto).
    assert (E : sum9 v = 0) by lra. rewrite E in Hp. unfold Rdiv in Hp. rewrite Rinv_0 in Hp. lra.
  Qed.

  Lemma attraction_nonneg b i j k : (k < 9)%nat -> 0 <= attraction P g st b i j k.
  Proof.
    intros Hk. unfold attraction, sed_score, only. destruct (deep_dec _ _ _ _); [|lra].
    apply Rmult_le_pos; [apply npow_nonneg|]. unfold inertia. apply Rmax_l.
  Qed.

  Lemma weight_chance b i j w k : inb L W i j -> sed_weights (A:=XA) P g st b i j = Ok w ->
    (k < 9)%nat -> w k = chance P g st b i j k.
  Proof.
    intros Hin E Hk. pose proof (sed_formula P g st b i j Hin) as H. cbv zeta in H.
    assert (Ew : window (b_pad_depth b) i j = seen b i j).
    { reflexivity. }
    rewrite Ew in H. change (theta_of P g) with (match g with Sand => p_theta_sand P | Mud => p_theta_mud P end) in H.
    fold (attraction P g st b i j) in H. destruct H as (H1 & H2 & H3).
    unfold chance. destruct (Rlt_dec 0 (sum9 (attraction P g st b i j))) as [Hp|Hn].
    - destruct (H1 Hp) as (w' & E' & Hw). rewrite E in E'. injection E' as <-. rewrite Hw by auto.
      unfold share. destruct (Rlt_dec _ _); [reflexivity|contradiction].
    - assert (E0 : sum9 (attraction P g st b i j) = 0).
      { assert (0 <= sum9 (attraction P g st b i j)) by (apply sum9_nonneg; intros; apply attraction_nonneg; auto). lra. }
      set (cn := at_nb L W (s_cell_type st) i j) in *.
      assert (Hex : (exists k, (k < 9)%nat /\ not_land cn k) \/ forall k, (k < 9)%nat -> ~ not_land cn k).
      { destruct (existsb (fun k => if not_land_dec cn k then true else false) (seq 0 9)) eqn:Ee.
        - left. apply existsb_exists in Ee as (m & Hm & Hd). apply in_seq in Hm. exists m. split; [lia|].
          destruct (not_land_dec cn m); [auto|discriminate].
        - right. intros m Hm Hl. assert (Ht : existsb (fun k => if not_land_dec cn k then true else false) (seq 0 9) = true).
          { apply existsb_exists. exists m. split; [apply in_seq; lia|]. destruct (not_land_dec cn m); [auto|contradiction]. }
          congruence. }
      destruct Hex as [Hex|Hno]; [|rewrite (H3 Hno) in E; discriminate].
      destruct (H2 E0 Hex) as (w' & E' & Hw). rewrite E in E'. injection E' as <-. rewrite Hw by auto.
      assert (Hge : forall m, (m < 9)%nat -> 0 <= sed_aimless cn m).
      { intros m Hm. unfold sed_aimless, only. destruct (not_land_dec cn m) as [[N _]|]; [|lra].
        pose proof (ndist_pos m Hm N). apply Rdiv_nonneg; lra. }
      unfold share. destruct (Rlt_dec 0 (sum9 (sed_aimless cn))) as [|N]; [reflexivity|].
      assert (0 <= sum9 (sed_aimless cn)) by (apply sum9_nonneg; auto).
      exfalso. destruct Hex as (m & Hm & Hl).
      assert (0 < sed_aimless cn m).
      { unfold sed_aimless, only. destruct (not_land_dec cn m) as [[Nn _]|]; [|contradiction].
        pose proof (ndist_pos m Hm Nn). apply Rdiv_lt_0_compat; lra. }
      pose proof (sum9_ge (sed_aimless cn) m Hge Hm). lra.
  Qed.

  Lemma changed_gset f i j x : changed f i j x (gset f i j x).
  Proof. split; [apply gset_same|intros; apply gset_other; auto]. Qed.

  Lemma flux_part_half V : p_dt P <> 0 -> p_dx P <> 0 -> flux_part (A:=XA) P V = half_load P V.
  Proof. intros. unfold flux_part, half_load. ra. field. auto. Qed.

  Lemma stop_move u b V e : p_dt P <> 0 -> p_dx P <> 0 -> stop id P g st b V e ->
    (exists k, chosen 9 (chance P g st b (ev_i0 e) (ev_j0 e)) u k /\
      ev_px e = (ev_i0 e + Z.of_nat k / 3 - 1)%Z /\ ev_py e = (ev_j0 e + Z.of_nat k mod 3 - 1)%Z) ->
    rule_move P g st u b V e.
  Proof.
    intros Hdt Hdx H Hdir. pose proof (stop_fields id P g st b V e H) as HF. cbv zeta in HF.
    destruct HF as (E1 & E2 & E3 & E4 & _ & _).
    pose proof (stop_rule P g st b V e H) as Hrule.
    pose proof (stop_bed_changed P g st b V e H) as Hbed.
    pose proof (stop_recorded P g st b V e H) as Hrec.
    destruct H as [Hf (w & k & Ew & Hk & Hk4 & Hw & Ex & Ey) (Ei & Ej & Hin) HV Hb HdV Hb'].
    assert (Efl : only_flux b (ev_b e) /\ forall a c, b_qs (ev_b e) a c = b_qs b a c +
      match g with
      | Sand => half_load P V * (here (ev_i0 e) (ev_j0 e) a c + here (ev_i e) (ev_j e) a c)
      | Mud => 0
      end).
    { rewrite Hb. destruct g; (split; [repeat split|]); intros a c; cbn [set_qs_bed b_qs]; [|lra].
      unfold add_at, gset, here. rewrite !flux_part_half by auto. ra.
      destruct (Z.eqb_spec a (ev_i e)) as [Ea|Na]; [destruct (Z.eqb_spec c (ev_j e)) as [Ec|Nc]|];
        cbn [andb]; rewrite <- ?Ea, <- ?Ec;
        destruct ((_ =? ev_i0 e) && (_ =? ev_j0 e))%Z eqn:Q; rewrite ?Q; try lra;
        apply andb_prop in Q as [Q1 Q2]; apply Z.eqb_eq in Q1, Q2; rewrite <- ?Q1, <- ?Q2; lra. }
    assert (Euv : b_qs (ev_b' e) = b_qs (ev_b e) /\
      let along (q : grid R) := if Rlt_dec 0 (s_qw st (ev_i e) (ev_j e))
        then b_uw (ev_b' e) (ev_i e) (ev_j e) * q (ev_i e) (ev_j e) / s_qw st (ev_i e) (ev_j e) else 0 in
      changed (b_ux b) (ev_i e) (ev_j e) (along (s_qx st)) (b_ux (ev_b' e)) /\
      changed (b_uy b) (ev_i e) (ev_j e) (along (s_qy st)) (b_uy (ev_b' e))).
    { assert (Eb : b_ux (ev_b e) = b_ux b /\ b_uy (ev_b e) = b_uy b) by (rewrite Hb; destruct g; split; reflexivity).
      destruct Eb as [Ex1 Ey1]. rewrite Hb'. unfold deposit_or_erode, update_fields.
      destruct g; cbn [fst b_qs b_uw b_ux b_uy]; rewrite Ex1, Ey1; (split; [reflexivity|]);
        cbv zeta; rewrite gset_same; ra;
        destruct (Rltb_spec 0 (s_qw st (ev_i e) (ev_j e))), (Rlt_dec 0 (s_qw st (ev_i e) (ev_j e))); try lra;
        split; apply changed_gset. }
    destruct Euv as [Eqs Euv].
    constructor; auto.
    - cbv zeta. rewrite E1, E2, E3, gset_same. split; apply changed_gset.
    - cbv zeta. rewrite E2, E4, gset_same.
      match goal with |- context [Rltb 0 ?d] => destruct (Rltb_spec 0 d); destruct (Rlt_dec 0 d); try contradiction end;
        apply changed_gset.
  Qed.

  Context (HS : sed_ready P st) (HD : divisors_ok id P) (HG : uniform_range G) (Hu : forall s, 0 < fst (draw s)).

  Lemma step_drawn b V i j s px py b' V' s' : inb L W i j ->
    sed_step (A:=XA) P g st b V i j s = Ok (px, py, b', V', s') ->
    s' = snd (draw s) /\ exists k, chosen 9 (chance P g st b i j) (fst (draw s)) k /\
      px = (i + Z.of_nat k / 3 - 1)%Z /\ py = (j + Z.of_nat k mod 3 - 1)%Z.
  Proof.
    intros Hin E. unfold sed_step in E. apply rbind_Ok in E as ([k s1] & Ek & E).
    unfold choose_next_location in Ek. rewrite (proj2 (inbb_spec L W i j) Hin) in Ek.
    apply rbind_Ok in Ek as (w & Ew & Ek).
    pose proof (sed_weights_ok id P g st b i j Hin) as Hw. rewrite Ew in Hw. destruct Hw as [Hw0 _].
    apply (pick_chosen HG Hu 9 w) in Ek as [-> Hc]; auto.
    2:{ rewrite sed_weights_unfold in Ew. apply sed_weight_sum in Ew.
        change (upto w 9) with (rsum (map w D9)). rewrite rsum_D9. lra. }
    assert (Hk : (k < 9)%nat) by apply Hc.
    pose proof (get_steps_nb id k Hk i j) as Hst. destruct (get_steps k) as [[[dist istep] jstep] ast].
    destruct Hst as [[Ei Ej] _].
    apply rbind_Ok in E as ([i0 j0] & _ & E). apply rbind_Ok in E as ([i1 j1] & _ & E).
    match type of E with (if ?c then _ else _) = _ => destruct c; [discriminate|] end.
    match type of E with (let (_, _) := ?c in _) = _ => destruct c as [b2 V2] end.
    injection E as <- <- <- <- <-. split; [reflexivity|].
    exists k. split.
    - eapply chosen_ext; [|exact Hc]. intros m Hm. apply weight_chance; auto.
    - unfold nb_row, nb_col in *. lia.
  Qed.

  Lemma one_journey fuel : forall b V i j s b' V' s', on_bed P st i j ->
    route_one_parcel (A:=XA) P g st fuel b V i j s = Ok (b', V', s') ->
    exists es, journey P g st fuel i j b V s es b' V' s'.
  Proof.
    induction fuel as [|n IH]; intros b V i j s b' V' s' Hb E; cbn [route_one_parcel] in E; [discriminate|].
    destruct (sed_step_ok id P g st HS b V i j s HD HG (sed_picks_exact P g st Hu) Hb)
      as (e & s1 & E1 & E2 & Hst & Es & Ec & Hon).
    pose proof (step_drawn b V i j s _ _ _ _ _ (proj1 Hb) Es) as [Hs1 Hdir]. subst s1.
    rewrite Es in E. cbn [rbind] in E. rewrite Ec in E. cbn [rbind] in E.
    assert (Hm : rule_move P g st (fst (draw s)) b V e).
    { apply stop_move; auto; [apply (dv_dt _ _ HD)|apply (dv_dx _ _ HD)|]. rewrite E1, E2. exact Hdir. }
    destruct (Z.eqb_spec (s_cell_type st (ev_i e) (ev_j e)) (-1)) as [Ee|Ee]; cbn [orb] in E.
    - injection E as <- <- <-. exists [e]. apply journey_end; auto.
    - destruct (Nat.eqb_spec n 0) as [En|En].
      + injection E as <- <- <-. exists [e]. apply journey_end; auto.
      + apply IH in E as (es & Hj); [|apply Hon; auto]. exists (e :: es). apply journey_on; auto.
  Qed.

  Lemma all_journeys starts : forall b s b' Vs s', Forall (fun c => In c (p_inlet P)) starts ->
    route_parcels (A:=XA) P g st starts b s = Ok (b', Vs, s') ->
    exists hs, journeys P g st starts b s hs b' Vs s'.
  Proof.
    induction starts as [|c cs IH]; intros b s b' Vs s' Hin E; cbn [route_parcels] in E.
    - injection E as <- <- <-. exists []. constructor.
    - inversion Hin as [|? ? Hc Hcs]; subst.
      pose proof (sd_domain P st HS) as WD.
      destruct (wd_inlet _ _ _ _ _ WD c Hc) as (Hr & Hl & He).
      assert (Hb : on_bed P st 0 c).
      { pose proof (wd_L0 _ _ _ _ _ WD). split; [split; lia|auto]. }
      rewrite (cell_ix_in P 0 c) in E by apply Hb. cbn [rbind] in E. rewrite (has_flux_scale id P g HD) in E.
      change (match g with Sand => set_qs_bed b (add_at (A:=XA) (b_qs b) 0 c (flux_part (A:=XA) P (p_Vp_sed P)))
                         | Mud => b end) with (entry_bed id P g b c) in E.
      apply rbind_Ok in E as ([[b1 V1] s1] & E1 & E). apply rbind_Ok in E as ([[b2 Vs2] s2] & E2 & E).
      injection E as <- <- <-.
      apply one_journey in E1 as (es & Hj); auto. apply IH in E2 as (hs & Hh); auto.
      exists (es :: hs). econstructor; [|exact Hj|exact Hh].
      unfold enters, entry_bed. destruct g; (split; [repeat split|]); intros a d; cbn [set_qs_bed b_qs]; [|lra].
      unfold add_at, gset, here. rewrite flux_part_half by (apply (dv_dt _ _ HD) || apply (dv_dx _ _ HD)). ra.
      destruct (Z.eqb_spec a 0), (Z.eqb_spec d c); subst; cbn [andb]; lra.
  Qed.

  Lemma outset_ok : (1 <= L)%Z -> (1 <= W)%Z -> at_outset P st (bed_of (A:=XA) P st).
  Proof.
    intros HL HW. repeat split. intros i j Hi Hj. cbn [bed_of b_pad_depth].
    rewrite custom_pad_edge by lia. unfold nearest. f_equal; f_equal; lia.
  Qed.

  Lemma close_ok b s : at_close st b (set_rng s (put_bed P b st)).
  Proof.
    unfold at_close. repeat (split; [unfold put_bed; cbn [s_eta s_depth s_uw s_ux s_uy s_qs s_Vp_dep_sand s_Vp_dep_mud set_rng set_Vp_dep_mud set_Vp_dep_sand set_eta set_depth set_uw set_ux set_uy set_qs]; apply gmemo_id|]).
    apply put_bed_frame.
  Qed.

  Lemma count_ok n : (0 <= p_Np_sed P)%Z -> 0 <= p_f_bedload P <= 1 ->
    Z.of_nat n = Z.max 0 (num_starts (A:=XA) P g) -> parcel_count P g n.
  Proof.
    intros HN Hf En. destruct (num_starts_split P HN Hf) as (_ & H1 & H2 & _).
    rewrite Z.max_r in En by (destruct g; auto). unfold parcel_count.
    rewrite INR_IZR_INZ, En. unfold num_starts, parcel_share. apply IZR_le in HN. destruct g; ra.
    - rewrite Ztrunc_floor by nra. split; [apply Zfloor_lb|apply Zfloor_ub].
    - rewrite Ztrunc_floor by nra. split; [apply Zfloor_lb|apply Zfloor_ub].
  Qed.

  Lemma routers_follow_rules st' Vs : (0 <= p_Np_sed P)%Z -> 0 <= p_f_bedload P <= 1 ->
    route_all_parcels_res (A:=XA) P g st = Ok (st', Vs) ->
    exists starts hs b b' s, at_outset P st b /\ entries (p_inlet P) starts (s_rng st) s /\
      journeys P g st starts b s hs b' Vs (s_rng st') /\ at_close st b' st' /\
      parcel_count P g (List.length starts).
  Proof.
    intros HN Hf E. pose proof (sd_domain _ _ HS) as WD.
    pose proof (num_starts_split P HN Hf) as (_ & N1 & N2 & _).
    unfold route_all_parcels_res in E. apply rbind_Ok in E as ([starts s0] & Es & E).
    apply rbind_Ok in E as ([[b' Vs'] s'] & Er & E). injection E as <- <-.
    pose proof (entries_drawn HG Hu _ _ _ _ _ (wd_inlet_ne _ _ _ _ _ WD) Es) as Hent.
    destruct (get_start_indices_ok id (p_inlet P) (get_inlet_weights (A:=XA) (p_inlet P))
                (num_starts (A:=XA) P g) (s_rng st) HG) as (starts' & s0' & Es' & Hlen & Hin).
    { unfold nonneg, get_inlet_weights. rewrite Forall_map. apply Forall_forall. intros. ra. lra. }
    { unfold get_inlet_weights. apply map_length. }
    { apply (wd_inlet_ne _ _ _ _ _ WD). }
    { destruct g; auto. }
    rewrite Es in Es'. injection Es' as <- <-.
    apply all_journeys in Er as (hs & Hh); auto.
    exists starts, hs, (bed_of (A:=XA) P st), b', s0. split; [|split; [exact Hent|split; [exact Hh|split]]].
    - pose proof (wd_L0 _ _ _ _ _ WD).
      destruct (p_inlet P) as [|c l] eqn:Ei; [exfalso; apply (wd_inlet_ne _ _ _ _ _ WD); auto|].
      destruct (wd_inlet _ _ _ _ _ WD c (or_introl eq_refl)) as (Hr & _).
      apply outset_ok; lia.
    - apply close_ok.
    - apply count_ok; auto. rewrite Hlen. destruct g; lia.
  Qed.
End Follow.

(** ** Ledgers *)
Section Ledgers.
  Context {S : Type} {G : Rng R S} (P : params R) (g : grain) (st : state R S).

  Lemma rsum_app l l' : rsum (l ++ l') = rsum l + rsum l'.
  Proof. induction l; cbn [rsum app]; [lra|]. rewrite IHl. lra. Qed.

  Section Generic.
    Context (f : bed R -> grid R) (a c : Z) (inc : event -> R) (inc0 : Z -> R).
    Context (Hmove : forall u b V e, rule_move P g st u b V e -> f (ev_b' e) a c = f b a c + inc e).
    Context (Henter : forall s b b0, enters P g s b b0 -> f b0 a c = f b a c + inc0 s).

    Lemma journey_ledger n i j b V s es b' V' s' : journey P g st n i j b V s es b' V' s' ->
      f b' a c = f b a c + rsum (map inc es).
    Proof.
      induction 1 as [n i j b V e s E1 E2 Hm Hend|n i j b V e es b' V' s s' E1 E2 Hm Hne Hn Hw IH].
      - cbn. rewrite (Hmove _ _ _ _ Hm). lra.
      - cbn [map rsum fold_right]. rewrite IH, (Hmove _ _ _ _ Hm). cbn. lra.
    Qed.

    Lemma journeys_ledger starts b s hs b' Vs s' : journeys P g st starts b s hs b' Vs s' ->
      f b' a c = f b a c + (rsum (map inc0 starts) + over hs inc).
    Proof.
      induction 1 as [b s|c0 cs b b0 es b1 V1 hs b' Vs s s1 s' He Hj Hh IH].
      - unfold over. cbn. lra.
      - rewrite IH, (journey_ledger _ _ _ _ _ _ _ _ _ _ Hj), (Henter _ _ _ He).
        unfold over. cbn [concat]. rewrite map_app, rsum_app. cbn [map rsum fold_right]. cbn. lra.
    Qed.
  End Generic.
End Ledgers.

Section LedgerSums.
  Context {S : Type} {G : Rng R S} (P : params R) (g : grain) (st : state R S).

  Lemma rsum_zero {T} (l : list T) : rsum (map (fun _ => 0) l) = 0.
  Proof. induction l; cbn; [reflexivity|]. cbn in IHl. lra. Qed.

  Lemma here_self i j : here i j i j = 1.
  Proof. unfold here. rewrite !Z.eqb_refl. reflexivity. Qed.
  Lemma here_other i j a c : (a, c) <> (i, j) -> here i j a c = 0.
  Proof.
    unfold here. destruct (Z.eqb_spec a i), (Z.eqb_spec c j); subst; cbn; auto. congruence.
  Qed.
  Lemma cell_dec (a c i j : Z) : (a, c) = (i, j) \/ (a, c) <> (i, j).
  Proof. destruct (Z.eq_dec a i), (Z.eq_dec c j); subst; [left; auto| | |]; right; congruence. Qed.

  Lemma ledgers starts b s hs b' Vs s' : journeys P g st starts b s hs b' Vs s' -> forall a c,
    b_eta b' a c = b_eta b a c + bed_ledger P hs a c /\
    match g with
    | Sand => b_qs b' a c = b_qs b a c + flux_ledger P starts hs a c /\
        b_sand b' a c = b_sand b a c + deposit_ledger hs a c /\ b_mud b' a c = b_mud b a c
    | Mud => b_mud b' a c = b_mud b a c + deposit_ledger hs a c /\
        b_qs b' a c = b_qs b a c /\ b_sand b' a c = b_sand b a c
    end.
  Proof.
    intros H a c. split.
    - rewrite (fun Hm He => journeys_ledger P _ st b_eta a c (fun e => ev_dV e / (p_dx P * p_dx P) * here (ev_i e) (ev_j e) a c)
        (fun _ => 0) Hm He _ _ _ _ _ _ _ H); [rewrite rsum_zero; unfold bed_ledger; lra| |].
      + intros u b0 V e Hm. destruct (rm_bed _ _ _ _ _ _ _ Hm) as [H1 H2].
        destruct (rm_flux _ _ _ _ _ _ _ Hm) as [(F1 & _) _]. rewrite F1 in H1, H2.
        destruct (cell_dec a c (ev_i e) (ev_j e)) as [E|N].
        * injection E as -> ->. rewrite here_self, H1. lra.
        * rewrite here_other, H2 by auto. lra.
      + intros k b0 b1 [(F1 & _) _]. rewrite F1. lra.
    - destruct g eqn:Eg; [split; [|split]|split; [|split]].
      + rewrite (fun Hm He => journeys_ledger P _ st b_qs a c
          (fun e => half_load P (ev_V e) * (here (ev_i0 e) (ev_j0 e) a c + here (ev_i e) (ev_j e) a c))
          (fun s => half_load P (p_Vp_sed P) * here 0 s a c) Hm He _ _ _ _ _ _ _ H); [unfold flux_ledger; lra| |].
        * intros u b0 V e Hm. rewrite (rm_flux_kept _ _ _ _ _ _ _ Hm), (rm_load _ _ _ _ _ _ _ Hm).
          destruct (rm_flux _ _ _ _ _ _ _ Hm) as [_ F]. rewrite F. reflexivity.
        * intros k b0 b1 [_ F]. rewrite F. reflexivity.
      + rewrite (fun Hm He => journeys_ledger P _ st b_sand a c (fun e => Rmax 0 (ev_dV e) * here (ev_i e) (ev_j e) a c)
          (fun _ => 0) Hm He _ _ _ _ _ _ _ H); [rewrite rsum_zero; unfold deposit_ledger; lra| |].
        * intros u b0 V e Hm. destruct (rm_record _ _ _ _ _ _ _ Hm) as [F _]. rewrite F.
          destruct (rm_flux _ _ _ _ _ _ _ Hm) as [(_ & _ & _ & _ & _ & _ & F2 & _) _]. rewrite F2.
          unfold here. destruct (_ && _)%bool; lra.
        * intros k b0 b1 [(_ & _ & _ & _ & _ & _ & F2 & _) _]. rewrite F2. lra.
      + rewrite (fun Hm He => journeys_ledger P _ st b_mud a c (fun e => 0) (fun _ => 0) Hm He _ _ _ _ _ _ _ H);
          [unfold over; rewrite !rsum_zero; lra| |].
        * intros u b0 V e Hm. destruct (rm_record _ _ _ _ _ _ _ Hm) as [_ F]. rewrite F.
          destruct (rm_flux _ _ _ _ _ _ _ Hm) as [(_ & _ & _ & _ & _ & _ & _ & F2) _]. rewrite F2. lra.
        * intros k b0 b1 [(_ & _ & _ & _ & _ & _ & _ & F2) _]. rewrite F2. lra.
      + rewrite (fun Hm He => journeys_ledger P _ st b_mud a c (fun e => Rmax 0 (ev_dV e) * here (ev_i e) (ev_j e) a c)
          (fun _ => 0) Hm He _ _ _ _ _ _ _ H); [rewrite rsum_zero; unfold deposit_ledger; lra| |].
        * intros u b0 V e Hm. destruct (rm_record _ _ _ _ _ _ _ Hm) as [F _]. rewrite F.
          destruct (rm_flux _ _ _ _ _ _ _ Hm) as [(_ & _ & _ & _ & _ & _ & _ & F2) _]. rewrite F2.
          unfold here. destruct (_ && _)%bool; lra.
        * intros k b0 b1 [(_ & _ & _ & _ & _ & _ & _ & F2) _]. rewrite F2. lra.
      + rewrite (fun Hm He => journeys_ledger P _ st b_qs a c (fun e => 0) (fun _ => 0) Hm He _ _ _ _ _ _ _ H);
          [unfold over; rewrite !rsum_zero; lra| |].
        * intros u b0 V e Hm. rewrite (rm_flux_kept _ _ _ _ _ _ _ Hm).
          destruct (rm_flux _ _ _ _ _ _ _ Hm) as [_ F]. rewrite F. reflexivity.
        * intros k b0 b1 [_ F]. rewrite F. reflexivity.
      + rewrite (fun Hm He => journeys_ledger P _ st b_sand a c (fun e => 0) (fun _ => 0) Hm He _ _ _ _ _ _ _ H);
          [unfold over; rewrite !rsum_zero; lra| |].
        * intros u b0 V e Hm. destruct (rm_record _ _ _ _ _ _ _ Hm) as [_ F]. rewrite F.
          destruct (rm_flux _ _ _ _ _ _ _ Hm) as [(_ & _ & _ & _ & _ & _ & F2 & _) _]. rewrite F2. lra.
        * intros k b0 b1 [(_ & _ & _ & _ & _ & _ & F2 & _) _]. rewrite F2. lra.
  Qed.
End LedgerSums.

(** ** The whole step *)
Section WholeStep.
  Notation XA := (RA (fun x => x)).
  Context {S : Type} {G : Rng R S} (P : params R).
  Notation L := (p_L P).
  Notation W := (p_W P).

  Lemma once_pass (st : state R S) : diffusion_pass P st (s_eta st) (s_eta (diffuse_once (A:=XA) P st)).
  Proof.
    intros i j. split.
    - intros (H1 & H2 & H3). rewrite diffuse_once_eta, crossflux_exact; [lra|].
      unfold diffusibleb. apply inbb_spec in H1. rewrite H1.
      rewrite (proj2 (Z.eqb_neq _ _) H2), (proj2 (Z.eqb_neq _ _) H3). reflexivity.
    - intros Hin Hn. rewrite diffuse_once_eta. unfold crossflux.
      destruct (Z.eqb_spec (s_cell_type st i j) (-2)) as [E|E]; cbn [orb].
      + ra. lra.
      + destruct (Z.eqb_spec i 0) as [E0|E0]; [ra; lra|]. exfalso. apply Hn. split; auto.
  Qed.

  Lemma pass_ext (st st1 : state R S) eta eta' : s_qs st1 = s_qs st -> s_cell_type st1 = s_cell_type st ->
    diffusion_pass P st1 eta eta' -> diffusion_pass P st eta eta'.
  Proof.
    intros Eq Ec H i j. specialize (H i j). unfold diffusible, received, border_loss, exchange in *.
    rewrite Eq, Ec in H. exact H.
  Qed.
  Lemma passes_ext (st st1 : state R S) n eta eta' : s_qs st1 = s_qs st -> s_cell_type st1 = s_cell_type st ->
    diffusion_passes P st1 n eta eta' -> diffusion_passes P st n eta eta'.
  Proof.
    intros Eq Ec. induction 1; econstructor; eauto. eapply pass_ext; eauto.
  Qed.

  Lemma passes_ok n : forall st : state R S,
    diffusion_passes P st n (s_eta st) (s_eta (diffuse_passes (A:=XA) P n st)).
  Proof.
    induction n as [|n IH]; intros st; cbn [diffuse_passes]; [constructor|].
    econstructor; [apply once_pass|]. apply (passes_ext st (diffuse_once (A:=XA) P st)); auto.
  Qed.

  Lemma smeared_ok (st : state R S) : smeared P st (topo_diffusion (A:=XA) P st).
  Proof.
    destruct (diffuse_frame (A:=XA) P (Z.to_nat (p_N_crossdiff P)) st) as (F1 & F2 & F3 & F4 & F5 & F6 & F7 & F8 & F9).
    unfold smeared, topo_diffusion. repeat (split; [assumption|]). apply passes_ok.
  Qed.

  Lemma sediment_step_rules (st st' : state R S) : sed_ready P st -> divisors_ok (fun x => x) P -> uniform_range G ->
    (forall s, 0 < fst (draw s)) -> (0 <= p_Np_sed P)%Z -> 0 <= p_f_bedload P <= 1 ->
    route_sediment (A:=XA) P st = Ok st' ->
    exists st0 st1 st2, cleared st st0 /\ carried P Sand st0 st1 /\ smeared P st1 st2 /\ carried P Mud st2 st'.
  Proof.
    intros HS HD HG Hu HN Hf E.
    apply (route_sediment_parts (fun x => x)) in E as (st1 & st2 & Vs1 & Vs2 & E1 & -> & E2).
    set (st0 := init_sediment_iteration (A:=XA) st) in *.
    assert (HS0 : sed_ready P st0) by (apply (sed_ready_frame P st st0 eq_refl HS)).
    destruct (routers_follow_rules P Sand st0 HS0 HD HG Hu st1 Vs1 HN Hf E1) as (s1 & h1 & b1 & b1' & r1 & H1 & H2 & H3 & H4 & H5).
    assert (F1 : sed_frame st0 st1) by apply H4.
    destruct (diffuse_frame (A:=XA) P (Z.to_nat (p_N_crossdiff P)) st1) as (F2 & _).
    assert (HS2 : sed_ready P (topo_diffusion (A:=XA) P st1)).
    { apply (sed_ready_frame P st0); auto. pose proof (sed_frame_trans _ _ _ F1 F2) as F. apply F. }
    destruct (routers_follow_rules P Mud _ HS2 HD HG Hu st' Vs2 HN Hf E2) as (s2 & h2 & b2 & b2' & r2 & H1' & H2' & H3' & H4' & H5').
    exists st0, st1, (topo_diffusion (A:=XA) P st1). split; [|split; [|split]].
    - split; [apply (init_frame (fun x => x))|]. repeat split.
    - exists s1, h1, b1, b1', Vs1, r1. auto.
    - apply smeared_ok.
    - exists s2, h2, b2, b2', Vs2, r2. auto.
  Qed.
End WholeStep.
