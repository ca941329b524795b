(** Sediment: claims about every stop of every parcel (C21-C24, C55). *)
From Coq Require Import ZArith List Bool Reals Lra Lia.
From Verif Require Import Base RLemmas Shared SharedSpec SharedProofs Params State Sed
  VecLemmas WaterSpec WeightProofs SedSpec SedProofs SedMass.
From Verif Require Import Water WalkProofs RunProofs.
Import ListNotations.
Local Open Scope R_scope.

(** ** Induction over histories *)
Section Histories.
  Context (rnd : R -> R) {S : Type} {G : Rng R S} (P : params R) (g : grain) (st : state R S).
  Notation A := (RA rnd).
  Notation L := (p_L P).
  Notation W := (p_W P).

  Context (I : bed R -> Prop) (J : R -> Prop).
  Hypothesis Hstep : forall b V e, I b -> J V -> stop rnd P g st b V e ->
    I (ev_b' e) /\ J (rnd (V - ev_dV e)).
  Hypothesis Hentry : forall b c, I b -> I (entry_bed rnd P g b c).
  Hypothesis HVp : J (p_Vp_sed P).

  Definition good_stop (e : event) : Prop :=
    exists b, I b /\ J (ev_V e) /\ stop rnd P g st b (ev_V e) e /\ I (ev_b' e) /\
      J (rnd (ev_V e - ev_dV e)).

  Lemma walk_induct n i j b V es b' V' : sed_walk rnd P g st n i j b V es b' V' -> I b -> J V ->
    I b' /\ J V' /\ Forall good_stop es.
  Proof.
    induction 1 as [n i j b V e E1 E2 Hst Hend|n i j b V e es b' V' E1 E2 Hst Hne Hn Hw IH]; intros HI HJ.
    - destruct (Hstep b V e HI HJ Hst) as [H1 H2]. split; auto. split; auto. constructor; auto.
      exists b. rewrite (st_V _ _ _ _ _ _ _ Hst). auto.
    - destruct (Hstep b V e HI HJ Hst) as [H1 H2]. destruct (IH H1 H2) as (H3 & H4 & H5).
      split; auto. split; auto. constructor; auto.
      exists b. rewrite (st_V _ _ _ _ _ _ _ Hst). auto.
  Qed.

  Lemma history_induct starts b hs b' Vs : sed_history rnd P g st starts b hs b' Vs -> I b ->
    I b' /\ Forall J Vs /\ Forall good_stop (concat hs).
  Proof.
    induction 1 as [b|c cs b es b1 V1 hs b' Vs Hw Hh IH]; intros HI; cbn; auto.
    destruct (walk_induct _ _ _ _ _ _ _ _ Hw (Hentry b c HI) HVp) as (H1 & H2 & H3).
    destruct (IH H1) as (H4 & H5 & H6). split; auto. split; [constructor; auto|]. apply Forall_app; auto.
  Qed.
End Histories.

(** ** Fields after a stop *)
Section Fields.
  Context (rnd : R -> R) {HR : Rounding rnd} {S : Type} {G : Rng R S} (P : params R) (g : grain) (st : state R S).
  Notation A := (RA rnd).
  Notation L := (p_L P).
  Notation W := (p_W P).

  Lemma stop_fields b V e : stop rnd P g st b V e ->
    let i := ev_i e in let j := ev_j e in
    let eta := rnd (b_eta b i j + rnd (ev_dV e / rnd (p_dx P * p_dx P))) in
    let depth := Rmax 0 (rnd (s_stage st i j - eta)) in
    let uw := if Rltb 0 depth then Rmin (p_u_max P) (rnd (s_qw st i j / depth)) else b_uw b i j in
    b_eta (ev_b' e) = gset (b_eta b) i j eta /\
    b_depth (ev_b' e) = gset (b_depth b) i j depth /\
    b_pad_depth (ev_b' e) = gset (b_pad_depth b) (ev_px e + 1)%Z (ev_py e + 1)%Z depth /\
    b_uw (ev_b' e) = gset (b_uw b) i j uw /\
    (exists x, b_ux (ev_b' e) = gset (b_ux b) i j x) /\
    (exists x, b_uy (ev_b' e) = gset (b_uy b) i j x).
  Proof.
    intros [Hf Hm (Ei & Ej & Hin) HV Hb HdV Hb'].
    set (i := ev_i e) in *. set (j := ev_j e) in *. intros i' j'. subst i' j'.
    assert (Eb : b_eta (ev_b e) = b_eta b /\ b_depth (ev_b e) = b_depth b /\
                 b_pad_depth (ev_b e) = b_pad_depth b /\ b_uw (ev_b e) = b_uw b /\
                 b_ux (ev_b e) = b_ux b /\ b_uy (ev_b e) = b_uy b).
    { rewrite Hb. destruct g; repeat split; reflexivity. }
    destruct Eb as (E1 & E2 & E3 & E4 & E5 & E6).
    unfold volume_change in HdV. rewrite Hb'. unfold deposit_or_erode.
    destruct g; rewrite <- HdV; unfold update_fields;
      cbn [fst b_eta b_depth b_pad_depth b_uw b_ux b_uy];
      rewrite ?npmax_R, ?npmin_R; ra; rewrite rnd_0, E1, E2, E3, E4, E5, E6;
      repeat split; eexists; reflexivity.
  Qed.

  Lemma gset_same {T} (f : grid T) i j x : gset f i j x i j = x.
  Proof. unfold gset. rewrite !Z.eqb_refl. reflexivity. Qed.
  Lemma gset_other {T} (f : grid T) i j x a b : (a, b) <> (i, j) -> gset f i j x a b = f a b.
  Proof.
    intros H. unfold gset. destruct (Z.eqb_spec a i), (Z.eqb_spec b j); cbn; auto. subst. congruence.
  Qed.
  Lemma gset_cases {T} (f : grid T) i j x a b :
    ((a, b) = (i, j) /\ gset f i j x a b = x) \/ ((a, b) <> (i, j) /\ gset f i j x a b = f a b).
  Proof.
    destruct (Z.eq_dec a i), (Z.eq_dec b j);
      [left; subst; split; auto; apply gset_same| | |];
      right; (split; [congruence|apply gset_other; congruence]).
  Qed.

  (** Depth and speed of the cell after a stop; nothing else moves. *)
  Definition settled (b : bed R) (i j : Z) : Prop :=
    b_depth b i j = Rmax 0 (rnd (s_stage st i j - b_eta b i j)).

  Lemma stop_settled b V e : stop rnd P g st b V e -> settled (ev_b' e) (ev_i e) (ev_j e) /\
    forall a c, (a, c) <> (ev_i e, ev_j e) ->
      b_eta (ev_b' e) a c = b_eta b a c /\ b_depth (ev_b' e) a c = b_depth b a c /\
      b_uw (ev_b' e) a c = b_uw b a c /\ b_ux (ev_b' e) a c = b_ux b a c /\
      b_uy (ev_b' e) a c = b_uy b a c.
  Proof.
    intros H. destruct (stop_fields b V e H) as (E1 & E2 & _ & E4 & (x & E5) & (y & E6)). split.
    - unfold settled. rewrite E1, E2, !gset_same. reflexivity.
    - intros a c Hn. rewrite E1, E2, E4, E5, E6, !gset_other by auto. auto.
  Qed.

  Definition same_cell (b b' : bed R) (a c : Z) : Prop :=
    b_eta b' a c = b_eta b a c /\ b_depth b' a c = b_depth b a c /\
    b_uw b' a c = b_uw b a c /\ b_ux b' a c = b_ux b a c /\ b_uy b' a c = b_uy b a c.

  Lemma walk_settled n i j b V es b' V' : sed_walk rnd P g st n i j b V es b' V' ->
    forall a c, ((exists e, In e es /\ ev_i e = a /\ ev_j e = c) /\ settled b' a c) \/
      ((forall e, In e es -> (ev_i e, ev_j e) <> (a, c)) /\ same_cell b b' a c).
  Proof.
    induction 1 as [n i j b V e E1 E2 Hst Hend|n i j b V e es b' V' E1 E2 Hst Hne Hn Hw IH]; intros a c.
    - destruct (stop_settled b V e Hst) as [H1 H2].
      destruct (Z.eq_dec (ev_i e) a) as [Ea|Ea]; [destruct (Z.eq_dec (ev_j e) c) as [Ec|Ec]|].
      + subst. left. split; auto. exists e. cbn. auto.
      + right. split; [intros ? [<-|[]]; congruence|]. apply H2. congruence.
      + right. split; [intros ? [<-|[]]; congruence|]. apply H2. congruence.
    - destruct (stop_settled b V e Hst) as [H1 H2].
      destruct (IH a c) as [((e' & Hin & Hi & Hj) & Hs)|(Hno & Hsame)].
      + left. split; auto. exists e'. cbn. auto.
      + destruct (Z.eq_dec (ev_i e) a) as [Ea|Ea]; [destruct (Z.eq_dec (ev_j e) c) as [Ec|Ec]|].
        * subst. left. split; [exists e; cbn; auto|]. unfold settled in *.
          destruct Hsame as (-> & -> & _). auto.
        * right. split; [intros ? [<-|Hin]; [congruence|auto]|].
          unfold same_cell in *. destruct Hsame as (-> & -> & -> & -> & ->). apply H2. congruence.
        * right. split; [intros ? [<-|Hin]; [congruence|auto]|].
          unfold same_cell in *. destruct Hsame as (-> & -> & -> & -> & ->). apply H2. congruence.
  Qed.

  Lemma history_settled starts b hs b' Vs : sed_history rnd P g st starts b hs b' Vs ->
    forall a c, (touched hs a c /\ settled b' a c) \/ (~ touched hs a c /\ same_cell b b' a c).
  Proof.
    induction 1 as [b|k cs b es b1 V1 hs b' Vs Hw Hh IH]; intros a c.
    - right. split; [intros (e & [] & _)|]. unfold same_cell. auto 6.
    - destruct (IH a c) as [((e & Hin & Hi) & Hs)|(Hno & Hsame)].
      + left. split; auto. exists e. cbn. rewrite in_app_iff. auto.
      + destruct (walk_settled _ _ _ _ _ _ _ _ Hw a c) as [((e & Hin & Hi) & Hs)|(Hno' & Hsame')].
        * left. split; [exists e; cbn; rewrite in_app_iff; auto|].
          unfold settled in *. destruct Hsame as (-> & -> & _). auto.
        * right. split.
          { intros (e & Hin & Hi & Hj). cbn in Hin. apply in_app_iff in Hin as [Hin|Hin].
            - apply (Hno' e Hin). congruence.
            - apply Hno. exists e. auto. }
          unfold same_cell in *. destruct Hsame as (-> & -> & -> & -> & ->).
          destruct Hsame' as (E1 & E2 & E3 & E4 & E5). destruct g; auto.
  Qed.

  (** Speeds stay in [0, u_max], depths non-negative. *)
  Definition flow_ok (b : bed R) : Prop := forall i j, inb L W i j ->
    0 <= b_uw b i j <= p_u_max P /\ 0 <= b_depth b i j.

  Lemma stop_flow_ok b V e : sed_flow P st -> flow_ok b -> stop rnd P g st b V e -> flow_ok (ev_b' e).
  Proof.
    intros HF Hb He a c Hin. destruct (stop_fields b V e He) as (_ & E2 & _ & E4 & _).
    destruct (st_cell _ _ _ _ _ _ _ He) as (_ & _ & Hc).
    rewrite E2, E4. clear E2 E4. set (d := Rmax 0 _).
    assert (Hd : 0 <= d) by apply Rmax_l.
    destruct (gset_cases (b_depth b) (ev_i e) (ev_j e) d a c) as [[E ->]|[E ->]];
    destruct (gset_cases (b_uw b) (ev_i e) (ev_j e) (if Rltb 0 d then Rmin (p_u_max P) (rnd (s_qw st (ev_i e) (ev_j e) / d))
        else b_uw b (ev_i e) (ev_j e)) a c) as [[E' ->]|[E' ->]]; try congruence.
    - split; auto. destruct (Rltb_spec 0 d); [|apply Hb; auto].
      pose proof (fl_umax P st HF). split; [|apply Rmin_l]. apply Rmin_glb; auto.
      apply rnd_nonneg; auto. apply Rdiv_nonneg; [apply (fl_qw P st HF); auto|lra].
    - apply Hb; auto.
  Qed.

  Lemma entry_flow_ok b c : flow_ok b -> flow_ok (entry_bed rnd P g b c).
  Proof. intros H i j Hin. specialize (H i j Hin). destruct g; exact H. Qed.

  (** The padded depth the weights use is the depth, above the last row. *)
  Definition pad_sync (b : bed R) : Prop := forall i j, inb L W i j -> (i < L - 1)%Z ->
    b_pad_depth b (i + 1)%Z (j + 1)%Z = b_depth b i j.

  Lemma wrap_in n x : (0 <= wrap n x < n)%Z -> (x = wrap n x \/ (x < 0)%Z).
  Proof. unfold wrap. destruct (Z.ltb_spec x 0); lia. Qed.

  Lemma stop_pad_sync b V e : legal_step P st e -> pad_sync b -> stop rnd P g st b V e -> pad_sync (ev_b' e).
  Proof.
    intros Hleg Hb He i j Hin Hi. destruct (stop_fields b V e He) as (_ & E2 & E3 & _).
    rewrite E2, E3. clear E2 E3. set (d := Rmax 0 _).
    destruct Hleg as [(_ & _ & -> & -> & _)|(_ & -> & Hpy & _ & -> & ->)].
    - unfold gset. rewrite <- (Hb i j Hin Hi).
      replace (i + 1 =? ev_px e + 1)%Z with (i =? ev_px e)%Z by (destruct (Z.eqb_spec i (ev_px e)), (Z.eqb_spec (i+1) (ev_px e + 1)); lia).
      replace (j + 1 =? ev_py e + 1)%Z with (j =? ev_py e)%Z by (destruct (Z.eqb_spec j (ev_py e)), (Z.eqb_spec (j+1) (ev_py e + 1)); lia).
      reflexivity.
    - unfold gset. destruct Hin as [Hi0 Hj]. destruct (Z.eqb_spec (i + 1) (-1 + 1)); [lia|].
      destruct (Z.eqb_spec i (L - 1)); [lia|]. cbn [andb]. apply Hb; auto. split; auto.
  Qed.
End Fields.

(** ** Volumes, exact arithmetic *)
Section Volumes.
  Notation XA := (RA (fun x => x)).
  Notation id := (fun x : R => x).
  Context {S : Type} {G : Rng R S} (P : params R) (g : grain) (st : state R S).
  Notation L := (p_L P).
  Notation W := (p_W P).

  Lemma stop_bed_changed b V e : stop id P g st b V e -> bed_changed P e.
  Proof.
    intros He. destruct (stop_fields id P g st b V e He) as (E1 & _).
    assert (Eb : b_eta (ev_b e) = b_eta b).
    { rewrite (st_b _ _ _ _ _ _ _ He). destruct g; reflexivity. }
    unfold bed_changed. rewrite E1, Eb. split; [apply gset_same|]. intros. apply gset_other; auto.
  Qed.

  Lemma limit_exact V sg eta dx ero : 0 <= dx * dx ->
    limit_Vp_change (A:=XA) V sg eta dx ero
    = if Rltb (sg - eta) 0 then if ero then Rmin V (Rabs (sg - eta) / 4 * (dx * dx)) else 0
      else Rmin V (Rabs (sg - eta) / 4 * (dx * dx)).
  Proof.
    intros H. unfold limit_Vp_change. rewrite !npmin_R. ra.
    destruct (Rltb_spec (sg - eta) 0); auto. rewrite (Rabs_pos_eq (sg - eta)) by lra. reflexivity.
  Qed.

  Lemma sq_nonneg x : 0 <= x * x.
  Proof. nra. Qed.

  Lemma stop_rule b V e : stop id P g st b V e ->
    match g with
    | Sand => sand_rule P st e (ev_dV e)
    | Mud => mud_rule P st e (ev_dV e)
    end.
  Proof.
    intros He. rewrite (st_dV _ _ _ _ _ _ _ He). rewrite <- (st_V _ _ _ _ _ _ _ He). unfold volume_change.
    pose proof (sq_nonneg (p_dx P)) as Hsq. destruct g.
    - unfold sand_change. ra. rewrite !limit_exact by auto. unfold compute_Vp_ero. ra.
      change (p_qs0 P * p_f_bedload_router P / npow (p_u0 P) (p_beta P) *
          npow (b_uw (ev_b e) (ev_i e) (ev_j e)) (p_beta P)) with (capacity P e).
      change (b_qs (ev_b e) (ev_i e) (ev_j e)) with (carried_flux e).
      change (b_uw (ev_b e) (ev_i e) (ev_j e)) with (speed e).
      change (s_stage st (ev_i e) (ev_j e) - b_eta (ev_b e) (ev_i e) (ev_j e)) with (column st e).
      fold (quarter P st e) (erodible P st (p_U_ero_sand P) e).
      destruct (Rltb_spec (capacity P e) (carried_flux e)) as [H1|H1].
      + destruct (Rltb_spec (column st e) 0) as [H2|H2].
        * apply sand_above_water; auto.
        * apply sand_deposits; auto. lra.
      + destruct (Rltb_spec (p_U_ero_sand P) (speed e)) as [H2|H2]; cbn [andb].
        * destruct (Rltb_spec (carried_flux e) (capacity P e)) as [H3|H3].
          -- replace (_ * _)%R with (- Rmin (erodible P st (p_U_ero_sand P) e) (quarter P st e)).
             ++ apply sand_erodes; auto.
             ++ destruct (Rltb _ 0); ring.
          -- apply sand_passes; [lra|right; lra].
        * apply sand_passes; [lra|left; lra].
    - unfold mud_change. ra. rewrite !limit_exact by auto. unfold compute_Vp_ero. ra.
      change (b_uw (ev_b e) (ev_i e) (ev_j e)) with (speed e).
      change (s_stage st (ev_i e) (ev_j e) - b_eta (ev_b e) (ev_i e) (ev_j e)) with (column st e).
      fold (quarter P st e) (erodible P st (p_U_ero_mud P) e).
      destruct (Rltb_spec (p_U_ero_mud P) (speed e)) as [H1|H1].
      + replace (_ * _)%R with (- Rmin (erodible P st (p_U_ero_mud P) e) (quarter P st e)).
        * apply mud_erodes; auto.
        * destruct (Rltb _ 0); ring.
      + destruct (Rltb_spec (speed e) (p_U_dep_mud P)) as [H2|H2].
        * destruct (Rltb_spec (column st e) 0) as [H3|H3].
          -- apply mud_above_water; lra.
          -- match goal with |- mud_rule _ _ _ (Rmin ?x _) =>
               replace x with (p_lambda P * ev_V e * settling P e) by (unfold settling, Rdiv; ring) end.
             apply mud_deposits; lra.
        * apply mud_passes; lra.
  Qed.

  Lemma stop_recorded b V e : stop id P g st b V e -> deposit_recorded g e.
  Proof.
    intros He. unfold deposit_recorded. rewrite (st_b' _ _ _ _ _ _ _ He). unfold deposit_or_erode.
    pose proof (st_dV _ _ _ _ _ _ _ He) as Hd. unfold volume_change in Hd.
    destruct g; rewrite <- Hd; cbn [fst update_fields b_sand b_mud]; (split; [|reflexivity]);
      intros a c; ra; destruct (Rltb_spec 0 (ev_dV e)) as [H|H];
      unfold gset; destruct ((a =? ev_i e) && (c =? ev_j e))%Z eqn:E;
      rewrite ?(Rmax_right 0 (ev_dV e)) by lra; rewrite ?(Rmax_left 0 (ev_dV e)) by lra; try lra;
      apply andb_prop in E as [E1 E2]; apply Z.eqb_eq in E1, E2; subst; reflexivity.
  Qed.

  Lemma quarter_nonneg e : 0 <= quarter P st e.
  Proof. unfold quarter. apply Rmult_le_pos; [|apply sq_nonneg]. pose proof (Rabs_pos (column st e)). lra. Qed.

  Lemma erodible_nonneg U e : sed_physics P st -> 0 < U -> U < speed e -> 0 <= erodible P st U e.
  Proof.
    intros HP HU Hs. unfold erodible. pose proof (npow_pos U (p_beta P) HU) as Hp.
    pose proof (npow_mono U (speed e) (p_beta P) (sp_beta _ _ HP)) as Hm.
    pose proof (sp_mod _ _ HP (ev_i e) (ev_j e)). pose proof (sp_Vp _ _ HP).
    apply Rdiv_nonneg; [|lra]. apply Rmult_le_pos; [apply Rmult_le_pos; auto|]. 
    assert (npow U (p_beta P) <= npow (speed e) (p_beta P)) by (apply Hm; lra). lra.
  Qed.

  Lemma settling_bounds e : 0 <= p_beta P -> 0 <= speed e < p_U_dep_mud P -> 0 <= settling P e <= 1.
  Proof.
    intros Hb Hs. unfold settling. assert (HU : 0 < p_U_dep_mud P) by lra.
    pose proof (npow_pos _ (p_beta P) HU) as Hp. pose proof (npow_nonneg (speed e) (p_beta P)) as H0.
    pose proof (npow_mono (speed e) (p_U_dep_mud P) (p_beta P) Hb ltac:(lra)) as Hm. split.
    - apply Rdiv_nonneg; lra.
    - apply Rmult_le_reg_r with (npow (p_U_dep_mud P) (p_beta P)); auto.
      unfold Rdiv. rewrite Rmult_assoc, Rinv_l, Rmult_1_r by lra. lra.
  Qed.

  (** Bounds on one change. *)
  Lemma change_bounds b V e : sed_physics P st -> lag_ok P g -> 0 <= V ->
    (forall i j, inb L W i j -> 0 <= b_uw b i j) -> stop id P g st b V e ->
    - quarter P st e <= ev_dV e <= V /\
    (0 < ev_dV e -> 0 <= column st e /\ ev_dV e <= quarter P st e).
  Proof.
    intros HP HL HV Hu He. unfold lag_ok in HL. pose proof (quarter_nonneg e) as Hq.
    pose proof (stop_rule b V e He) as Hr. pose proof (st_V _ _ _ _ _ _ _ He) as EV.
    assert (Hs : 0 <= speed e).
    { unfold speed. rewrite (st_b _ _ _ _ _ _ _ He). destruct (st_cell _ _ _ _ _ _ _ He) as (_ & _ & Hc).
      destruct g; cbn [b_uw set_qs_bed]; auto. }
    destruct g.
    - destruct Hr as [H1 H2|H1 H2|H1 H2|H1 H2].
      + rewrite EV. unfold Rmin. destruct (Rle_dec V (quarter P st e)); (split; [lra|intros; split; lra]).
      + (split; [lra|intros; split; lra]).
      + pose proof (erodible_nonneg _ e HP (sp_ero_sand _ _ HP) H2).
        unfold Rmin. destruct (Rle_dec _ _); (split; [lra|intros; split; lra]).
      + (split; [lra|intros; split; lra]).
    - destruct Hr as [H1|H1 H2 H3|H1 H2 H3|H1 H2].
      + pose proof (erodible_nonneg _ e HP (sp_ero_mud _ _ HP) H1).
        unfold Rmin. destruct (Rle_dec _ _); (split; [lra|intros; split; lra]).
      + pose proof (settling_bounds e (sp_beta _ _ HP) ltac:(lra)) as Hse. rewrite EV.
        assert (Hlv : 0 <= p_lambda P * V <= V) by (split; [apply Rmult_le_pos; lra|rewrite <- (Rmult_1_l V) at 2; apply Rmult_le_compat_r; lra]).
        assert (0 <= p_lambda P * V * settling P e <= V).
        { split; [apply Rmult_le_pos; lra|]. eapply Rle_trans; [|apply (proj2 Hlv)].
          rewrite <- (Rmult_1_r (p_lambda P * V)) at 2. apply Rmult_le_compat_l; lra. }
        unfold Rmin. destruct (Rle_dec _ _); (split; [lra|intros; split; lra]).
      + (split; [lra|intros; split; lra]).
      + (split; [lra|intros; split; lra]).
  Qed.

  Lemma stop_limited b V e : sed_physics P st -> lag_ok P g -> 0 <= V ->
    (forall i j, inb L W i j -> 0 <= b_uw b i j) -> stop id P g st b V e ->
    limited P st e /\ 0 <= V - ev_dV e.
  Proof.
    intros HP HL HV Hu He. destruct (change_bounds b V e HP HL HV Hu He) as [H1 H2].
    destruct (stop_bed_changed b V e He) as [Hb _].
    pose proof (quarter_nonneg e) as Hq. split; [|lra]. unfold limited. repeat split.
    - destruct (Rle_dec (ev_dV e) 0).
      + rewrite Rabs_left1 by lra. lra.
      + rewrite Rabs_pos_eq by lra. apply H2. lra.
    - intros Hc. destruct (Rle_dec (ev_dV e) 0); auto. exfalso. destruct H2; lra.
    - intros Hpos. destruct (H2 Hpos) as [Hc Hle]. rewrite Hb.
      pose proof (sp_dx _ _ HP) as Hdx. unfold quarter in Hle. rewrite Rabs_pos_eq in Hle by auto.
      assert (Hd : ev_dV e / (p_dx P * p_dx P) <= column st e / 4).
      { apply Rmult_le_reg_r with (p_dx P * p_dx P); [nra|]. unfold Rdiv at 1.
        rewrite Rmult_assoc, Rinv_l, Rmult_1_r by nra. exact Hle. }
      unfold column in *. lra.
  Qed.
End Volumes.

(** ** All stops of a routing call *)
Section All.
  Notation id := (fun x : R => x).
  Context {S : Type} {G : Rng R S} (P : params R) (g : grain) (st : state R S).
  Notation L := (p_L P).
  Notation W := (p_W P).

  Definition okI (b : bed R) : Prop := forall i j, inb L W i j -> 0 <= b_uw b i j <= p_u_max P.

  Lemma okI_step b V e : sed_flow P st -> okI b -> stop id P g st b V e -> okI (ev_b' e).
  Proof.
    intros HF Hb He a c Hin. destruct (stop_fields id P g st b V e He) as (_ & _ & _ & E4 & _).
    destruct (st_cell _ _ _ _ _ _ _ He) as (_ & _ & Hc). rewrite E4. set (d := Rmax 0 _).
    match goal with |- context [gset ?f ?i ?j ?x a c] => destruct (gset_cases f i j x a c) as [[E ->]|[E ->]] end.
    - destruct (Rltb_spec 0 d); [|apply Hb; auto]. pose proof (fl_umax P st HF).
      split; [|apply Rmin_l]. apply Rmin_glb; auto.
      apply Rdiv_nonneg; [apply (fl_qw P st HF); auto|lra].
    - apply Hb; auto.
  Qed.

  Lemma history_volumes starts b hs b' Vs : sed_physics P st -> sed_flow P st -> lag_ok P g ->
    sed_history id P g st starts b hs b' Vs -> okI b ->
    Forall (fun V => 0 <= V) Vs /\
    Forall (fun e => limited P st e /\ 0 <= ev_V e /\ 0 <= ev_V e - ev_dV e /\ 0 <= speed e <= p_u_max P) (concat hs) /\ okI b'.
  Proof.
    intros HP HF HL Hh Hb.
    destruct (history_induct id P g st okI (fun V => 0 <= V)) with (starts := starts) (b := b) (hs := hs) (b' := b') (Vs := Vs)
      as (H1 & H2 & H3); auto.
    - intros b0 V e HI HJ He. split; [eapply okI_step; eauto|].
      apply (stop_limited P g st b0 V e HP HL HJ); auto. intros; apply HI; auto.
    - intros b0 c HI i j Hin. specialize (HI i j Hin). destruct g; exact HI.
    - apply (sp_Vp _ _ HP).
    - split; auto. split; auto. eapply Forall_impl; [|exact H3].
      intros e (b0 & HI & HJ & He & _ & HJ').
      split; [apply (stop_limited P g st b0 (ev_V e) e HP HL HJ); auto; intros; apply HI; auto|]. split; auto. split; auto.
      unfold speed. rewrite (st_b _ _ _ _ _ _ _ He). destruct (st_cell _ _ _ _ _ _ _ He) as (_ & _ & Hc).
      destruct g; cbn [b_uw set_qs_bed]; auto.
  Qed.

  (** Rules, records and bed changes, no conditions. *)
  Lemma history_rules starts b hs b' Vs : sed_history id P g st starts b hs b' Vs ->
    Forall (fun e => bed_changed P e /\ deposit_recorded g e /\
      match g with Sand => sand_rule P st e (ev_dV e) | Mud => mud_rule P st e (ev_dV e) end) (concat hs).
  Proof.
    intros Hh.
    destruct (history_induct id P g st (fun _ => True) (fun _ => True)) with (starts := starts) (b := b) (hs := hs) (b' := b') (Vs := Vs)
      as (H1 & H2 & H3); auto.
    eapply Forall_impl; [|exact H3]. intros e (b0 & _ & _ & He & _).
    split; [eapply stop_bed_changed; eauto|]. split; [eapply stop_recorded; eauto|]. eapply stop_rule; eauto.
  Qed.

  (** The bed never rises above the higher of its start and the water. *)
  Lemma history_bed_below starts b hs b' Vs : sed_physics P st -> sed_flow P st -> lag_ok P g ->
    sed_history id P g st starts b hs b' Vs -> okI b ->
    forall i j, inb L W i j -> b_eta b' i j <= Rmax (b_eta b i j) (s_stage st i j).
  Proof.
    intros HP HF HL Hh Hb.
    set (I := fun b1 => okI b1 /\ forall i j, inb L W i j -> b_eta b1 i j <= Rmax (b_eta b i j) (s_stage st i j)).
    destruct (history_induct id P g st I (fun V => 0 <= V)) with (starts := starts) (b := b) (hs := hs) (b' := b') (Vs := Vs)
      as ((_ & H1) & _); auto.
    - intros b0 V e [HI1 HI2] HJ He.
      destruct (stop_limited P g st b0 V e HP HL HJ) as [Hlim Hpos]; auto. { intros; apply HI1; auto. }
      split; auto. split; [eapply okI_step; eauto|].
      destruct (stop_bed_changed P g st b0 V e He) as [Hc1 Hc2].
      assert (Eb : b_eta (ev_b e) = b_eta b0).
      { rewrite (st_b _ _ _ _ _ _ _ He). destruct g; reflexivity. }
      rewrite Eb in *. intros i j Hin.
      destruct (Z.eq_dec i (ev_i e)) as [Ei|Ei]; [destruct (Z.eq_dec j (ev_j e)) as [Ej|Ej]|];
        try (rewrite Hc2 by congruence; apply HI2; auto).
      subst i j. destruct Hlim as (_ & _ & Hl).
      destruct (Rlt_dec 0 (ev_dV e)) as [Hp|Hp].
      + eapply Rle_trans; [apply Hl; auto|apply Rmax_r].
      + rewrite Hc1. eapply Rle_trans; [|apply HI2; auto].
        assert (ev_dV e / (p_dx P * p_dx P) <= 0); [|lra].
        pose proof (sp_dx _ _ HP). apply Rmult_le_reg_r with (p_dx P * p_dx P); [nra|].
        unfold Rdiv. rewrite Rmult_assoc, Rinv_l, Rmult_1_r by nra. lra.
    - intros b0 c [HI1 HI2]. unfold I, okI in *. destruct g; split; auto.
    - apply (sp_Vp _ _ HP).
    - split; auto. intros i j _. apply Rmax_l.
  Qed.

  Lemma history_deposits starts b hs b' Vs : sed_history id P g st starts b hs b' Vs ->
    forall i j, b_sand b i j <= b_sand b' i j /\ b_mud b i j <= b_mud b' i j.
  Proof.
    intros Hh.
    set (I := fun b1 => forall i j, b_sand b i j <= b_sand b1 i j /\ b_mud b i j <= b_mud b1 i j).
    destruct (history_induct id P g st I (fun _ => True)) with (starts := starts) (b := b) (hs := hs) (b' := b') (Vs := Vs)
      as (H1 & _); auto.
    - intros b0 V e HI _ He. split; auto. pose proof (stop_recorded P g st b0 V e He) as Hr.
      assert (Eb : b_sand (ev_b e) = b_sand b0 /\ b_mud (ev_b e) = b_mud b0).
      { rewrite (st_b _ _ _ _ _ _ _ He). destruct g; auto. }
      destruct Eb as [E1 E2]. unfold deposit_recorded in Hr. intros i j. specialize (HI i j).
      destruct g; destruct Hr as [Hr1 Hr2]; rewrite Hr1, Hr2, ?E1, ?E2;
        destruct (_ && _)%bool; pose proof (Rmax_l 0 (ev_dV e)); lra.
    - intros b0 c HI i j. specialize (HI i j). destruct g; exact HI.
    - intros i j. lra.
  Qed.
End All.
