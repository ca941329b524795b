(** Mirror images: the routing of sediment (C72). *)
From Coq Require Import ZArith List Bool Reals Lra Lia.
From Flocq Require Import Core.
From Verif Require Import Base RLemmas Shared SharedSpec SharedProofs Params State Water VecLemmas
  WaterSpec WeightProofs WalkProofs RunProofs ChanceSpec ChanceProofs Sed SedSpec SedProofs SedCor Diffusion FrameProofs
  MirrorSpec MirrorProofs MirrorWalk MirrorRun MirrorFlow.
Import ListNotations.
Local Open Scope Z_scope.

Lemma sed_ready_mir {S S'} (P : params R) (st : state R S) (st' : state R S') :
  sed_ready P st -> mirror_state P st st' -> sed_ready (mirror_params P) st'.
Proof.
  intros [WD Ho Hs] H. pose proof (mi_cell_type _ _ _ H) as Hct.
  constructor; cbn [p_L p_W p_L0 p_stepmax p_inlet mirror_params]; auto.
  - apply (domain_mir _ _ _ (s_cell_type st)); auto.
  - intros i j Hi. rewrite (mirror_image_back _ _ _ _ _ _ Hct Hi). intros Hl He.
    destruct (Ho i (flip (p_W P) j) (flip_inb _ _ _ _ Hi) Hl He) as (k & Hk & H4 & Hn).
    exists (flip_dir k). split; [apply fd_lt; auto|]. split.
    + intros E. apply H4. rewrite <- (fd_fd k) by auto. rewrite E. reflexivity.
    + rewrite (at_nb_back _ _ _ _ _ _ _ Hi (fd_lt k Hk) Hct), fd_fd by auto. auto.
Qed.

Lemma divisors_mir (P : params R) : divisors_ok (fun x => x) P -> divisors_ok (fun x => x) (mirror_params P).
Proof. intros []. constructor; assumption. Qed.

Section Sed.
  Context {S : Type} {G : Rng R S} (P : params R).
  Notation L := (p_L P).
  Notation W := (p_W P).
  Notation P' := (mirror_params P).
  Notation image := (mirror_image L W).
  Notation vector := (mirror_vector L W).
  Context (HG : uniform_range G) (Hu : forall s, (0 < fst (draw s))%R).

  (** Corresponding fields of a router. *)
  Record bmir (b b' : bed R) : Prop := {
    bm_eta : image (b_eta b) (b_eta b');
    bm_depth : image (b_depth b) (b_depth b');
    bm_pad : mirror_image (L + 2) (W + 2) (b_pad_depth b) (b_pad_depth b');
    bm_uw : image (b_uw b) (b_uw b');
    bm_ux : image (b_ux b) (b_ux b');
    bm_uy : vector (b_uy b) (b_uy b');
    bm_qs : image (b_qs b) (b_qs b');
    bm_sand : image (b_sand b) (b_sand b');
    bm_mud : image (b_mud b) (b_mud b')
  }.

  Lemma vector_gset (g g' : grid R) i j x : vector g g' -> vector (gset g i j x) (gset g' i (flip W j) (- x)%R).
  Proof.
    intros H a b Hi. unfold gset. replace (flip W b =? flip W j) with (b =? j).
    - destruct ((a =? i) && (b =? j)); auto.
    - unfold flip. destruct (Z.eqb_spec b j), (Z.eqb_spec (W - 1 - b) (W - 1 - j)); auto; lia.
  Qed.

  Lemma pad_window_mir (g g' : grid R) i j : inb L W i j -> mirror_image (L + 2) (W + 2) g g' ->
    vmir (window g i j) (window g' i (flip W j)).
  Proof.
    intros [Hi Hj] H k Hk. unfold window.
    assert (Hc : (Z.of_nat k) mod 3 + (Z.of_nat (flip_dir k)) mod 3 = 2 /\ Z.of_nat (flip_dir k) / 3 = Z.of_nat k / 3).
    { apply lt9 in Hk. decompose [or] Hk; subst k; split; reflexivity. }
    destruct Hc as [Hc Hr].
    pose proof (Z.mod_pos_bound (Z.of_nat k) 3 ltac:(lia)).
    assert (0 <= Z.of_nat k / 3 <= 2) by (split; [apply Z.div_pos; lia|apply Z.lt_succ_r; apply Z.div_lt_upper_bound; lia]).
    rewrite Hr, <- (H (i + Z.of_nat k / 3) (j + Z.of_nat k mod 3)) by (split; lia).
    f_equal. unfold flip. lia.
  Qed.

  Section Router.
    Context (g : grain) (st : state R S) (st' : state R (list R)).
    Context (HS : sed_ready P st) (Hm : mirror_state P st st') (HD : divisors_ok (fun x => x) P).
    Let WD := sd_domain P st HS.

    Lemma weights_mir b b' i j : inb L W i j -> bmir b b' ->
      rmir vmir (sed_weights (A:=XA) P g st b i j) (sed_weights (A:=XA) P' g st' b' i (flip W j)).
    Proof.
      intros Hi Hb. rewrite (sed_weights_unfold (fun x => x) P g st), (sed_weights_unfold (fun x => x) P' g st').
      cbn [p_L p_W p_dry_depth mirror_params].
      change (theta_of P' g) with (theta_of P g).
      rewrite (mi_qx _ _ _ Hm i j Hi), (mi_qy _ _ _ Hm i j Hi).
      apply sed_cell_mir.
      - apply int_mir.
      - apply pad_window_mir; auto. apply Hb.
      - apply window_mir; auto. apply Hm.
      - apply window_mir; auto. apply Hm.
    Qed.

    Lemma limit_same Vp i j b b' ero : inb L W i j -> bmir b b' ->
      limit_Vp_change (A:=XA) Vp (s_stage st' i (flip W j)) (b_eta b' i (flip W j)) (p_dx P) ero
      = limit_Vp_change (A:=XA) Vp (s_stage st i j) (b_eta b i j) (p_dx P) ero.
    Proof. intros Hi Hb. rewrite (mi_stage _ _ _ Hm i j Hi), (bm_eta _ _ Hb i j Hi). reflexivity. Qed.

    Lemma change_same b b' V i j : inb L W i j -> bmir b b' ->
      (match g with Sand => sand_change (A:=XA) P' st' b' V i (flip W j) | Mud => mud_change (A:=XA) P' st' b' V i (flip W j) end)
      = (match g with Sand => sand_change (A:=XA) P st b V i j | Mud => mud_change (A:=XA) P st b V i j end).
    Proof.
      intros Hi Hb. destruct g; unfold sand_change, mud_change;
        cbn [p_dx p_qs0 p_f_bedload_router p_u0 p_beta p_U_ero_sand p_U_ero_mud p_U_dep_mud p_lambda p_Vp_sed mirror_params];
        rewrite !(limit_same _ i j b b' _ Hi Hb), (bm_uw _ _ Hb i j Hi), ?(bm_qs _ _ Hb i j Hi), (mi_mod_erosion _ _ _ Hm i j Hi); reflexivity.
    Qed.

    Lemma update_fields_mir b b' dV px py i j : inb L W i j -> bmir b b' ->
      bmir (update_fields (A:=XA) P st b dV px py i j) (update_fields (A:=XA) P' st' b' dV px (flip W py) i (flip W j)).
    Proof.
      intros Hi Hb. unfold update_fields. cbn [p_dx p_u_max mirror_params].
      rewrite (mi_qw _ _ _ Hm i j Hi), (mi_qx _ _ _ Hm i j Hi), (mi_qy _ _ _ Hm i j Hi), (mi_stage _ _ _ Hm i j Hi),
        (bm_eta _ _ Hb i j Hi), (bm_uw _ _ Hb i j Hi).
      constructor; cbn [b_eta b_depth b_pad_depth b_uw b_ux b_uy b_qs b_sand b_mud]; try (apply image_gset); try apply Hb.
      - replace (flip W py + 1) with (flip (W + 2) (py + 1)) by (unfold flip; lia). apply image_gset. apply Hb.
      - match goal with |- vector (gset _ _ _ ?x) (gset _ _ _ ?y) => replace y with (- x)%R end.
        { apply vector_gset. apply Hb. }
        destruct (fltb _ (s_qw st i j)); ra; [unfold Rdiv|]; ring.
    Qed.

    Lemma deposit_mir b b' V px py i j : inb L W i j -> bmir b b' ->
      bmir (fst (deposit_or_erode (A:=XA) P g st b V px py i j)) (fst (deposit_or_erode (A:=XA) P' g st' b' V px (flip W py) i (flip W j))) /\
      snd (deposit_or_erode (A:=XA) P' g st' b' V px (flip W py) i (flip W j)) = snd (deposit_or_erode (A:=XA) P g st b V px py i j).
    Proof.
      intros Hi Hb. pose proof (change_same b b' V i j Hi Hb) as Hc.
      unfold deposit_or_erode. cbn [fst snd]. rewrite Hc. split; auto.
      apply update_fields_mir; auto.
      set (dV := match g with Sand => sand_change P st b V i j | Mud => _ end). clearbody dV. clear Hc.
      assert (Hdep : forall f f', image f f' ->
        image (if fltb (Arith:=XA) (fz (Arith:=XA) 0) dV then gset f i j (fadd (Arith:=XA) (f i j) dV) else f)
              (if fltb (Arith:=XA) (fz (Arith:=XA) 0) dV then gset f' i (flip W j) (fadd (Arith:=XA) (f' i (flip W j)) dV) else f')).
      { intros f f' Hf. destruct (fltb _ dV); auto. rewrite (Hf i j Hi). apply image_gset; auto. }
      destruct g; constructor; cbn [b_eta b_depth b_pad_depth b_uw b_ux b_uy b_qs b_sand b_mud];
        first [apply Hdep; apply Hb|apply Hb].
    Qed.

    Lemma set_qs_mir b b' q q' : bmir b b' -> image q q' -> bmir (set_qs_bed b q) (set_qs_bed b' q').
    Proof. intros [] Hq. constructor; auto. Qed.
    Lemma add_mir f f' i j x : inb L W i j -> image f f' ->
      image (add_at (A:=XA) f i j x) (add_at (A:=XA) f' i (flip W j) x).
    Proof. intros Hi Hf. unfold add_at. rewrite (Hf i j Hi). apply image_gset; auto. Qed.

    Lemma cell_ix_mir px py a c : 0 <= py < W -> cell_ix P px py = Ok (a, c) ->
      cell_ix P' px (flip W py) = Ok (a, flip W c) /\ inb L W a c.
    Proof.
      intros Hp. unfold cell_ix. cbn [p_L p_W mirror_params].
      assert (E1 : wrap W py = py) by (unfold wrap; destruct (Z.ltb_spec py 0); lia).
      assert (E2 : wrap W (flip W py) = flip W py) by (unfold wrap, flip; destruct (Z.ltb_spec (W - 1 - py) 0); lia).
      rewrite E1, E2, flip_inbb. destruct (inbb L W (wrap L px) py) eqn:E; [|discriminate]. intros Q. injection Q as <- <-.
      split; auto. apply inbb_spec; auto.
    Qed.

    Lemma sed_step_mir b b' V i j s px py b1 V1 s1 : on_bed P st i j -> bmir b b' ->
      sed_step (A:=XA) P g st b V i j s = Ok (px, py, b1, V1, s1) ->
      exists u b1', (0 < u < 1)%R /\ bmir b1 b1' /\ 0 <= py < W /\
        (forall a c, cell_ix P px py = Ok (a, c) -> s_cell_type st a c <> EDGE -> on_bed P st px py) /\
        forall rest, sed_step (A:=XA) (G:=tape) P' g st' b' V i (flip W j) (u :: rest) = Ok (px, flip W py, b1', V1, rest).
    Proof.
      intros Hon Hb E. pose proof Hon as (Hin & Hl & He).
      destruct (sed_step_ok (fun x => x) P g st HS b V i j s HD HG (sed_picks_exact P g st Hu) Hon)
        as (e & s' & E1 & E2 & Hst & Es & Ec & Hnext).
      change (RA (fun x => x)) with XA in Es. rewrite E in Es. injection Es as -> -> -> -> ->.
      destruct Hst as [_ (w & k & Ew & Hk & H4 & Hpos & Epx & Epy) (Ei & Ej & Hac) EV Eb Ed Eb'].
      rewrite E1, E2 in *.
      assert (Hpy : 0 <= ev_py e < W).
      { rewrite Epy. destruct (nb_cases P st HS i j k Hon Hk) as [[_ H]|(_ & _ & H)]; auto. }
      pose proof (weights_mir b b' i j Hin Hb) as Hw. change (RA (fun x => x)) with XA in Ew. rewrite Ew in Hw.
      pose proof (sed_weights_ok (fun x => x) P g st b i j Hin) as Hw0. change (RA (fun x => x)) with XA in Hw0. rewrite Ew in Hw0.
      destruct Hw0 as [Hw0 _].
      destruct (sed_weights (A:=XA) P' g st' b' i (flip W j)) as [w'|] eqn:Ew'; [|contradiction]. cbn in Hw.
      destruct (dirs_tape w' (flip_dir k)) as (u & Hu1 & Eu).
      { intros m Hm'. rewrite <- (fd_fd m) by auto. rewrite Hw by (auto using fd_lt). apply Hw0. apply fd_lt; auto. }
      { apply fd_lt; auto. }
      { rewrite Hw; auto. }
      destruct (cell_ix_mir _ _ _ _ Hpy Ec) as [Ec' _].
      (* the mirrored fields *)
      set (x := flux_part (A:=XA) P V).
      set (b1 := match g with
         | Sand => set_qs_bed b' (add_at (A:=XA) (add_at (A:=XA) (b_qs b') i (flip W j) x) (ev_i e) (flip W (ev_j e)) x)
         | Mud => b' end).
      assert (Hb1 : bmir (ev_b e) b1).
      { rewrite Eb. unfold b1, x. destruct g; auto. apply set_qs_mir; auto. apply add_mir; auto. apply add_mir; auto. apply Hb. }
      destruct (deposit_mir (ev_b e) b1 V (ev_px e) (ev_py e) (ev_i e) (ev_j e) Hac Hb1) as [Hd1 Hd2].
      exists u, (fst (deposit_or_erode (A:=XA) P' g st' b1 V (ev_px e) (flip W (ev_py e)) (ev_i e) (flip W (ev_j e)))).
      split; auto. split; [rewrite Eb'; exact Hd1|]. split; auto. split.
      { intros a c Q Hne. rewrite Ec in Q. injection Q as <- <-. auto. }
      intros rest. unfold sed_step, choose_next_location. cbn [p_L p_W mirror_params].
      rewrite flip_inbb, (proj2 (inbb_spec L W i j) Hin). rewrite Ew'. cbn [rbind]. rewrite Eu. cbn [rbind].
      pose proof (get_steps_nb (fun x => x) (flip_dir k) (fd_lt k Hk) i (flip W j)) as Hsn.
      change (RA (fun x => x)) with XA in Hsn.
      destruct (get_steps (A:=XA) (flip_dir k)) as [[[dist istep] jstep] ast]. destruct Hsn as [[-> ->] Hd].
      rewrite fd_nb_row, fd_nb_col by auto. rewrite <- Epx, <- Epy.
      rewrite (cell_ix_in P' i (flip W j)) by (apply flip_inb; auto). cbn [rbind]. rewrite Ec'. cbn [rbind].
      assert (Q : match g with
          | Sand => partition_sediment (A:=XA) P' b' V i (flip W j) (ev_i e) (flip W (ev_j e)) dist
          | Mud => b' end = b1).
      { unfold b1, x. destruct g; auto. unfold partition_sediment. rewrite Hd, fd_ctr by auto.
        rewrite (proj2 (Nat.eqb_neq k 4) H4). reflexivity. }
      rewrite Q.
      pose proof (no_zero_divisor (fun x => x) P' g st' b1 (ev_i e) (flip W (ev_j e)) (divisors_mir P HD)) as Hz.
      change (RA (fun x => x)) with XA in Hz. rewrite Hz.
      destruct (deposit_or_erode (A:=XA) P' g st' b1 V (ev_px e) (flip W (ev_py e)) (ev_i e) (flip W (ev_j e))) as [b2 V2] eqn:Edo.
      cbn [fst snd] in *. rewrite Hd2, Ed. do 3 f_equal.
    Qed.

    Lemma route_one_mir fuel : forall b b' V i j s b1 V1 s1, on_bed P st i j -> bmir b b' ->
      route_one_parcel (A:=XA) P g st fuel b V i j s = Ok (b1, V1, s1) ->
      exists us b1', variates us /\ bmir b1 b1' /\
        forall rest, route_one_parcel (A:=XA) (G:=tape) P' g st' fuel b' V i (flip W j) (us ++ rest) = Ok (b1', V1, rest).
    Proof.
      induction fuel as [|n IH]; intros b b' V i j s b1 V1 s1 Hon Hb E; cbn [route_one_parcel] in E; [discriminate|].
      apply rbind_Ok in E as ([[[[px py] b2] V2] s2] & Es & E). apply rbind_Ok in E as ([a c] & Ec & E).
      destruct (sed_step_mir _ _ _ _ _ _ _ _ _ _ _ Hon Hb Es) as (u & b2' & Hu1 & Hb2 & Hpy & Hnext & Es').
      destruct (cell_ix_mir _ _ _ _ Hpy Ec) as [Ec' Hac]. specialize (Hnext _ _ Ec).
      destruct ((s_cell_type st a c =? -1) || Nat.eqb n 0) eqn:Eend.
      - injection E as <- <- <-. exists [u], b2'. split; [constructor; auto|]. split; auto. intros rest.
        cbn [route_one_parcel app]. rewrite Es'. cbn [rbind]. rewrite Ec'. cbn [rbind].
        rewrite (mi_cell_type _ _ _ Hm a c Hac), Eend. reflexivity.
      - assert (Hne : s_cell_type st a c <> EDGE).
        { intros Q. rewrite Q in Eend. discriminate. }
        destruct (IH _ b2' _ _ _ _ _ _ _ (Hnext Hne) Hb2 E) as (us & b1' & Hus & Hb1 & Er).
        exists (u :: us), b1'. split; [constructor; auto|]. split; auto. intros rest.
        cbn [route_one_parcel app]. rewrite Es'. cbn [rbind]. rewrite Ec'. cbn [rbind].
        rewrite (mi_cell_type _ _ _ Hm a c Hac), Eend. apply Er.
    Qed.

    Lemma route_parcels_mir starts : Forall (fun c => In c (p_inlet P)) starts -> forall b b' s b1 Vs s1, bmir b b' ->
      route_parcels (A:=XA) P g st starts b s = Ok (b1, Vs, s1) ->
      exists us b1', variates us /\ bmir b1 b1' /\
        forall rest, route_parcels (A:=XA) (G:=tape) P' g st' (map (flip W) starts) b' (us ++ rest) = Ok (b1', Vs, rest).
    Proof.
      induction 1 as [|py starts Hc HF IH]; intros b b' s b1 Vs s1 Hb E; cbn [route_parcels map] in *.
      - injection E as <- <- <-. exists [], b'. split; [constructor|]. auto.
      - apply rbind_Ok in E as ([i j] & Ec & E).
        destruct (wd_inlet _ _ _ _ _ WD py Hc) as (Hr & Hl & He).
        pose proof (wd_L0 _ _ _ _ _ WD) as HL.
        assert (Hin0 : inb L W 0 py) by (split; lia).
        rewrite (cell_ix_in P 0 py Hin0) in Ec. injection Ec as <- <-.
        destruct (no_flux_scale (A:=XA) P g) eqn:En; [discriminate|].
        apply rbind_Ok in E as ([[b2 V] s2] & E1 & E). apply rbind_Ok in E as ([[b3 Vs'] s3] & E2 & E).
        injection E as <- <- <-.
        set (b0 := match g with Sand => set_qs_bed b' (add_at (A:=XA) (b_qs b') 0 (flip W py) (flux_part (A:=XA) P (p_Vp_sed P))) | Mud => b' end).
        assert (Hon : on_bed P st 0 py) by (split; auto).
        assert (Hb0 : bmir (match g with Sand => set_qs_bed b (add_at (A:=XA) (b_qs b) 0 py (flux_part (A:=XA) P (p_Vp_sed P))) | Mud => b end) b0).
        { unfold b0. destruct g; auto. apply set_qs_mir; auto. apply add_mir; auto. apply Hb. }
        destruct (route_one_mir _ _ b0 _ _ _ _ _ _ _ Hon Hb0 E1) as (us1 & b2' & Hus1 & Hb2 & Er1).
        destruct (IH _ b2' _ _ _ _ Hb2 E2) as (us2 & b3' & Hus2 & Hb3 & Er2).
        exists (us1 ++ us2), b3'. split; [apply Forall_app; auto|]. split; auto. intros rest.
        rewrite (cell_ix_in P' 0 (flip W py)) by (apply flip_inb; auto). cbn [rbind].
        change (no_flux_scale (A:=XA) P' g) with (no_flux_scale (A:=XA) P g). rewrite En.
        cbn [p_stepmax p_Vp_sed mirror_params].
        change (flux_part (A:=XA) P' (p_Vp_sed P)) with (flux_part (A:=XA) P (p_Vp_sed P)). fold b0.
        rewrite <- app_assoc, Er1. cbn [rbind]. rewrite Er2. reflexivity.
    Qed.
  End Router.

  Lemma bed_of_mir (st : state R S) (st' : state R (list R)) : 1 <= L -> 1 <= W -> mirror_state P st st' ->
    bmir (bed_of (A:=XA) P st) (bed_of (A:=XA) P' st').
  Proof.
    intros HL HW Hm. constructor; cbn [bed_of b_eta b_depth b_pad_depth b_uw b_ux b_uy b_qs b_sand b_mud p_L p_W mirror_params]; try apply Hm.
    intros a c [Ha Hc].
    rewrite !custom_pad_edge by (unfold flip; lia).
    replace (flip (W + 2) c - 1) with (flip W (c - 1)) by (unfold flip; lia). apply nearest_mir; auto. apply Hm.
  Qed.

  (** The routers read only the fields. *)
  Lemma route_one_rng g (st : state R (list R)) r fuel : forall b V i j s,
    route_one_parcel (A:=XA) (G:=tape) P' g (set_rng r st) fuel b V i j s = route_one_parcel (A:=XA) (G:=tape) P' g st fuel b V i j s.
  Proof.
    induction fuel as [|n IH]; intros b V i j s; [reflexivity|]. cbn [route_one_parcel].
    change (sed_step (A:=XA) (G:=tape) P' g (set_rng r st) b V i j s) with (sed_step (A:=XA) (G:=tape) P' g st b V i j s).
    destruct (sed_step (A:=XA) P' g st b V i j s) as [[[[[px py] b'] V'] s']|]; auto. cbn [rbind].
    destruct (cell_ix P' px py) as [[a c]|]; auto. cbn [rbind].
    change (s_cell_type (set_rng r st)) with (s_cell_type st). rewrite IH. reflexivity.
  Qed.
  Lemma route_parcels_rng g (st : state R (list R)) r starts : forall b s,
    route_parcels (A:=XA) (G:=tape) P' g (set_rng r st) starts b s = route_parcels (A:=XA) (G:=tape) P' g st starts b s.
  Proof.
    induction starts as [|c starts IH]; intros b s; [reflexivity|]. cbn [route_parcels].
    destruct (cell_ix P' 0 c) as [[i j]|]; auto. cbn [rbind]. destruct (no_flux_scale P' g); auto.
    rewrite route_one_rng. destruct (route_one_parcel _ _ _ _ _ _ _ _ _) as [[[b2 V] s2]|]; auto. cbn [rbind].
    rewrite IH. reflexivity.
  Qed.

  Lemma put_bed_mir b b' (st : state R S) (st' : state R (list R)) : bmir b b' -> mirror_state P st st' ->
    mirror_state P (put_bed P b st) (put_bed P' b' st').
  Proof.
    intros Hb Hm. unfold put_bed. cbn [p_L p_W mirror_params]. rewrite !gmemo_id.
    apply ms_Vp_dep_mud; [apply ms_Vp_dep_sand; [apply ms_eta; [apply ms_depth; [apply ms_uw; [apply ms_ux; [apply ms_uy; [apply ms_qs; [exact Hm|]|]|]|]|]|]|]|];
      apply Hb.
  Qed.

  Lemma route_all_mir g (st : state R S) (st' : state R (list R)) st1 : sed_ready P st -> mirror_state P st st' ->
    divisors_ok (fun x => x) P -> route_all_parcels (A:=XA) P g st = Ok st1 ->
    exists us st1', variates us /\ mirror_state P st1 st1' /\ forall rest,
      route_all_parcels (A:=XA) (G:=tape) P' g (set_rng (us ++ rest) st') = Ok (set_rng rest st1').
  Proof.
    intros HS Hm HD E. unfold route_all_parcels in E. apply rbind_Ok in E as ([st2 Vs] & E & Eq). injection Eq as <-.
    unfold route_all_parcels_res in E. apply rbind_Ok in E as ([starts s] & Es & E).
    apply rbind_Ok in E as ([[b Vs'] s'] & Er & E). apply Ok_inj in E.
    assert (E2 : st2 = set_rng s' (put_bed P b st)) by congruence. subst st2. clear E.
    pose proof (sd_domain _ _ HS) as WD. pose proof (wd_L0 _ _ _ _ _ WD). pose proof (wd_W _ _ _ _ _ WD).
    destruct (starts_mir W (p_inlet P) _ (s_rng st) starts s HG Hu (wd_inlet_ne _ _ _ _ _ WD) Es) as (us1 & Hus1 & Es').
    assert (Hin : Forall (fun c => In c (p_inlet P)) starts).
    { destruct (starts_ok (fun x => x) P (s_rng st) HG (wd_inlet_ne _ _ _ _ _ WD) (num_starts (A:=XA) P g)) as (l & s0 & El & _ & Hl).
      change (RA (fun x => x)) with XA in El. rewrite Es in El. injection El as <- <-. auto. }
    assert (Hb0 : bmir (bed_of (A:=XA) P st) (bed_of (A:=XA) P' st')) by (apply bed_of_mir; auto; lia).
    destruct (route_parcels_mir g st st' HS Hm HD starts Hin _ _ _ _ _ _ Hb0 Er) as (us2 & b' & Hus2 & Hb & Er').
    exists (us1 ++ us2), (put_bed P' b' st'). split; [apply Forall_app; auto|]. split.
    - apply ms_rng_l. apply put_bed_mir; auto.
    - intros rest. unfold route_all_parcels, route_all_parcels_res.
      change (num_starts (A:=XA) P' g) with (num_starts (A:=XA) P g). cbn [p_inlet mirror_params].
      change (s_rng (set_rng ((us1 ++ us2) ++ rest) st')) with ((us1 ++ us2) ++ rest). rewrite <- app_assoc, Es'. cbn [rbind].
      assert (Er2 : route_parcels (A:=XA) (G:=tape) P' g (set_rng (us1 ++ us2 ++ rest) st') (map (flip W) starts)
         (bed_of (A:=XA) P' (set_rng (us1 ++ us2 ++ rest) st')) (us2 ++ rest) = Ok (b', Vs', rest)).
      { change (bed_of (A:=XA) P' (set_rng (us1 ++ us2 ++ rest) st')) with (bed_of (A:=XA) P' st').
        rewrite <- (Er' rest). apply route_parcels_rng. }
      rewrite Er2. reflexivity.
  Qed.

  (** *** Diffusion *)
  Lemma convolve_mir kernel f f' : vmir kernel kernel -> image f f' ->
    image (convolve (A:=XA) P kernel f) (convolve (A:=XA) P' kernel f').
  Proof.
    intros Hk Hf i j Hi. unfold convolve. cbn [p_L p_W mirror_params]. apply vmir_vsum. intros k Hk9.
    rewrite Hk, fd_row, fd_col by auto.
    replace (flip W j + - iwalk_flat k) with (flip W (j + iwalk_flat k)) by (unfold flip; lia).
    rewrite flip_inbb. destruct (inbb L W (i + jwalk_flat k) (j + iwalk_flat k)) eqn:E; auto.
    apply inbb_spec in E. rewrite (Hf _ _ E). reflexivity.
  Qed.
  Lemma kernel1_mir : vmir kernel1 kernel1.
  Proof. intros k Hk. unfold kernel1. rewrite fd_ctr; auto. Qed.
  Lemma kernel2_mir : vmir kernel2 kernel2.
  Proof. intros k Hk. unfold kernel2. rewrite fd_ctr; auto. Qed.

  Lemma crossflux_mir (st : state R S) (st' : state R (list R)) eta eta' : mirror_state P st st' -> image eta eta' ->
    image (crossflux (A:=XA) P st eta) (crossflux (A:=XA) P' st' eta').
  Proof.
    intros Hm He i j Hi. unfold crossflux. cbn [p_diffusion_multiplier mirror_params].
    pose proof (convolve_mir kernel1 eta eta' kernel1_mir He i j Hi) as Q1.
    pose proof (convolve_mir kernel2 _ _ kernel2_mir (mi_qs _ _ _ Hm) i j Hi) as Q2.
    pose proof (convolve_mir kernel2 _ _ kernel2_mir (image_map2 L W (fmul (Arith:=XA)) _ _ _ _ (mi_qs _ _ _ Hm) He) i j Hi) as Q3.
    cbv beta in Q3. rewrite Q1, Q2, Q3, (mi_cell_type _ _ _ Hm i j Hi), (mi_qs _ _ _ Hm i j Hi), (He i j Hi). reflexivity.
  Qed.

  Lemma diffuse_mir n : forall (st : state R S) (st' : state R (list R)), mirror_state P st st' ->
    mirror_state P (diffuse_passes (A:=XA) P n st) (diffuse_passes (A:=XA) P' n st').
  Proof.
    induction n as [|n IH]; intros st st' Hm; cbn [diffuse_passes]; auto. apply IH.
    unfold diffuse_once. cbn [p_L p_W mirror_params]. rewrite !gmemo_id.
    pose proof (crossflux_mir st st' _ _ Hm (mi_eta _ _ _ Hm)) as Q.
    apply ms_cf; [apply ms_eta; [exact Hm|]|exact Q].
    apply (image_map2 L W (fadd (Arith:=XA))); auto. apply Hm.
  Qed.
  Lemma diffuse_rng n r : forall st : state R (list R),
    diffuse_passes (A:=XA) P' n (set_rng r st) = set_rng r (diffuse_passes (A:=XA) P' n st).
  Proof.
    induction n as [|n IH]; intros st; [reflexivity|]. cbn [diffuse_passes]. rewrite <- IH. reflexivity.
  Qed.

  Lemma route_sediment_mir (st : state R S) (st' : state R (list R)) st1 : sed_ready P st -> mirror_state P st st' ->
    divisors_ok (fun x => x) P -> route_sediment (A:=XA) P st = Ok st1 ->
    exists us st1', variates us /\ mirror_state P st1 st1' /\ forall rest,
      route_sediment (A:=XA) (G:=tape) P' (set_rng (us ++ rest) st') = Ok (set_rng rest st1').
  Proof.
    intros HS Hm HD E. unfold route_sediment in E. apply rbind_Ok in E as (st2 & E1 & E2).
    set (s0 := init_sediment_iteration (A:=XA) st) in *. set (s0' := init_sediment_iteration (A:=XA) st').
    assert (Hm0 : mirror_state P s0 s0').
    { unfold s0, s0', init_sediment_iteration. apply ms_qs; [apply ms_Vp_dep_sand; [apply ms_Vp_dep_mud; [exact Hm|]|]|]; apply image_const. }
    assert (HS0 : sed_ready P s0) by (apply (sed_ready_frame P st); auto).
    destruct (route_all_mir Sand s0 s0' st2 HS0 Hm0 HD E1) as (us1 & st2' & Hus1 & Hm2 & E1').
    assert (HS2 : sed_ready P (topo_diffusion (A:=XA) P st2)).
    { apply (sed_ready_frame P s0); auto.
      destruct (diffuse_frame (A:=XA) P (Z.to_nat (p_N_crossdiff P)) st2) as (F2 & _).
      unfold route_all_parcels in E1. apply rbind_Ok in E1 as ([x Vs] & E1 & Ex). injection Ex as ->.
      apply (route_all_frame P) in E1. unfold topo_diffusion. unfold sed_frame in *. intuition congruence. }
    assert (Hm3 : mirror_state P (topo_diffusion (A:=XA) P st2) (topo_diffusion (A:=XA) P' st2')).
    { unfold topo_diffusion. cbn [p_N_crossdiff mirror_params]. apply diffuse_mir; auto. }
    destruct (route_all_mir Mud _ _ st1 HS2 Hm3 HD E2) as (us2 & st1' & Hus2 & Hm1 & E2').
    exists (us1 ++ us2), st1'. split; [apply Forall_app; auto|]. split; auto. intros rest.
    unfold route_sediment. rewrite <- app_assoc.
    change (init_sediment_iteration (A:=XA) (set_rng (us1 ++ us2 ++ rest) st')) with (set_rng (us1 ++ us2 ++ rest) s0').
    rewrite E1'. cbn [rbind]. unfold topo_diffusion in *. cbn [p_N_crossdiff mirror_params] in *. rewrite diffuse_rng. apply E2'.
  Qed.
End Sed.
