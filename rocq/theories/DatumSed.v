(** Elevations counted from another zero: sediment, the end of a step and
    runs (C78). *)
From Coq Require Import ZArith List Bool Reals Lra Lia.
From Flocq Require Import Core.
From Verif Require Import Base RLemmas Shared SharedSpec SharedProofs Params State Water Sed Iter VecLemmas
  WaterSpec WeightProofs WalkProofs RunProofs SedSpec SedProofs Diffusion FrameProofs StepSpec StepProofs IterProofs MirrorSpec MirrorProofs MirrorFlow DatumSpec DatumProofs.
Import ListNotations.
Local Open Scope Z_scope.

Section Sed.
  Context {S : Type} {G : Rng R S} (c : R) (P : params R).
  Notation L := (p_L P).
  Notation W := (p_W P).
  Context (HL1 : 1 <= L) (HW1 : 1 <= W).

  Record bed_up (b b' : bed R) : Prop := {
    bu_eta : higher L W c (b_eta b) (b_eta b');
    bu_depth : same L W (b_depth b) (b_depth b');
    bu_pad : same (L + 2) (W + 2) (b_pad_depth b) (b_pad_depth b');
    bu_uw : same L W (b_uw b) (b_uw b');
    bu_ux : same L W (b_ux b) (b_ux b');
    bu_uy : same L W (b_uy b) (b_uy b');
    bu_qs : same L W (b_qs b) (b_qs b');
    bu_sand : same L W (b_sand b) (b_sand b');
    bu_mud : same L W (b_mud b) (b_mud b')
  }.

  Lemma pad_window_same (g g' : grid R) i j : inb L W i j -> same (L + 2) (W + 2) g g' -> veq (window g i j) (window g' i j).
  Proof.
    intros [Hi Hj] H k Hk. unfold window. apply H.
    pose proof (Z.mod_pos_bound (Z.of_nat k) 3 ltac:(lia)).
    assert (0 <= Z.of_nat k / 3 <= 2) by (split; [apply Z.div_pos; lia|apply Z.lt_succ_r; apply Z.div_lt_upper_bound; lia]).
    split; lia.
  Qed.
  Lemma same_gset' {T} L' W' (g g' : grid T) i j x : same L' W' g g' -> same L' W' (gset g i j x) (gset g' i j x).
  Proof. intros H a b Hab. unfold gset. destruct (_ && _); auto. Qed.

  Section Router.
    Context (g : grain) (st st' : state R S) (Hm : raised c P st st').

    Lemma weights_up b b' i j : inb L W i j -> bed_up b b' ->
      alike veq (sed_weights (A:=XA) P g st b i j) (sed_weights (A:=XA) P g st' b' i j).
    Proof.
      intros Hi Hb. rewrite !(sed_weights_unfold (fun x => x) P g). rewrite (up_qx _ _ _ _ Hm i j Hi), (up_qy _ _ _ _ Hm i j Hi).
      apply sed_cell_veq.
      - intros k Hk. reflexivity.
      - apply pad_window_same; auto. apply Hb.
      - apply window_same; auto. apply Hm.
      - apply window_same; auto. apply Hm.
    Qed.

    Lemma location_up b b' px py s : bed_up b b' ->
      choose_next_location (A:=XA) P g st' b' px py s = choose_next_location (A:=XA) P g st b px py s.
    Proof.
      intros Hb. unfold choose_next_location. destruct (inbb L W px py) eqn:E; [|reflexivity]. apply inbb_spec in E.
      pose proof (weights_up b b' px py E Hb) as Q.
      destruct (sed_weights P g st b px py) as [w|], (sed_weights P g st' b' px py) as [w'|]; cbn in Q; try contradiction; cbn [rbind]; [|congruence].
      f_equal. apply map_ext_in. intros k Hk. apply Q. unfold D9 in Hk. apply in_seq in Hk. lia.
    Qed.

    Lemma limit_up Vp i j b b' ero : inb L W i j -> bed_up b b' ->
      limit_Vp_change (A:=XA) Vp (s_stage st' i j) (b_eta b' i j) (p_dx P) ero = limit_Vp_change (A:=XA) Vp (s_stage st i j) (b_eta b i j) (p_dx P) ero.
    Proof.
      intros Hi Hb. rewrite (up_stage _ _ _ _ Hm i j Hi), (bu_eta _ _ Hb i j Hi). unfold limit_Vp_change.
      replace (fsub (Arith:=XA) (s_stage st i j + c)%R (b_eta b i j + c)%R) with (fsub (Arith:=XA) (s_stage st i j) (b_eta b i j)) by (ra; ring). reflexivity.
    Qed.

    Lemma change_up b b' V i j : inb L W i j -> bed_up b b' ->
      (match g with Sand => sand_change (A:=XA) P st' b' V i j | Mud => mud_change (A:=XA) P st' b' V i j end)
      = (match g with Sand => sand_change (A:=XA) P st b V i j | Mud => mud_change (A:=XA) P st b V i j end).
    Proof.
      intros Hi Hb. destruct g; unfold sand_change, mud_change;
        rewrite !(limit_up _ i j b b' _ Hi Hb), (bu_uw _ _ Hb i j Hi), ?(bu_qs _ _ Hb i j Hi), (up_mod_erosion _ _ _ _ Hm i j Hi); reflexivity.
    Qed.

    Lemma divisor_up b b' i j : inb L W i j -> bed_up b b' -> zero_divisor (A:=XA) P g st' b' i j = zero_divisor (A:=XA) P g st b i j.
    Proof. intros Hi Hb. unfold zero_divisor. rewrite (bu_uw _ _ Hb i j Hi), (bu_qs _ _ Hb i j Hi). reflexivity. Qed.

    Lemma fields_up b b' dV px py i j : inb L W i j -> bed_up b b' ->
      bed_up (update_fields (A:=XA) P st b dV px py i j) (update_fields (A:=XA) P st' b' dV px py i j).
    Proof.
      intros Hi Hb. unfold update_fields.
      rewrite (up_qw _ _ _ _ Hm i j Hi), (up_qx _ _ _ _ Hm i j Hi), (up_qy _ _ _ _ Hm i j Hi), (up_stage _ _ _ _ Hm i j Hi),
        (bu_eta _ _ Hb i j Hi), (bu_uw _ _ Hb i j Hi).
      replace (fsub (Arith:=XA) (s_stage st i j + c)%R (fadd (Arith:=XA) (b_eta b i j + c)%R (fdiv (Arith:=XA) dV (fmul (Arith:=XA) (p_dx P) (p_dx P)))))
        with (fsub (Arith:=XA) (s_stage st i j) (fadd (Arith:=XA) (b_eta b i j) (fdiv (Arith:=XA) dV (fmul (Arith:=XA) (p_dx P) (p_dx P)))))
        by (ra; ring).
      constructor; cbn [b_eta b_depth b_pad_depth b_uw b_ux b_uy b_qs b_sand b_mud]; try (apply same_gset'); try apply Hb.
      apply higher_gset; [apply Hb|]. ra. ring.
    Qed.

    Lemma deposit_up b b' V px py i j : inb L W i j -> bed_up b b' ->
      bed_up (fst (deposit_or_erode (A:=XA) P g st b V px py i j)) (fst (deposit_or_erode (A:=XA) P g st' b' V px py i j)) /\
      snd (deposit_or_erode (A:=XA) P g st' b' V px py i j) = snd (deposit_or_erode (A:=XA) P g st b V px py i j).
    Proof.
      intros Hi Hb. pose proof (change_up b b' V i j Hi Hb) as Hc.
      unfold deposit_or_erode. cbn [fst snd]. rewrite Hc. split; auto. apply fields_up; auto.
      set (dV := match g with Sand => sand_change P st b V i j | Mud => _ end). clearbody dV. clear Hc.
      assert (Hdep : forall f f', same L W f f' ->
        same L W (if fltb (Arith:=XA) (fz (Arith:=XA) 0) dV then gset f i j (fadd (Arith:=XA) (f i j) dV) else f)
              (if fltb (Arith:=XA) (fz (Arith:=XA) 0) dV then gset f' i j (fadd (Arith:=XA) (f' i j) dV) else f')).
      { intros f f' Hf. destruct (fltb _ dV); auto. rewrite (Hf i j Hi). apply same_gset'; auto. }
      destruct g; constructor; cbn [b_eta b_depth b_pad_depth b_uw b_ux b_uy b_qs b_sand b_mud];
        first [apply Hdep; apply Hb|apply Hb].
    Qed.

    Lemma set_qs_up b b' q q' : bed_up b b' -> same L W q q' -> bed_up (set_qs_bed b q) (set_qs_bed b' q').
    Proof. intros [] Hq. constructor; auto. Qed.
    Lemma add_up f f' i j x : inb L W i j -> same L W f f' -> same L W (add_at (A:=XA) f i j x) (add_at (A:=XA) f' i j x).
    Proof. intros Hi Hf. unfold add_at. rewrite (Hf i j Hi). apply same_gset'; auto. Qed.
    Lemma cell_ix_inb px py i j : cell_ix P px py = Ok (i, j) -> inb L W i j.
    Proof. unfold cell_ix. destruct (inbb L W _ _) eqn:E; [|discriminate]. intros [= <- <-]. apply inbb_spec, E. Qed.

    Definition moved_up (x x' : Z * Z * bed R * R * S) : Prop :=
      let '(px, py, b, V, s) := x in let '(px', py', b', V', s') := x' in
      px' = px /\ py' = py /\ bed_up b b' /\ V' = V /\ s' = s.
    Lemma sed_step_up b b' V px py s : bed_up b b' ->
      alike moved_up (sed_step (A:=XA) P g st b V px py s) (sed_step (A:=XA) P g st' b' V px py s).
    Proof.
      intros Hb. unfold sed_step. rewrite (location_up b b' px py s Hb).
      destruct (choose_next_location P g st b px py s) as [[k s1]|]; [|reflexivity]. cbn [rbind].
      destruct (get_steps (A:=XA) k) as [[[dist istep] jstep] ast].
      destruct (cell_ix P px py) as [[i0 j0]|] eqn:E0; [|reflexivity]. cbn [rbind].
      destruct (cell_ix P (px + jstep) (py + istep)) as [[i j]|] eqn:E1; [|reflexivity]. cbn [rbind].
      apply cell_ix_inb in E0, E1.
      set (b1 := match g with Sand => partition_sediment P b V i0 j0 i j dist | Mud => b end).
      set (b1' := match g with Sand => partition_sediment P b' V i0 j0 i j dist | Mud => b' end).
      assert (Hb1 : bed_up b1 b1').
      { unfold b1, b1'. destruct g; auto. unfold partition_sediment. destruct (fltb _ dist); auto.
        apply set_qs_up; auto. apply add_up; auto. apply add_up; auto. apply Hb. }
      clearbody b1 b1'. rewrite (divisor_up b1 b1' i j E1 Hb1). destruct (zero_divisor P g st b1 i j); [reflexivity|].
      pose proof (deposit_up b1 b1' V (px + jstep) (py + istep) i j E1 Hb1) as [Q1 Q2].
      destruct (deposit_or_erode P g st b1 V _ _ i j) as [b2 V2], (deposit_or_erode P g st' b1' V _ _ i j) as [b2' V2'].
      cbn [fst snd] in *. cbn [alike moved_up]. auto.
    Qed.

    Definition parcel_up (x x' : bed R * R * S) : Prop := bed_up (fst (fst x)) (fst (fst x')) /\ snd (fst x') = snd (fst x) /\ snd x' = snd x.
    Lemma route_one_up fuel : forall b b' V px py s, bed_up b b' ->
      alike parcel_up (route_one_parcel (A:=XA) P g st fuel b V px py s) (route_one_parcel (A:=XA) P g st' fuel b' V px py s).
    Proof.
      induction fuel as [|n IH]; intros b b' V px py s Hb; cbn [route_one_parcel]; [reflexivity|].
      eapply alike_bind; [apply sed_step_up; exact Hb|].
      intros [[[[qx qy] b1] V1] s1] [[[[qx' qy'] b1'] V1'] s1'] _ (-> & -> & Hb1 & -> & ->).
      destruct (cell_ix P qx qy) as [[i j]|] eqn:E; [|reflexivity]. cbn [rbind]. apply cell_ix_inb in E.
      rewrite (up_cell_type _ _ _ _ Hm i j E). destruct (_ || _); [|apply IH; auto]. cbn [alike]. split; auto.
    Qed.

    Definition parcels_up (x x' : bed R * list R * S) : Prop := bed_up (fst (fst x)) (fst (fst x')) /\ snd (fst x') = snd (fst x) /\ snd x' = snd x.
    Lemma route_parcels_up starts : forall b b' s, bed_up b b' ->
      alike parcels_up (route_parcels (A:=XA) P g st starts b s) (route_parcels (A:=XA) P g st' starts b' s).
    Proof.
      induction starts as [|py starts IH]; intros b b' s Hb; cbn [route_parcels]; [split; auto|].
      destruct (cell_ix P 0 py) as [[i j]|] eqn:E; [|reflexivity]. cbn [rbind]. apply cell_ix_inb in E.
      destruct (no_flux_scale P g); [reflexivity|].
      eapply alike_bind.
      - apply route_one_up.
        destruct g; auto. apply set_qs_up; auto. apply add_up; auto. apply Hb.
      - intros [[b2 V] s2] [[b2' V'] s2'] _ (Hb2 & EV & Es). cbn [fst snd] in *. subst V' s2'.
        eapply alike_bind; [apply IH; exact Hb2|].
        intros [[b3 Vs] s3] [[b3' Vs'] s3'] _ (Hb3 & EVs & Es). cbn [fst snd] in *. subst Vs' s3'. cbn [alike]. split; auto.
    Qed.
  End Router.

  Lemma bed_of_up (st st' : state R S) : raised c P st st' -> bed_up (bed_of (A:=XA) P st) (bed_of (A:=XA) P st').
  Proof.
    intros Hm. constructor; cbn [bed_of b_eta b_depth b_pad_depth b_uw b_ux b_uy b_qs b_sand b_mud]; try apply Hm.
    intros a b [Ha Hb]. rewrite !custom_pad_edge by lia. apply nearest_same; auto. apply Hm.
  Qed.

  Lemma put_bed_up b b' (st st' : state R S) : bed_up b b' -> raised c P st st' -> raised c P (put_bed P b st) (put_bed P b' st').
  Proof.
    intros Hb Hm. unfold put_bed. rewrite !gmemo_id.
    apply us_Vp_dep_mud; [apply us_Vp_dep_sand; [apply us_eta; [apply us_depth; [apply us_uw; [apply us_ux; [apply us_uy; [apply us_qs; [exact Hm|]|]|]|]|]|]|]|];
      apply Hb.
  Qed.

  Lemma route_all_up g (st st' : state R S) : raised c P st st' ->
    alike (fun x x' => raised c P (fst x) (fst x') /\ snd x' = snd x)
      (route_all_parcels_res (A:=XA) P g st) (route_all_parcels_res (A:=XA) P g st').
  Proof.
    intros Hm. unfold route_all_parcels_res. rewrite (up_rng _ _ _ _ Hm).
    destruct (get_start_indices (p_inlet P) _ _ _) as [[starts s]|]; [|reflexivity]. cbn [rbind].
    eapply alike_bind; [apply (route_parcels_up g st st' Hm), bed_of_up, Hm|].
    intros [[b Vs] s1] [[b' Vs'] s1'] _ (Hb & EV & Es). cbn [fst snd] in *. subst Vs' s1'. cbn [alike fst snd].
    split; [|reflexivity]. apply us_rng, put_bed_up; auto.
  Qed.
  Lemma route_all_up' g (st st' : state R S) : raised c P st st' ->
    alike (raised c P) (route_all_parcels (A:=XA) P g st) (route_all_parcels (A:=XA) P g st').
  Proof.
    intros Hm. unfold route_all_parcels. eapply alike_bind; [apply route_all_up, Hm|].
    intros [x ?] [x' ?] _ [H _]. exact H.
  Qed.

  (** *** Diffusion *)
  Lemma row_nb k i : (k < 9)%nat -> i + jwalk_flat k = nb_row i k.
  Proof. intros Hk. apply lt9 in Hk. unfold nb_row. decompose [or] Hk; subst; cbn; lia. Qed.
  Lemma col_nb k j : (k < 9)%nat -> j + iwalk_flat k = nb_col j k.
  Proof. intros Hk. apply lt9 in Hk. unfold nb_col. decompose [or] Hk; subst; cbn; lia. Qed.

  Lemma missing_sum i j : IZR (missing_neighbours L W i j) = sum9 (fun k => if inbb L W (nb_row i k) (nb_col j k) then 0 else 1)%R.
  Proof.
    unfold missing_neighbours. cbn [seq]. set (f := fun k => negb (inbb L W (nb_row i k) (nb_col j k))).
    pose proof (vcount_length f) as E. unfold D9 in E. cbn [seq] in E. rewrite <- E.
    rewrite vcount_sum. apply sum9_ext. intros k Hk. unfold f. destruct (inbb _ _ _ _); reflexivity.
  Qed.

  Lemma crossflux_up (st st' : state R S) eta eta' i j : raised c P st st' -> higher L W c eta eta' -> inb L W i j ->
    crossflux (A:=XA) P st' eta' i j = (crossflux (A:=XA) P st eta i j -
      (if ((s_cell_type st i j =? -2) || (i =? 0))%Z then 0 else p_diffusion_multiplier P * s_qs st i j * IZR (missing_neighbours L W i j) * c))%R.
  Proof.
    intros Hm He Hi. unfold crossflux. rewrite (up_cell_type _ _ _ _ Hm i j Hi), (up_qs _ _ _ _ Hm i j Hi), (He i j Hi).
    destruct (_ || _); [ra; ring|]. rewrite missing_sum. cbv zeta.
    set (inn := fun k => inbb L W (i + jwalk_flat k) (j + iwalk_flat k)).
    assert (Em : sum9 (fun k => if inbb L W (nb_row i k) (nb_col j k) then 0%R else 1%R) = sum9 (fun k => if inn k then 0%R else 1%R)).
    { apply sum9_ext. intros k Hk. unfold inn. rewrite row_nb, col_nb by auto. reflexivity. }
    rewrite Em.
    assert (I4 : inn 4%nat = true) by (apply inbb_spec; destruct Hi; split; cbn; lia).
    set (e := fun k => eta (i + jwalk_flat k) (j + iwalk_flat k)). set (q := fun k => s_qs st (i + jwalk_flat k) (j + iwalk_flat k)).
    assert (C : forall kernel f (v : nat -> R), (forall k, inn k = true -> f (i + jwalk_flat k) (j + iwalk_flat k) = v k) ->
      convolve (A:=XA) P kernel f i j = sum9 (fun k => IZR (kernel k) * (if inn k then v k else 0))%R).
    { intros kernel f v Hv. unfold convolve. change XA with RX. rewrite vsum_X. apply sum9_ext. intros k Hk.
      change RX with (RA (fun x => x)). ra. change (inbb L W (i + jwalk_flat k) (j + iwalk_flat k)) with (inn k).
      destruct (inn k) eqn:Ek; [rewrite (Hv k Ek)|]; reflexivity. }
    rewrite (C kernel1 eta' (fun k => e k + c)%R), (C kernel2 (s_qs st') q),
      (C kernel2 (fun x y => fmul (Arith:=XA) (s_qs st' x y) (eta' x y)) (fun k => q k * (e k + c))%R),
      (C kernel1 eta e), (C kernel2 (s_qs st) q), (C kernel2 (fun x y => fmul (Arith:=XA) (s_qs st x y) (eta x y)) (fun k => q k * e k)%R).
    2-7: intros k Hk; apply inbb_spec in Hk; cbv beta; rewrite ?(up_qs _ _ _ _ Hm _ _ Hk), ?(He _ _ Hk); reflexivity.
    assert (E4 : e 4%nat = eta i j) by (unfold e; f_equal; cbn; lia).
    clear C Em. clearbody inn e q. ra. unfold sum9. rewrite I4, E4. cbn [kernel1 kernel2 Nat.eqb].
    generalize (inn 0%nat), (inn 1%nat), (inn 2%nat), (inn 3%nat), (inn 5%nat), (inn 6%nat), (inn 7%nat), (inn 8%nat).
    intros [] [] [] [] [] [] [] []; ring.
  Qed.

  Lemma diffuse_once_up (st st' : state R S) : raised c P st st' -> p_diffusion_multiplier P = 0%R \/ no_sand_at_rim P st ->
    raised c P (diffuse_once (A:=XA) P st) (diffuse_once (A:=XA) P st').
  Proof.
    intros Hm Hq. unfold diffuse_once. rewrite !gmemo_id.
    assert (Hc : same L W (crossflux (A:=XA) P st (s_eta st)) (crossflux (A:=XA) P st' (s_eta st'))).
    { intros i j Hi. rewrite (crossflux_up st st' _ _ i j Hm (up_eta _ _ _ _ Hm) Hi).
      destruct (s_cell_type st i j =? -2); cbn [orb]; [ring|]. destruct (Z.eqb_spec i 0); [ring|].
      destruct Hq as [->|Hq]; [ring|]. destruct (Z.eq_dec (missing_neighbours L W i j) 0) as [->|Hn]; [ring|].
      rewrite (Hq i j Hi) by (auto; destruct Hi; lia). ring. }
    apply us_cf; [apply us_eta; [exact Hm|]|exact Hc].
    intros i j Hi. rewrite (Hc i j Hi), (up_eta _ _ _ _ Hm i j Hi). ra. ring.
  Qed.
  Lemma diffuse_up n : forall st st' : state R S, raised c P st st' -> p_diffusion_multiplier P = 0%R \/ no_sand_at_rim P st ->
    raised c P (diffuse_passes (A:=XA) P n st) (diffuse_passes (A:=XA) P n st').
  Proof.
    induction n as [|n IH]; intros st st' Hm Hq; cbn [diffuse_passes]; auto. apply IH; [apply diffuse_once_up; auto|exact Hq].
  Qed.
  Lemma diffusion_up (st st' : state R S) : raised c P st st' -> rim_at_rest P st ->
    raised c P (topo_diffusion (A:=XA) P st) (topo_diffusion (A:=XA) P st').
  Proof.
    intros Hm [Hn|Hq]; unfold topo_diffusion.
    - replace (Z.to_nat (p_N_crossdiff P)) with 0%nat by lia. exact Hm.
    - apply diffuse_up; auto.
  Qed.

  Lemma init_up (st st' : state R S) : raised c P st st' -> raised c P (init_sediment_iteration (A:=XA) st) (init_sediment_iteration (A:=XA) st').
  Proof.
    intros Hm. unfold init_sediment_iteration. apply us_qs; [apply us_Vp_dep_sand; [apply us_Vp_dep_mud; [exact Hm|]|]|]; intros i j Hi; reflexivity.
  Qed.
  Lemma route_sediment_up (st st' : state R S) : raised c P st st' ->
    (forall sb, route_all_parcels (A:=XA) P Sand (init_sediment_iteration (A:=XA) st) = Ok sb -> rim_at_rest P sb) ->
    alike (raised c P) (route_sediment (A:=XA) P st) (route_sediment (A:=XA) P st').
  Proof.
    intros Hm Hq. unfold route_sediment. eapply alike_bind; [apply route_all_up', init_up, Hm|].
    intros x x' E Hx. apply route_all_up', diffusion_up; auto.
  Qed.
End Sed.

(** ** The end of a step *)
Lemma end_fields {F} {A : Arith F} {S : Type} (P : params F) (sa : state F S) :
  s_H_SL (advance_clock P (finalize_timestep P sa)) = fadd (s_H_SL sa) (fmul (p_SLR P) (p_dt P)) /\
  s_stage (advance_clock P (finalize_timestep P sa)) =
    gmemo (p_L P) (p_W P) (fun i j => npmax (flooding_correction P (s_depth sa) (s_eta sa) (s_stage sa) i j) (s_H_SL sa)).
Proof. split; reflexivity. Qed.
Lemma write_levels {F} {A : Arith F} {S : Type} (P : params F) (sa : state F S) :
  s_H_SL (fst (write_output P sa)) = s_H_SL sa /\ s_stage (fst (write_output P sa)) = s_stage sa.
Proof. unfold write_output, output_data, output_checkpoint. destruct (ext_geb _ _); cbn [fst snd]; destruct (_ && _); split; reflexivity. Qed.

Section Iter.
  Context {S : Type} {G : Rng R S} (c : R) (P : params R).
  Notation L := (p_L P).
  Notation W := (p_W P).
  Context (HL : 2 <= L) (HW : 2 <= W).

  Lemma above_frame (st st' : state R S) : sed_frame st st' -> levels_above_zero c P st -> levels_above_zero c P st'.
  Proof. intros (E1 & _ & _ & _ & _ & E2 & _) H. unfold levels_above_zero. rewrite E1, E2. exact H. Qed.

  Lemma subsidence_up (st st' : state R S) : raised c P st st' ->
    raised c P (apply_subsidence (A:=XA) P st) (apply_subsidence (A:=XA) P st').
  Proof.
    intros Hm. unfold apply_subsidence. rewrite (up_time _ _ _ _ Hm). destruct (_ && _); auto. rewrite !gmemo_id.
    apply us_eta; auto. intros i j Hi. rewrite (up_eta _ _ _ _ Hm i j Hi). ra. ring.
  Qed.

  Lemma sand_frac_up (st st' : state R S) : raised c P st st' ->
    raised c P (compute_sand_frac (A:=XA) P st) (compute_sand_frac (A:=XA) P st').
  Proof.
    intros Hm. unfold compute_sand_frac. rewrite !gmemo_id.
    assert (Ed : forall i j, inb L W i j ->
      fltb (Arith:=XA) (fsub (Arith:=XA) (s_eta st' i j) (s_eta0 st' i j)) (fz (Arith:=XA) 0)
      = fltb (Arith:=XA) (fsub (Arith:=XA) (s_eta st i j) (s_eta0 st i j)) (fz (Arith:=XA) 0)).
    { intros i j Hi. rewrite (up_eta _ _ _ _ Hm i j Hi), (up_eta0 _ _ _ _ Hm i j Hi). f_equal. ra. ring. }
    assert (Ee : existsb (fun c => fltb (Arith:=XA) (fsub (Arith:=XA) (s_eta st' (fst c) (snd c)) (s_eta0 st' (fst c) (snd c))) (fz (Arith:=XA) 0)) (cells L W)
               = existsb (fun c => fltb (Arith:=XA) (fsub (Arith:=XA) (s_eta st (fst c) (snd c)) (s_eta0 st (fst c) (snd c))) (fz (Arith:=XA) 0)) (cells L W)).
    { apply eq_true_iff_eq. rewrite !existsb_exists. split; intros ([i j] & Hc & E); cbn [fst snd] in E;
        pose proof Hc as Hc'; apply cells_In in Hc'; exists (i, j); (split; [exact Hc|]); cbn [fst snd];
        [rewrite <- (Ed i j Hc')|rewrite (Ed i j Hc')]; exact E. }
    apply us_sand_frac; [apply us_active_layer; auto|].
    - intros i j Hi. rewrite (up_Vp_dep_sand _ _ _ _ Hm i j Hi), (up_Vp_dep_mud _ _ _ _ Hm i j Hi), (up_active_layer _ _ _ _ Hm i j Hi). reflexivity.
    - intros i j Hi. rewrite Ee, (up_Vp_dep_sand _ _ _ _ Hm i j Hi), (up_Vp_dep_mud _ _ _ _ Hm i j Hi). clear Ee.
      destruct (existsb _ _); cbv beta; [rewrite (Ed i j Hi)|];
        rewrite ?(up_active_layer _ _ _ _ Hm i j Hi), ?(up_sand_frac _ _ _ _ Hm i j Hi); auto.
      assert (E1 : fleb (Arith:=XA) (fsub (Arith:=XA) (s_eta0 st' i j) (p_active_layer_thickness P)) (s_eta st' i j)
        = fleb (Arith:=XA) (fsub (Arith:=XA) (s_eta0 st i j) (p_active_layer_thickness P)) (s_eta st i j)).
      { rewrite (up_eta _ _ _ _ Hm i j Hi), (up_eta0 _ _ _ _ Hm i j Hi). ra. apply eq_true_iff_eq.
        match goal with |- Rleb ?a ?b = true <-> Rleb ?d ?e = true => destruct (Rleb_spec a b), (Rleb_spec d e); split; auto; lra end. }
      assert (E2 : fltb (Arith:=XA) (s_eta st' i j) (fsub (Arith:=XA) (s_eta0 st' i j) (p_active_layer_thickness P))
        = fltb (Arith:=XA) (s_eta st i j) (fsub (Arith:=XA) (s_eta0 st i j) (p_active_layer_thickness P))).
      { rewrite (up_eta _ _ _ _ Hm i j Hi), (up_eta0 _ _ _ _ Hm i j Hi). ra. apply eq_true_iff_eq.
        match goal with |- Rltb ?a ?b = true <-> Rltb ?d ?e = true => destruct (Rltb_spec a b), (Rltb_spec d e); split; auto; lra end. }
      rewrite E1, E2. reflexivity.
  Qed.

  Lemma finish_up (st st' : state R S) : raised c P st st' -> levels_above_zero c P st ->
    raised c P (finalize_levels (A:=XA) P st) (finalize_levels (A:=XA) P st').
  Proof.
    intros Hm Hz. unfold finalize_levels.
    pose proof (flooding_up c P _ _ _ _ _ _ HL HW (up_depth _ _ _ _ Hm) (up_eta _ _ _ _ Hm) (up_stage _ _ _ _ Hm) (proj2 Hz)) as Hf.
    pose proof (us_stage c P st st' Hm _ _ Hf) as Hm1. set (s1 := set_stage _ st) in *. set (s1' := set_stage _ st') in *. clearbody s1 s1'.
    pose proof (levels_stage_up c P _ _ Hm1) as Hm2. set (s2 := set_stage _ s1) in *. set (s2' := set_stage _ s1') in *. clearbody s2 s2'.
    pose proof (levels_depth_up c P _ _ Hm2) as Hm3. set (s3 := set_depth _ s2) in *. set (s3' := set_depth _ s2') in *. clearbody s3 s3'.
    rewrite !gmemo_id.
    apply us_depth; [apply us_eta; [exact Hm3|]|]; intros i j Hi; destruct (_ && _); cbn [s_depth s_stage set_eta]; try reflexivity; try apply Hm3; auto.
    rewrite (up_stage _ _ _ _ Hm3 i j Hi). ra. ring.
  Qed.

  Lemma end_up (st st' : state R S) : raised c P st st' -> levels_above_zero c P st ->
    raised c P (advance_clock (A:=XA) P (finalize_timestep (A:=XA) P (apply_subsidence (A:=XA) P st)))
      (advance_clock (A:=XA) P (finalize_timestep (A:=XA) P (apply_subsidence (A:=XA) P st'))).
  Proof.
    intros Hm Hz. apply subsidence_up in Hm.
    apply (above_frame _ _ (proj1 (subsidence_fields (A:=XA) P st))) in Hz. apply finish_up in Hm; auto. apply sand_frac_up in Hm. unfold finalize_timestep.
    set (a := compute_sand_frac (A:=XA) P (finalize_levels (A:=XA) P (apply_subsidence (A:=XA) P st))) in *.
    set (a' := compute_sand_frac (A:=XA) P (finalize_levels (A:=XA) P (apply_subsidence (A:=XA) P st'))) in *. clearbody a a'.
    assert (Hm1 : raised c P (set_H_SL (fadd (Arith:=XA) (s_H_SL a) (fmul (Arith:=XA) (p_SLR P) (p_dt P))) a)
       (set_H_SL (fadd (Arith:=XA) (s_H_SL a') (fmul (Arith:=XA) (p_SLR P) (p_dt P))) a')).
    { apply us_H_SL; auto. rewrite (up_H_SL _ _ _ _ Hm). ra. ring. }
    set (b := set_H_SL _ a) in *. set (b' := set_H_SL _ a') in *. clearbody b b'.
    unfold advance_clock. rewrite (up_time _ _ _ _ Hm1), (up_since_data _ _ _ _ Hm1), (up_since_checkpoint _ _ _ _ Hm1), (up_time_iter _ _ _ _ Hm1).
    apply us_time, us_save_time_since_data, us_save_time_since_checkpoint, us_time_iter. auto.
  Qed.

  Definition written_up (x x' : state R S * list (output R S)) : Prop :=
    raised c P (fst x) (fst x') /\ Forall2 (raised_output c P) (snd x) (snd x').

  Lemma checkpoint_up (st st' : state R S) : raised c P st st' -> raised_checkpoint c P (save_the_checkpoint st) (save_the_checkpoint st').
  Proof. intros Hm. constructor; apply Hm. Qed.
  Lemma data_up (st st' : state R S) : raised c P st st' -> written_up (output_data (A:=XA) P st) (output_data (A:=XA) P st').
  Proof.
    intros Hm. unfold output_data. rewrite (up_since_data _ _ _ _ Hm). destruct (ext_geb _ _); [|split; [exact Hm|constructor]].
    rewrite (up_save_iter _ _ _ _ Hm), (up_time _ _ _ _ Hm). split; cbn [fst snd].
    - apply us_save_time_since_data, us_save_iter, Hm.
    - constructor; [|constructor]. constructor. exact Hm.
  Qed.
  Lemma output_checkpoint_up (st st' : state R S) : raised c P st st' -> written_up (output_checkpoint (A:=XA) P st) (output_checkpoint (A:=XA) P st').
  Proof.
    intros Hm. unfold output_checkpoint. rewrite (up_since_checkpoint _ _ _ _ Hm). destruct (_ && _); [|split; [exact Hm|constructor]].
    split; cbn [fst snd]; [apply us_save_time_since_checkpoint, Hm|]. constructor; [|constructor]. constructor. apply checkpoint_up, Hm.
  Qed.
  Lemma write_up (st st' : state R S) : raised c P st st' -> written_up (write_output (A:=XA) P st) (write_output (A:=XA) P st').
  Proof.
    intros Hm. unfold write_output. pose proof (data_up st st' Hm) as [Q1 Q2].
    destruct (output_data P st) as [s1 o1], (output_data P st') as [s1' o1']. cbn [fst snd] in *.
    pose proof (output_checkpoint_up s1 s1' Q1) as [Q3 Q4].
    destruct (output_checkpoint P s1) as [s2 o2], (output_checkpoint P s1') as [s2' o2']. cbn [fst snd] in *.
    split; cbn [fst snd]; auto. apply Forall2_app; auto.
  Qed.

  Lemma end_above (st : state R S) : sea_not_falling P -> levels_above_zero c P st ->
    levels_above_zero c P (fst (write_output (A:=XA) P (advance_clock (A:=XA) P (finalize_timestep (A:=XA) P (apply_subsidence (A:=XA) P st))))).
  Proof.
    intros Hr Hz. apply (above_frame _ _ (proj1 (subsidence_fields (A:=XA) P st))) in Hz.
    set (sa := apply_subsidence (A:=XA) P st) in *. clearbody sa. destruct Hz as [[Z1 Z2] Hz]. unfold sea_not_falling in Hr.
    unfold levels_above_zero. destruct (write_levels (A:=XA) P (advance_clock (A:=XA) P (finalize_timestep (A:=XA) P sa))) as [-> ->].
    destruct (end_fields (A:=XA) P sa) as [-> ->]. split.
    - ra. lra.
    - intros i j Hi. rewrite gmemo_id, npmax_R, (flooding_formula P) by auto.
      pose proof (flooded_zero c P (s_depth sa) (s_eta sa) (s_stage sa) i j Hi Hz) as Q.
      pose proof (Rmax_l (flooded P (s_depth sa) (s_eta sa) (s_stage sa) i j) (s_H_SL sa)). lra.
  Qed.

  Context (Hav : averages P).

  Lemma update_up (st st' : state R S) : raised c P st st' -> levels_above_zero c P st ->
    (forall sa sb, route_water (A:=RX) P (set_eta0 (s_eta st) st) = Ok sa ->
       route_all_parcels (A:=RX) P Sand (init_sediment_iteration (A:=RX) sa) = Ok sb -> rim_at_rest P sb) ->
    alike written_up (update (A:=XA) P st) (update (A:=XA) P st') /\
    (sea_not_falling P -> forall x o, update (A:=XA) P st = Ok (x, o) -> levels_above_zero c P x).
  Proof.
    intros Hm Hz H3. change RX with XA in *.
    assert (Q : alike (fun x x' => raised c P x x' /\ levels_above_zero c P x)
      (solve_water_and_sediment_timestep (A:=XA) P st) (solve_water_and_sediment_timestep (A:=XA) P st')).
    { unfold solve_water_and_sediment_timestep. eapply alike_bind.
      - apply (route_water_up c P HL HW Hav (set_eta0 (s_eta st) st) (set_eta0 (s_eta st') st')); [|exact Hz]. apply us_eta0; auto. apply Hm.
      - intros x x' E [Hx Hx2]. pose proof (route_sediment_up c P ltac:(lia) ltac:(lia) x x' Hx (fun sb Eb => H3 x sb E Eb)) as Q.
        destruct (route_sediment P x) as [y|] eqn:Ey, (route_sediment P x') as [y'|]; cbn in Q |- *; auto. split; auto.
        apply (above_frame x y); auto. exact (route_sediment_frame P x y Ey). }
    unfold update. destruct (solve_water_and_sediment_timestep P st) as [y|], (solve_water_and_sediment_timestep P st') as [y'|];
      cbn [alike] in Q; try contradiction; cbn [rbind].
    - destruct Q as [Hy Hy2]. split; [cbn [alike]; apply write_up, end_up; auto|].
      intros Hr x o E. pose proof (end_above y Hr Hy2) as Q. apply Ok_inj in E. rewrite E in Q. exact Q.
    - split; [exact Q|discriminate].
  Qed.

  Lemma updates_up n : sea_not_falling P -> forall st st' : state R S, raised c P st st' -> levels_above_zero c P st -> rim_at_rest_for P n st ->
    alike written_up (updates (A:=XA) P n st) (updates (A:=XA) P n st').
  Proof.
    intros Hr. induction n as [|n IH]; intros st st' Hm Hz Hc; cbn [updates]; [split; [exact Hm|constructor]|]. destruct Hc as [Hc Hn].
    destruct (update_up st st' Hm Hz Hc) as [Q Hx].
    eapply alike_bind; [exact Q|]. intros [s1 o1] [s1' o1'] E [Q1 Q2]. cbn [fst snd] in *.
    eapply alike_bind; [apply IH; [exact Q1|exact (Hx Hr s1 o1 E)|apply (Hn s1 o1), E]|]. intros [s2 o2] [s2' o2'] _ [Q3 Q4]. cbn [fst snd] in *.
    split; cbn [fst snd]; auto. apply Forall2_app; auto.
  Qed.
End Iter.

(** With diffusion switched off. *)
Lemma rim_off {S : Type} {G : Rng R S} (P : params R) n : p_N_crossdiff P <= 0 \/ p_diffusion_multiplier P = 0%R ->
  forall st : state R S, rim_at_rest_for P n st.
Proof.
  intros H. induction n as [|n IH]; intros st; cbn; [exact I|]. split; [|auto].
  intros sa sb _ _. destruct H as [H|H]; [left; exact H|right; left; exact H].
Qed.

Lemma raise_raised {S : Type} (c : R) (P : params R) (st : state R S) : raised c P st (raise c st).
Proof. constructor; unfold same, higher; intros; reflexivity. Qed.

Lemma missing_inside L W i j : 0 < i < L - 1 -> 0 < j < W - 1 -> missing_neighbours L W i j = 0.
Proof.
  intros Hi Hj. unfold missing_neighbours. cbn [seq filter].
  assert (E : forall k, (k < 9)%nat -> negb (inbb L W (nb_row i k) (nb_col j k)) = false).
  { intros k Hk. apply negb_false_iff, inbb_spec. unfold nb_row, nb_col. apply lt9 in Hk. decompose [or] Hk; subst; cbn; split; lia. }
  rewrite !E by lia. reflexivity.
Qed.
