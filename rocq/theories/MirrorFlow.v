(** Mirror images: water surface, discharge and speed (C72). *)
From Coq Require Import ZArith List Bool Reals Lra Lia.
From Flocq Require Import Core.
From Verif Require Import Base RLemmas Shared SharedSpec SharedProofs Params State Water VecLemmas
  WaterSpec WeightProofs WalkProofs RunProofs SurfaceProofs FlowProofs FrameProofs StepSpec StepProofs MirrorSpec MirrorProofs MirrorWalk MirrorRun.
Import ListNotations.
Local Open Scope Z_scope.

(** ** Setting corresponding fields *)
Section Set_.
  Context {S S' : Type} (P : params R) (st : state R S) (st' : state R S') (H : mirror_state P st st').
  Lemma ms_eta g g' : mirror_image (p_L P) (p_W P) g g' -> mirror_state P (set_eta g st) (set_eta g' st').
  Proof. intros Hg. destruct H; constructor; assumption. Qed.
  Lemma ms_eta0 g g' : mirror_image (p_L P) (p_W P) g g' -> mirror_state P (set_eta0 g st) (set_eta0 g' st').
  Proof. intros Hg. destruct H; constructor; assumption. Qed.
  Lemma ms_stage g g' : mirror_image (p_L P) (p_W P) g g' -> mirror_state P (set_stage g st) (set_stage g' st').
  Proof. intros Hg. destruct H; constructor; assumption. Qed.
  Lemma ms_depth g g' : mirror_image (p_L P) (p_W P) g g' -> mirror_state P (set_depth g st) (set_depth g' st').
  Proof. intros Hg. destruct H; constructor; assumption. Qed.
  Lemma ms_qx g g' : mirror_image (p_L P) (p_W P) g g' -> mirror_state P (set_qx g st) (set_qx g' st').
  Proof. intros Hg. destruct H; constructor; assumption. Qed.
  Lemma ms_qw g g' : mirror_image (p_L P) (p_W P) g g' -> mirror_state P (set_qw g st) (set_qw g' st').
  Proof. intros Hg. destruct H; constructor; assumption. Qed.
  Lemma ms_qxn g g' : mirror_image (p_L P) (p_W P) g g' -> mirror_state P (set_qxn g st) (set_qxn g' st').
  Proof. intros Hg. destruct H; constructor; assumption. Qed.
  Lemma ms_qwn g g' : mirror_image (p_L P) (p_W P) g g' -> mirror_state P (set_qwn g st) (set_qwn g' st').
  Proof. intros Hg. destruct H; constructor; assumption. Qed.
  Lemma ms_ux g g' : mirror_image (p_L P) (p_W P) g g' -> mirror_state P (set_ux g st) (set_ux g' st').
  Proof. intros Hg. destruct H; constructor; assumption. Qed.
  Lemma ms_uw g g' : mirror_image (p_L P) (p_W P) g g' -> mirror_state P (set_uw g st) (set_uw g' st').
  Proof. intros Hg. destruct H; constructor; assumption. Qed.
  Lemma ms_qs g g' : mirror_image (p_L P) (p_W P) g g' -> mirror_state P (set_qs g st) (set_qs g' st').
  Proof. intros Hg. destruct H; constructor; assumption. Qed.
  Lemma ms_sand_frac g g' : mirror_image (p_L P) (p_W P) g g' -> mirror_state P (set_sand_frac g st) (set_sand_frac g' st').
  Proof. intros Hg. destruct H; constructor; assumption. Qed.
  Lemma ms_active_layer g g' : mirror_image (p_L P) (p_W P) g g' -> mirror_state P (set_active_layer g st) (set_active_layer g' st').
  Proof. intros Hg. destruct H; constructor; assumption. Qed.
  Lemma ms_Vp_dep_sand g g' : mirror_image (p_L P) (p_W P) g g' -> mirror_state P (set_Vp_dep_sand g st) (set_Vp_dep_sand g' st').
  Proof. intros Hg. destruct H; constructor; assumption. Qed.
  Lemma ms_Vp_dep_mud g g' : mirror_image (p_L P) (p_W P) g g' -> mirror_state P (set_Vp_dep_mud g st) (set_Vp_dep_mud g' st').
  Proof. intros Hg. destruct H; constructor; assumption. Qed.
  Lemma ms_mod_water_weight g g' : mirror_image (p_L P) (p_W P) g g' -> mirror_state P (set_mod_water_weight g st) (set_mod_water_weight g' st').
  Proof. intros Hg. destruct H; constructor; assumption. Qed.
  Lemma ms_mod_sed_weight g g' : mirror_image (p_L P) (p_W P) g g' -> mirror_state P (set_mod_sed_weight g st) (set_mod_sed_weight g' st').
  Proof. intros Hg. destruct H; constructor; assumption. Qed.
  Lemma ms_mod_erosion g g' : mirror_image (p_L P) (p_W P) g g' -> mirror_state P (set_mod_erosion g st) (set_mod_erosion g' st').
  Proof. intros Hg. destruct H; constructor; assumption. Qed.
  Lemma ms_sfc_visit g g' : mirror_image (p_L P) (p_W P) g g' -> mirror_state P (set_sfc_visit g st) (set_sfc_visit g' st').
  Proof. intros Hg. destruct H; constructor; assumption. Qed.
  Lemma ms_sfc_sum g g' : mirror_image (p_L P) (p_W P) g g' -> mirror_state P (set_sfc_sum g st) (set_sfc_sum g' st').
  Proof. intros Hg. destruct H; constructor; assumption. Qed.
  Lemma ms_Hnew g g' : mirror_image (p_L P) (p_W P) g g' -> mirror_state P (set_Hnew g st) (set_Hnew g' st').
  Proof. intros Hg. destruct H; constructor; assumption. Qed.
  Lemma ms_cf g g' : mirror_image (p_L P) (p_W P) g g' -> mirror_state P (set_cf g st) (set_cf g' st').
  Proof. intros Hg. destruct H; constructor; assumption. Qed.
  Lemma ms_cell_type g g' : mirror_image (p_L P) (p_W P) g g' -> mirror_state P (set_cell_type g st) (set_cell_type g' st').
  Proof. intros Hg. destruct H; constructor; assumption. Qed.
  Lemma ms_qy g g' : mirror_vector (p_L P) (p_W P) g g' -> mirror_state P (set_qy g st) (set_qy g' st').
  Proof. intros Hg. destruct H; constructor; assumption. Qed.
  Lemma ms_qyn g g' : mirror_vector (p_L P) (p_W P) g g' -> mirror_state P (set_qyn g st) (set_qyn g' st').
  Proof. intros Hg. destruct H; constructor; assumption. Qed.
  Lemma ms_uy g g' : mirror_vector (p_L P) (p_W P) g g' -> mirror_state P (set_uy g st) (set_uy g' st').
  Proof. intros Hg. destruct H; constructor; assumption. Qed.
  Lemma ms_H_SL x : mirror_state P (set_H_SL x st) (set_H_SL x st').
  Proof. destruct H; constructor; first [reflexivity|assumption]. Qed.
  Lemma ms_time x : mirror_state P (set_time x st) (set_time x st').
  Proof. destruct H; constructor; first [reflexivity|assumption]. Qed.
  Lemma ms_time_iter x : mirror_state P (set_time_iter x st) (set_time_iter x st').
  Proof. destruct H; constructor; first [reflexivity|assumption]. Qed.
  Lemma ms_save_time_since_data x : mirror_state P (set_save_time_since_data x st) (set_save_time_since_data x st').
  Proof. destruct H; constructor; first [reflexivity|assumption]. Qed.
  Lemma ms_save_time_since_checkpoint x : mirror_state P (set_save_time_since_checkpoint x st) (set_save_time_since_checkpoint x st').
  Proof. destruct H; constructor; first [reflexivity|assumption]. Qed.
  Lemma ms_save_iter x : mirror_state P (set_save_iter x st) (set_save_iter x st').
  Proof. destruct H; constructor; first [reflexivity|assumption]. Qed.
  Lemma ms_width x : mirror_state P (set_width x st) (set_width x st').
  Proof. destruct H; constructor; first [reflexivity|assumption]. Qed.
  Lemma ms_rng s s' : mirror_state P (set_rng s st) (set_rng s' st').
  Proof. destruct H; constructor; assumption. Qed.
  Lemma ms_rng_r s' : mirror_state P st (set_rng s' st').
  Proof. destruct H; constructor; assumption. Qed.
  Lemma ms_rng_l s : mirror_state P (set_rng s st) st'.
  Proof. destruct H; constructor; assumption. Qed.
End Set_.

Lemma Ok_inj {T} (x y : T) : Ok x = Ok y -> x = y.
Proof. intros E. injection E as E. exact E. Qed.

(** ** Cell by cell *)
Section Cells.
  Context (L W : Z).
  Notation image := (mirror_image L W).
  Notation vector := (mirror_vector L W).

  Lemma image_const {T} (x : T) : image (fun _ _ => x) (fun _ _ => x).
  Proof. intros i j H. reflexivity. Qed.
  Lemma image_map {T U} (f : T -> U) g g' : image g g' -> image (fun i j => f (g i j)) (fun i j => f (g' i j)).
  Proof. intros H i j Hi. rewrite H; auto. Qed.
  Lemma image_map2 {T U V} (f : T -> U -> V) g g' h h' : image g g' -> image h h' ->
    image (fun i j => f (g i j) (h i j)) (fun i j => f (g' i j) (h' i j)).
  Proof. intros H H2 i j Hi. rewrite H, H2; auto. Qed.
  Lemma image_gset {T} (g g' : grid T) i j x : image g g' -> image (gset g i j x) (gset g' i (flip W j) x).
  Proof.
    intros H a b Hi. unfold gset. replace (flip W b =? flip W j) with (b =? j).
    - destruct ((a =? i) && (b =? j)); auto.
    - unfold flip. destruct (Z.eqb_spec b j), (Z.eqb_spec (W - 1 - b) (W - 1 - j)); auto; lia.
  Qed.
  Lemma image_gmemo {T} (g g' : grid T) : image g g' -> image (gmemo L W g) (gmemo L W g').
  Proof. rewrite !gmemo_id. auto. Qed.
  Lemma vector_gmemo (g g' : grid R) : vector g g' -> vector (gmemo L W g) (gmemo L W g').
  Proof. rewrite !gmemo_id. auto. Qed.
End Cells.

Ltac under_max := first [apply Rle_refl | apply Rmax_l | eapply Rle_trans; [|apply Rmax_r]; under_max].

Section Surface.
  Context (P : params R).
  Notation L := (p_L P).
  Notation W := (p_W P).
  Notation P' := (mirror_params P).
  Notation image := (mirror_image L W).
  Notation vector := (mirror_vector L W).
  Context (HW1 : 1 <= W).

  (** *** Levels along the paths *)
  Definition cmir (c c' : Z * Z) : Prop := inb L W (fst c) (snd c) /\ c' = (fst c, flip W (snd c)).

  Lemma unravel_mir n n' c : 0 < n -> ixm P n n' -> unravel_in P n = Ok c ->
    exists c', unravel_in P' n' = Ok c' /\ cmir c c'.
  Proof.
    intros Hn Hx E. assert (E' : n' = flip_ix P n) by (destruct Hx as [[-> _]|(_ & _ & E')]; [lia|auto]). subst n'.
    unfold unravel_in, custom_unravel in *. cbn [p_L p_W mirror_params].
    destruct (Z.ltb_spec (W * L) n); [discriminate|]. cbn [rbind] in E.
    destruct (inbb L W (n / W) (n mod W)) eqn:Eb; [|discriminate]. injection E as <-.
    apply inbb_spec in Eb.
    assert (Hr : 0 <= n < L * W).
    { destruct Eb as [Hi Hj]. pose proof (Z.div_mod n W ltac:(lia)). nia. }
    pose proof (flip_ix_range P HW1 n Hr).
    destruct (Z.ltb_spec (W * L) (flip_ix P n)); [lia|]. cbn [rbind].
    rewrite flip_ix_row, flip_ix_col by auto.
    rewrite (proj2 (inbb_spec L W (n / W) (flip W (n mod W)))) by (apply flip_inb; auto).
    eexists. split; [reflexivity|]. split; auto.
  Qed.

  Lemma unravels_mir l l' : Forall2 (ixm P) l l' -> forall cs,
    mapM (unravel_in P) (filter (fun n => 0 <? n) l) = Ok cs ->
    exists cs', mapM (unravel_in P') (filter (fun n => 0 <? n) l') = Ok cs' /\ Forall2 cmir cs cs'.
  Proof.
    induction 1 as [|n n' l l' Hn HF IH]; intros cs E; cbn [filter] in *.
    - injection E as <-. exists []. auto.
    - rewrite (ixm_pos P HW1 _ _ Hn). destruct (Z.ltb_spec 0 n); auto. cbn [mapM] in *.
      apply rbind_Ok in E as (c & Ec & E). apply rbind_Ok in E as (cs1 & Es & E). injection E as <-.
      destruct (unravel_mir n n' c ltac:(lia) Hn Ec) as (c' & -> & Hc). destruct (IH cs1 Es) as (cs1' & -> & Hcs).
      cbn [rbind]. eexists. split; [reflexivity|]. constructor; auto.
  Qed.

  Lemma walk_back_mir u0 h0 S0 dx uw uw' ux ux' uy uy' depth depth' :
    image uw uw' -> image ux ux' -> vector uy uy' -> image depth depth' ->
    forall rest rest', Forall2 cmir rest rest' -> forall oc dH ip jp H H' v v' t t',
    inb L W ip jp -> image H H' -> image v v' -> image t t' ->
    let r := walk_back (A:=XA) u0 h0 S0 dx uw ux uy depth oc dH ip jp rest H v t in
    let r' := walk_back (A:=XA) u0 h0 S0 dx uw' ux' uy' depth' oc dH ip (flip W jp) rest' H' v' t' in
    image (fst r) (fst r') /\ image (snd r) (snd r').
  Proof.
    intros Huw Hux Huy Hd. induction 1 as [|[i j] c' rest rest' [Hc Ec] HF IH]; intros oc dH ip jp H H' v v' t t' Hp HH Hv Ht; cbn [walk_back].
    - split; auto.
    - subst c'. cbn [fst snd] in *. cbv zeta.
      rewrite (Huw i j Hc), (Hux i j Hc), (Huy i j Hc), (Hd i j Hc), (HH ip jp Hp), (Hv i j Hc), (Ht i j Hc).
      replace (flip W j =? flip W jp) with (j =? jp)
        by (unfold flip; destruct (Z.eqb_spec j jp), (Z.eqb_spec (W - 1 - j) (W - 1 - jp)); auto; lia).
      replace (fmul (Arith:=XA) (fmul (Arith:=XA) (- uy i j)%R (fz (Arith:=XA) (flip W jp - flip W j))) dx)
        with (fmul (Arith:=XA) (fmul (Arith:=XA) (uy i j) (fz (Arith:=XA) (jp - j))) dx).
      2:{ ra. replace (flip W jp - flip W j) with (- (jp - j)) by (unfold flip; lia). rewrite opp_IZR. ring. }
      assert (Es : forall x, gset H' i (flip W j) x i (flip W j) = gset H i j x i j).
      { intros x. unfold gset. rewrite !Z.eqb_refl. reflexivity. }
      rewrite Es. apply IH; auto; apply image_gset; auto.
  Qed.

  Section State.
    Context {S : Type} (st : state R S) (st' : state R (list R)) (Hm : mirror_state P st st').

    Lemma accumulate_one_mir p p' vt vt' r : pmir P p p' ->
      image (fst vt) (fst vt') -> image (snd vt) (snd vt') ->
      accumulate_one (A:=XA) P st p vt = Ok r ->
      exists r', accumulate_one (A:=XA) P' st' p' vt' = Ok r' /\ image (fst r) (fst r') /\ image (snd r) (snd r').
    Proof.
      intros Hp Hv Ht E. unfold accumulate_one in *. apply rbind_Ok in E as (cs & Ec & E).
      destruct (unravels_mir _ _ (pm_walk _ _ _ Hp) cs Ec) as (cs' & Ec' & HF).
      change (unravel_in P') with (unravel_in P') in *. rewrite Ec'. cbn [rbind].
      destruct HF as [|[xl yl] c' rest rest' [Hc Eq] HF]; [discriminate|]. subst c'. cbn [fst snd] in *.
      rewrite (mi_cell_type _ _ _ Hm xl yl Hc), (pm_flag _ _ _ Hp).
      destruct ((s_cell_type st xl yl =? -1) && fflag p).
      - injection E as <-. eexists. split; [reflexivity|]. rewrite (mi_H_SL _ _ _ Hm).
        cbn [p_u0 p_h0 p_S0 p_dx mirror_params].
        apply walk_back_mir; auto; try apply Hm. apply image_gset. apply image_const.
      - injection E as <-. eexists. split; [reflexivity|]. auto.
    Qed.

    Lemma accumulate_mir ps ps' : Forall2 (pmir P) ps ps' -> forall vt vt' r,
      image (fst vt) (fst vt') -> image (snd vt) (snd vt') ->
      accumulate_free_surface_walks (A:=XA) P st ps vt = Ok r ->
      exists r', accumulate_free_surface_walks (A:=XA) P' st' ps' vt' = Ok r' /\ image (fst r) (fst r') /\ image (snd r) (snd r').
    Proof.
      induction 1 as [|p p' ps ps' Hp HF IH]; intros vt vt' r Hv Ht E; cbn [accumulate_free_surface_walks] in *.
      - injection E as <-. exists vt'. auto.
      - apply rbind_Ok in E as ([v t] & E1 & E).
        destruct (accumulate_one_mir p p' vt vt' (v, t) Hp Hv Ht E1) as ([v1 t1] & -> & H1 & H2). cbn [fst snd] in *.
        cbn [rbind p_L p_W mirror_params]. rewrite !gmemo_id in *. eapply IH; [| |exact E]; auto.
    Qed.
  End State.

  (** *** Smoothing *)
  Lemma smooth_cell_mir C ct ct' H H' : image ct ct' -> image H H' ->
    image (smooth_cell (A:=XA) P C ct H) (smooth_cell (A:=XA) P' C ct' H').
  Proof.
    intros Hct HH i j Hi. unfold smooth_cell. cbn [p_L p_W mirror_params].
    rewrite (Hct i j Hi), (HH i j Hi). destruct (ct i j =? -1); auto.
    assert (Hv : vmir (fun k => (window (custom_pad 0 L W ct) i j k =? -2) || isctr k)
                      (fun k => (window (custom_pad 0 L W ct') i (flip W j) k =? -2) || isctr k)).
    { apply (vmir_map2 (fun a b => (a =? -2) || b)); [apply window_mir; auto|apply vmir_ctr]. }
    rewrite (vmir_vsum _ _ (vmir_set _ _ _ _ (fz (Arith:=XA) 0) (window_mir (fz (Arith:=XA) 0) L W H H' i j Hi HH) Hv)).
    rewrite (vmir_count _ _ (vmir_map negb _ _ Hv)). reflexivity.
  Qed.

  Lemma smooth_mir C ct ct' n : image ct ct' -> forall H H', image H H' ->
    image (smooth_passes (A:=XA) P C ct n H) (smooth_passes (A:=XA) P' C ct' n H').
  Proof.
    intros Hct. induction n as [|n IH]; intros H H' HH; cbn [smooth_passes]; auto.
    cbn [p_L p_W mirror_params]. apply IH. apply image_gmemo. apply smooth_cell_mir; auto.
  Qed.

  (** *** Flooding *)
  Lemma flooded_mir depth depth' eta eta' stage stage' : image depth depth' -> image eta eta' -> image stage stage' ->
    image (flooded P depth eta stage) (flooded P' depth' eta' stage').
  Proof.
    intros Hd He Hs i j Hi.
    assert (Hw : forall a b, is_wet P' depth' a (flip W b) = is_wet P depth a b).
    { intros a b. unfold is_wet. cbn [p_L p_W p_dry_depth mirror_params]. rewrite flip_inbb.
      destruct (inbb L W a b) eqn:E; auto. apply inbb_spec in E. rewrite (Hd a b E). reflexivity. }
    assert (Hwk : forall k, (k < 9)%nat -> wet_at P' depth' i (flip W j) (flip_dir k) = wet_at P depth i j k).
    { intros k Hk. unfold wet_at. rewrite fd_nb_row, fd_nb_col by auto. apply Hw. }
    assert (Hok : forall k, (k < 9)%nat -> offered P' depth' stage' i (flip W j) (flip_dir k) = offered P depth stage i j k).
    { intros k Hk. unfold offered. rewrite Hwk by auto. destruct (wet_at P depth i j k) eqn:E; auto.
      unfold wet_at, is_wet in E. apply andb_prop in E as [E _]. apply inbb_spec in E.
      rewrite fd_nb_row, fd_nb_col by auto. apply Hs; auto. }
    assert (Hh : highest P' depth' stage' i (flip W j) = highest P depth stage i j).
    { unfold highest.
      pose proof (Hok 0%nat ltac:(lia)) as Q0. pose proof (Hok 1%nat ltac:(lia)) as Q1. pose proof (Hok 2%nat ltac:(lia)) as Q2.
      pose proof (Hok 3%nat ltac:(lia)) as Q3. pose proof (Hok 5%nat ltac:(lia)) as Q5. pose proof (Hok 6%nat ltac:(lia)) as Q6.
      pose proof (Hok 7%nat ltac:(lia)) as Q7. pose proof (Hok 8%nat ltac:(lia)) as Q8. cbn [flip_dir nth] in *.
      rewrite Q0, Q1, Q2, Q3, Q5, Q6, Q7, Q8.
      apply Rle_antisym; repeat apply Rmax_lub; under_max. }
    unfold flooded. rewrite Hw, Hh, (He i j Hi), (Hs i j Hi).
    replace (existsb (wet_at P' depth' i (flip W j)) [0; 1; 2; 3; 5; 6; 7; 8]%nat)
      with (existsb (wet_at P depth i j) [0; 1; 2; 3; 5; 6; 7; 8]%nat); auto.
    cbn [existsb].
    pose proof (Hwk 0%nat ltac:(lia)) as Q0. pose proof (Hwk 1%nat ltac:(lia)) as Q1. pose proof (Hwk 2%nat ltac:(lia)) as Q2.
    pose proof (Hwk 3%nat ltac:(lia)) as Q3. pose proof (Hwk 5%nat ltac:(lia)) as Q5. pose proof (Hwk 6%nat ltac:(lia)) as Q6.
    pose proof (Hwk 7%nat ltac:(lia)) as Q7. pose proof (Hwk 8%nat ltac:(lia)) as Q8. cbn [flip_dir nth] in *.
    rewrite Q0, Q1, Q2, Q3, Q5, Q6, Q7, Q8.
    destruct (wet_at P depth i j 0), (wet_at P depth i j 1), (wet_at P depth i j 2), (wet_at P depth i j 3),
      (wet_at P depth i j 5), (wet_at P depth i j 6), (wet_at P depth i j 7), (wet_at P depth i j 8); reflexivity.
  Qed.

  Lemma flooding_mir depth depth' eta eta' stage stage' : 2 <= L -> 2 <= W ->
    image depth depth' -> image eta eta' -> image stage stage' ->
    image (flooding_correction (A:=XA) P depth eta stage) (flooding_correction (A:=XA) P' depth' eta' stage').
  Proof.
    intros HL HW Hd He Hs i j Hi.
    rewrite (flooding_formula P) by auto.
    rewrite (flooding_formula P') by (cbn [p_L p_W mirror_params]; auto using flip_inb).
    apply flooded_mir; auto.
  Qed.
End Surface.

Section Flow.
  Context {S : Type} {G : Rng R S} (P : params R).
  Notation L := (p_L P).
  Notation W := (p_W P).
  Notation P' := (mirror_params P).
  Notation image := (mirror_image L W).
  Notation vector := (mirror_vector L W).

  Lemma free_surface_mir ps ps' (st : state R S) (st' : state R (list R)) st1 : 2 <= L -> 2 <= W ->
    mirror_state P st st' -> Forall2 (pmir P) ps ps' ->
    compute_free_surface (A:=XA) P ps st = Ok st1 ->
    exists st1', compute_free_surface (A:=XA) P' ps' st' = Ok st1' /\ mirror_state P st1 st1' /\ s_rng st1' = s_rng st'.
  Proof.
    intros HL HW Hm HF E. unfold compute_free_surface in *. apply rbind_Ok in E as ([v t] & Ea & E).
    destruct (accumulate_mir P ltac:(lia) st st' Hm ps ps' HF (fun _ _ => fz (Arith:=XA) 0, fun _ _ => fz (Arith:=XA) 0)
      (fun _ _ => fz (Arith:=XA) 0, fun _ _ => fz (Arith:=XA) 0) (v, t)) as ([v' t'] & Ea' & Hv & Ht);
      [apply image_const|apply image_const|exact Ea|]. cbn [fst snd] in *.
    rewrite Ea'. cbn [rbind] in E |- *. apply Ok_inj in E. subst st1.
    cbn [p_L p_W p_Nsmooth p_Csmooth p_omega_sfc mirror_params].
    set (h := gmemo L W (fun i j => hnew_cell (A:=XA) (s_eta st i j) _ _ _ _)).
    set (h' := gmemo L W (fun i j => hnew_cell (A:=XA) (s_eta st' i j) _ _ _ _)).
    assert (Hh : image h h').
    { unfold h, h'. apply image_gmemo. intros i j Hi.
      rewrite (mi_eta _ _ _ Hm i j Hi), (mi_depth _ _ _ Hm i j Hi), (Hv i j Hi), (Ht i j Hi), (mi_H_SL _ _ _ Hm). reflexivity. }
    clearbody h h'.
    eexists. split; [reflexivity|].
    assert (Hm1 : mirror_state P (set_sfc_visit v (set_sfc_sum t (set_Hnew h st)))
                                 (set_sfc_visit v' (set_sfc_sum t' (set_Hnew h' st')))).
    { apply ms_sfc_visit; auto. apply ms_sfc_sum; auto. apply ms_Hnew; auto. }
    set (sa := set_sfc_visit v _) in *. set (sa' := set_sfc_visit v' _) in *.
    assert (Er : s_rng sa' = s_rng st') by reflexivity. clearbody sa sa'.
    split; [|exact Er]. apply ms_stage; auto.
    apply flooding_mir; auto; try apply Hm1.
    rewrite (mi_time_iter _ _ _ Hm1). destruct (0 <? s_time_iter sa); [|apply Hm1].
    apply image_gmemo. unfold smooth_free_surface.
    apply (image_map2 L W (fun a b => fadd (Arith:=XA) (fmul (Arith:=XA) (fsub (Arith:=XA) (fz (Arith:=XA) 1) (p_omega_sfc P)) a) (fmul (Arith:=XA) (p_omega_sfc P) b)));
      [apply Hm1|]. apply smooth_mir; auto. apply Hm1.
  Qed.

  Lemma inlet_mir j : in_inlet P' (flip W j) = in_inlet P j.
  Proof.
    unfold in_inlet. cbn [p_inlet mirror_params]. apply eq_true_iff_eq. rewrite !existsb_exists. split.
    - intros (c & Hc & E). apply Z.eqb_eq in E. subst c. apply in_rev in Hc. apply in_map_iff in Hc as (c & E & Hc).
      exists c. split; auto. apply Z.eqb_eq. unfold flip in E. lia.
    - intros (c & Hc & E). apply Z.eqb_eq in E. subst c. exists (flip W j). split; [|apply Z.eqb_refl].
      apply -> in_rev. apply in_map; auto.
  Qed.

  Lemma flow_mir it (st : state R S) (st' : state R (list R)) : mirror_state P st st' ->
    mirror_state P (update_flow_field (A:=XA) P it st) (update_flow_field (A:=XA) P' it st') /\
    s_rng (update_flow_field (A:=XA) P' it st') = s_rng st'.
  Proof.
    intros Hm. split; [|reflexivity]. unfold update_flow_field.
    cbn [p_L p_W p_omega_flow p_omega_flow_iter p_qw0 mirror_params].
    set (om := if it =? 0 then _ else _).
    set (qn := gmemo L W (fun i j => qn_scaled (A:=XA) (s_qxn st i j) (s_qyn st i j) (s_qwn st i j))).
    set (qn' := gmemo L W (fun i j => qn_scaled (A:=XA) (s_qxn st' i j) (s_qyn st' i j) (s_qwn st' i j))).
    assert (Hq : forall i j, inb L W i j -> qn' i (flip W j) = (fst (qn i j), (- snd (qn i j))%R)).
    { intros i j Hi. unfold qn, qn'. rewrite !gmemo_id.
      rewrite (mi_qxn _ _ _ Hm i j Hi), (mi_qyn _ _ _ Hm i j Hi), (mi_qwn _ _ _ Hm i j Hi).
      unfold qn_scaled. rewrite !hypot_X.
      replace (s_qxn st i j * s_qxn st i j + - s_qyn st i j * - s_qyn st i j)%R
        with (s_qxn st i j * s_qxn st i j + s_qyn st i j * s_qyn st i j)%R by ring.
      cbn [fst snd]. f_equal. ra. ring. }
    clearbody qn qn'. rewrite (mi_time_iter _ _ _ Hm), !gmemo_id.
    set (qx := fun i j => if 0 <? s_time_iter st then fadd (Arith:=XA) (fmul (Arith:=XA) (fst (qn i j)) om) (fmul (Arith:=XA) (s_qx st i j) (fsub (Arith:=XA) (fz (Arith:=XA) 1) om)) else fst (qn i j)).
    set (qx' := fun i j => if 0 <? s_time_iter st then fadd (Arith:=XA) (fmul (Arith:=XA) (fst (qn' i j)) om) (fmul (Arith:=XA) (s_qx st' i j) (fsub (Arith:=XA) (fz (Arith:=XA) 1) om)) else fst (qn' i j)).
    set (qy := fun i j => if 0 <? s_time_iter st then fadd (Arith:=XA) (fmul (Arith:=XA) (snd (qn i j)) om) (fmul (Arith:=XA) (s_qy st i j) (fsub (Arith:=XA) (fz (Arith:=XA) 1) om)) else snd (qn i j)).
    set (qy' := fun i j => if 0 <? s_time_iter st then fadd (Arith:=XA) (fmul (Arith:=XA) (snd (qn' i j)) om) (fmul (Arith:=XA) (s_qy st' i j) (fsub (Arith:=XA) (fz (Arith:=XA) 1) om)) else snd (qn' i j)).
    assert (Hx : image qx qx').
    { intros i j Hi. unfold qx, qx'. rewrite (Hq i j Hi), (mi_qx _ _ _ Hm i j Hi). reflexivity. }
    assert (Hy : vector qy qy').
    { intros i j Hi. unfold qy, qy'. rewrite (Hq i j Hi), (mi_qy _ _ _ Hm i j Hi). cbn [snd].
      destruct (0 <? s_time_iter st); auto. ra. ring. }
    assert (Hw : image (fun i j => hypot (A:=XA) (qx i j) (qy i j)) (fun i j => hypot (A:=XA) (qx' i j) (qy' i j))).
    { intros i j Hi. rewrite (Hx i j Hi), (Hy i j Hi), !hypot_X. f_equal. ring. }
    apply ms_qxn; [apply ms_qyn; [apply ms_qx; [apply ms_qy; [apply ms_qw; [exact Hm|]|]|]|]|];
      intros i j Hi; rewrite ?inlet_mir.
    - destruct ((i =? 0) && in_inlet P j); [reflexivity|exact (Hw i j Hi)].
    - destruct ((i =? 0) && in_inlet P j); [ra; ring|exact (Hy i j Hi)].
    - destruct ((i =? 0) && in_inlet P j); [reflexivity|exact (Hx i j Hi)].
    - rewrite (Hq i j Hi). reflexivity.
    - rewrite (Hq i j Hi). reflexivity.
  Qed.

  Lemma velocity_mir (st : state R S) (st' : state R (list R)) : mirror_state P st st' ->
    mirror_state P (update_velocity_field (A:=XA) P st) (update_velocity_field (A:=XA) P' st') /\
    s_rng (update_velocity_field (A:=XA) P' st') = s_rng st'.
  Proof.
    intros Hm. split; [|reflexivity]. unfold update_velocity_field.
    cbn [p_L p_W p_dry_depth p_u_max mirror_params]. rewrite !gmemo_id.
    set (v := fun i j => velocity_cell (A:=XA) (p_dry_depth P) (p_u_max P) (s_depth st i j) (s_qw st i j) (s_qx st i j) (s_qy st i j)).
    set (v' := fun i j => velocity_cell (A:=XA) (p_dry_depth P) (p_u_max P) (s_depth st' i j) (s_qw st' i j) (s_qx st' i j) (s_qy st' i j)).
    assert (Hv : forall i j, inb L W i j -> v' i (flip W j) = (fst (v i j), (- snd (v i j))%R)).
    { intros i j Hi. unfold v, v'.
      rewrite (mi_depth _ _ _ Hm i j Hi), (mi_qw _ _ _ Hm i j Hi), (mi_qx _ _ _ Hm i j Hi), (mi_qy _ _ _ Hm i j Hi).
      unfold velocity_cell. destruct (_ && _); cbn [fst snd]; f_equal; ra; [|ring].
      unfold Rdiv. ring. }
    apply ms_uw; [apply ms_ux; [apply ms_uy; [exact Hm|]|]|]; intros i j Hi; pose proof (Hv i j Hi) as Q.
    - exact (f_equal snd Q).
    - exact (f_equal (fun t => snd (fst t)) Q).
    - exact (f_equal (fun t => fst (fst t)) Q).
  Qed.

  Lemma finalize_mir it (st : state R S) (st' : state R (list R)) : mirror_state P st st' ->
    mirror_state P (finalize_water_iteration (A:=XA) P it st) (finalize_water_iteration (A:=XA) P' it st') /\
    s_rng (finalize_water_iteration (A:=XA) P' it st') = s_rng st'.
  Proof.
    intros Hm. unfold finalize_water_iteration. cbn [p_L p_W mirror_params].
    set (s1 := set_stage _ st). set (s1' := set_stage _ st').
    assert (Hm1 : mirror_state P s1 s1').
    { apply ms_stage; auto. apply image_gmemo. intros i j Hi. rewrite (mi_stage _ _ _ Hm i j Hi), (mi_H_SL _ _ _ Hm). reflexivity. }
    assert (E1 : s_rng s1' = s_rng st') by reflexivity. clearbody s1 s1'.
    set (s2 := set_depth _ s1). set (s2' := set_depth _ s1').
    assert (Hm2 : mirror_state P s2 s2').
    { apply ms_depth; auto. apply image_gmemo. intros i j Hi. rewrite (mi_stage _ _ _ Hm1 i j Hi), (mi_eta _ _ _ Hm1 i j Hi). reflexivity. }
    assert (E2 : s_rng s2' = s_rng st') by exact E1. clearbody s2 s2'.
    destruct (flow_mir it s2 s2' Hm2) as [Hm3 E3]. destruct (velocity_mir _ _ Hm3) as [Hm4 E4].
    split; auto; congruence.
  Qed.

  Context (HG : uniform_range G) (Hu : forall s, (0 < fst (draw s))%R).

  (** The generator plays no part in the water surface. *)
  Lemma accumulate_rng (st : state R (list R)) r ps : forall vt,
    accumulate_free_surface_walks (A:=XA) P' (set_rng r st) ps vt = accumulate_free_surface_walks (A:=XA) P' st ps vt.
  Proof.
    induction ps as [|p ps IH]; intros vt; [reflexivity|]. cbn [accumulate_free_surface_walks].
    change (accumulate_one (A:=XA) P' (set_rng r st) p vt) with (accumulate_one (A:=XA) P' st p vt).
    destruct (accumulate_one (A:=XA) P' st p vt) as [[v t]|]; auto. apply IH.
  Qed.
  Lemma free_surface_rng (st : state R (list R)) r ps x : compute_free_surface (A:=XA) P' ps st = Ok x ->
    compute_free_surface (A:=XA) P' ps (set_rng r st) = Ok (set_rng r x).
  Proof.
    unfold compute_free_surface. rewrite accumulate_rng. destruct (accumulate_free_surface_walks _ _ _ _) as [[v t]|]; [|discriminate].
    intros E. apply Ok_inj in E. subst x. reflexivity.
  Qed.

  Lemma iteration_mir it (st : state R S) (st' : state R (list R)) st1 :
    water_ready P st -> mirror_state P st st' -> corners_land P st ->
    water_iteration (A:=XA) P it st = Ok st1 ->
    exists us st1', variates us /\ mirror_state P st1 st1' /\ forall rest,
      water_iteration (A:=XA) (G:=tape) P' it (set_rng (us ++ rest) st') = Ok (set_rng rest st1').
  Proof.
    intros Hr Hm Hc E. pose proof (wd_W _ _ _ _ _ (wr_domain _ _ Hr)) as HW. pose proof (wd_L0 _ _ _ _ _ (wr_domain _ _ Hr)) as HL.
    unfold water_iteration in E. apply rbind_Ok in E as ([[[ps [[qx qy] qw]] width] s] & Er & E).
    apply rbind_Ok in E as (st2 & Es & E). injection E as <-.
    destruct (run_mir P HG Hu st st' ps qx qy qw width s Hr Hm Hc Er) as (us & ps' & qx' & qy' & qw' & Hus & HF & Qx & Qy & Qw & Er').
    assert (Q : forall sg q q', qmir P sg q q' -> forall i j, inb L W i j -> q' (i * W + flip W j) = (sg * q (i * W + j)%Z)%R).
    { intros sg q q' Hq i j [Hi Hj]. rewrite <- (flip_ix_cell P ltac:(lia)) by auto. apply Hq. nia. }
    match type of Es with compute_free_surface P ps ?a = _ => set (s1 := a) in * end.
    set (s1' := set_width width (set_qxn (fun i j => qx' (i * W + j)) (set_qyn (fun i j => qy' (i * W + j))
      (set_qwn (fun i j => qw' (i * W + j)) st')))).
    assert (Hm1 : mirror_state P s1 s1').
    { unfold s1, s1'. apply ms_width.
      apply (ms_rng_l P). apply ms_qxn; [apply ms_qyn; [apply ms_qwn; [exact Hm|]|]|].
      - intros i j Hi. rewrite (Q _ _ _ Qw i j Hi). ring.
      - intros i j Hi. rewrite (Q _ _ _ Qy i j Hi). ring.
      - intros i j Hi. rewrite (Q _ _ _ Qx i j Hi). ring. }
    destruct (free_surface_mir ps ps' s1 s1' st2 ltac:(lia) ltac:(lia) Hm1 HF Es) as (st2' & Es' & Hm2 & E2).
    destruct (finalize_mir it st2 st2' Hm2) as [Hm3 E3].
    exists us, (finalize_water_iteration (A:=XA) P' it st2'). split; auto. split; auto.
    intros rest. unfold water_iteration. rewrite Er'. cbn [rbind].
    match goal with |- context [compute_free_surface P' ps' ?a] => change a with (set_rng rest s1') end.
    rewrite (free_surface_rng _ _ _ _ Es'). reflexivity.
  Qed.

  Lemma route_water_mir (st : state R S) (st' : state R (list R)) st1 :
    water_ready P st -> mirror_state P st st' -> corners_land P st ->
    route_water (A:=XA) P st = Ok st1 ->
    exists us st1', variates us /\ mirror_state P st1 st1' /\ forall rest,
      route_water (A:=XA) (G:=tape) P' (set_rng (us ++ rest) st') = Ok (set_rng rest st1').
  Proof.
    unfold route_water. cbn [p_itermax mirror_params]. generalize 0%Z as it. revert st st'.
    induction (Z.to_nat (p_itermax P)) as [|n IH]; intros st st' it Hr Hm Hc E; cbn [water_iterations] in *.
    - injection E as <-. exists [], st'. split; [constructor|]. auto.
    - apply rbind_Ok in E as (st2 & E1 & E2).
      destruct (iteration_mir it st st' st2 Hr Hm Hc E1) as (us1 & st2' & Hus1 & Hm2 & E1').
      destruct (water_iteration_ok (fun x => x) P it st Hr HG) as (stx & Ex & Hr2).
      { intros w Ew. apply (exact_picks P st w Hu Ew). apply Hr. }
      change (RA (fun x => x)) with XA in Ex. rewrite E1 in Ex. injection Ex as <-.
      pose proof (water_iteration_frame P it st st2 E1) as F1.
      assert (Hc2 : corners_land P st2).
      { unfold corners_land in *. replace (s_cell_type st2) with (s_cell_type st); auto. symmetry. apply F1. }
      destruct (IH st2 st2' (it + 1) Hr2 Hm2 Hc2 E2) as (us2 & st1' & Hus2 & Hm1 & E2').
      exists (us1 ++ us2), st1'. split; [apply Forall_app; auto|]. split; auto.
      intros rest. rewrite <- app_assoc, E1'. cbn [rbind]. apply E2'.
  Qed.
End Flow.
