(** Mirror images: the end of a step, the output, and runs (C72). *)
From Coq Require Import ZArith List Bool Reals Lra Lia.
From Flocq Require Import Core.
From Verif Require Import Base RLemmas Shared SharedSpec SharedProofs Params State Water VecLemmas
  WaterSpec WeightProofs WalkProofs RunProofs ChanceSpec ChanceProofs Sed SedSpec SedProofs SedCor Diffusion
  SurfaceProofs FlowProofs FrameProofs Iter IterSpec IterProofs Init InitSpec InitProofs
  MirrorSpec MirrorProofs MirrorWalk MirrorRun MirrorFlow MirrorSed.
Import ListNotations.
Local Open Scope Z_scope.

Section Iter.
  Context {S : Type} {G : Rng R S} (P : params R).
  Notation L := (p_L P).
  Notation W := (p_W P).
  Notation P' := (mirror_params P).
  Notation image := (mirror_image L W).
  Notation vector := (mirror_vector L W).

  Lemma subsidence_mir (st : state R S) (st' : state R (list R)) : mirror_state P st st' ->
    mirror_state P (apply_subsidence (A:=XA) P st) (apply_subsidence (A:=XA) P' st').
  Proof.
    intros Hm. unfold apply_subsidence. cbn [p_toggle_subsidence p_start_subsidence p_sigma p_L p_W mirror_params].
    rewrite (mi_time _ _ _ Hm). destruct (_ && _); auto. rewrite !gmemo_id.
    apply ms_eta; auto. intros i j Hi. rewrite flip_flip, (mi_eta _ _ _ Hm i j Hi). reflexivity.
  Qed.

  Lemma sand_frac_mir (st : state R S) (st' : state R (list R)) : mirror_state P st st' ->
    mirror_state P (compute_sand_frac (A:=XA) P st) (compute_sand_frac (A:=XA) P' st').
  Proof.
    intros Hm. unfold compute_sand_frac.
    cbn [p_active_layer_thickness p_sand_frac_bc p_L p_W mirror_params]. rewrite !gmemo_id.
    assert (Ee : existsb (fun c => fltb (Arith:=XA) (fsub (Arith:=XA) (s_eta st' (fst c) (snd c)) (s_eta0 st' (fst c) (snd c))) (fz (Arith:=XA) 0)) (cells L W)
               = existsb (fun c => fltb (Arith:=XA) (fsub (Arith:=XA) (s_eta st (fst c) (snd c)) (s_eta0 st (fst c) (snd c))) (fz (Arith:=XA) 0)) (cells L W)).
    { apply eq_true_iff_eq. rewrite !existsb_exists. split; intros ([i j] & Hc & E); cbn [fst snd] in E.
      - apply cells_In in Hc. exists (i, flip W j). split; [apply cells_In, flip_inb; auto|]. cbn [fst snd].
        rewrite <- (mi_eta _ _ _ Hm i (flip W j) (flip_inb _ _ _ _ Hc)), <- (mi_eta0 _ _ _ Hm i (flip W j) (flip_inb _ _ _ _ Hc)), flip_flip.
        exact E.
      - apply cells_In in Hc. exists (i, flip W j). split; [apply cells_In, flip_inb; auto|]. cbn [fst snd].
        rewrite (mi_eta _ _ _ Hm i j Hc), (mi_eta0 _ _ _ Hm i j Hc). exact E. }
    apply ms_sand_frac; [apply ms_active_layer; auto|].
    - intros i j Hi. rewrite (mi_Vp_dep_sand _ _ _ Hm i j Hi), (mi_Vp_dep_mud _ _ _ Hm i j Hi), (mi_active_layer _ _ _ Hm i j Hi).
      reflexivity.
    - intros i j Hi. rewrite Ee, (mi_Vp_dep_sand _ _ _ Hm i j Hi), (mi_Vp_dep_mud _ _ _ Hm i j Hi). clear Ee.
      destruct (existsb _ _); cbv beta;
        rewrite ?(mi_active_layer _ _ _ Hm i j Hi), ?(mi_sand_frac _ _ _ Hm i j Hi), ?(mi_eta _ _ _ Hm i j Hi), ?(mi_eta0 _ _ _ Hm i j Hi);
        reflexivity.
  Qed.

  Lemma levels_mir (st : state R S) (st' : state R (list R)) : 2 <= L -> 2 <= W -> mirror_state P st st' ->
    mirror_state P (finalize_levels (A:=XA) P st) (finalize_levels (A:=XA) P' st').
  Proof.
    intros HL HW Hm. unfold finalize_levels. cbn [p_h0 p_L p_W mirror_params]. rewrite !gmemo_id.
    pose proof (flooding_mir P _ _ _ _ _ _ HL HW (mi_depth _ _ _ Hm) (mi_eta _ _ _ Hm) (mi_stage _ _ _ Hm)) as Hf.
    set (f := flooding_correction (A:=XA) P _ _ _) in *. set (f' := flooding_correction (A:=XA) P' _ _ _) in *.
    assert (Hm1 : mirror_state P (set_stage f st) (set_stage f' st')) by (apply ms_stage; auto).
    match goal with |- context [set_stage ?a (set_stage f st)] => set (g := a) end.
    match goal with |- context [set_stage ?a (set_stage f' st')] => set (g' := a) end.
    assert (Hg : image g g').
    { intros i j Hi. unfold g, g'. cbn [s_stage s_H_SL set_stage]. rewrite (mi_H_SL _ _ _ Hm), (Hf i j Hi). reflexivity. }
    assert (Hm2 : mirror_state P (set_stage g (set_stage f st)) (set_stage g' (set_stage f' st'))) by (apply ms_stage; auto).
    set (s2 := set_stage g (set_stage f st)) in *. set (s2' := set_stage g' (set_stage f' st')) in *.
    match goal with |- context [set_depth ?a s2] => set (d := a) end.
    match goal with |- context [set_depth ?a s2'] => set (d' := a) end.
    assert (Hd : image d d').
    { intros i j Hi. unfold d, d'. rewrite (mi_stage _ _ _ Hm2 i j Hi), (mi_eta _ _ _ Hm2 i j Hi). reflexivity. }
    assert (Hm3 : mirror_state P (set_depth d s2) (set_depth d' s2')) by (apply ms_depth; auto).
    set (s3 := set_depth d s2) in *. set (s3' := set_depth d' s2') in *.
    match goal with |- context [set_eta ?a s3] => set (e := a) end.
    match goal with |- context [set_eta ?a s3'] => set (e' := a) end.
    assert (He : image e e').
    { intros i j Hi. unfold e, e'. rewrite (inlet_mir P), (mi_stage _ _ _ Hm3 i j Hi), (mi_eta _ _ _ Hm3 i j Hi). reflexivity. }
    assert (Hm4 : mirror_state P (set_eta e s3) (set_eta e' s3')) by (apply ms_eta; auto).
    apply ms_depth; auto.
    intros i j Hi. rewrite (inlet_mir P), (mi_depth _ _ _ Hm4 i j Hi). reflexivity.
  Qed.

  Lemma end_mir (st : state R S) (st' : state R (list R)) : 2 <= L -> 2 <= W -> mirror_state P st st' ->
    mirror_state P (advance_clock (A:=XA) P (finalize_timestep (A:=XA) P (apply_subsidence (A:=XA) P st)))
      (advance_clock (A:=XA) P' (finalize_timestep (A:=XA) P' (apply_subsidence (A:=XA) P' st'))).
  Proof.
    intros HL HW Hm. apply subsidence_mir in Hm. apply (levels_mir _ _ HL HW) in Hm. apply sand_frac_mir in Hm.
    unfold finalize_timestep.
    set (a := compute_sand_frac (A:=XA) P _) in *. set (a' := compute_sand_frac (A:=XA) P' _) in *.
    cbn [p_SLR p_dt mirror_params]. rewrite (mi_H_SL _ _ _ Hm).
    apply (ms_H_SL P a a' Hm) in Hm as Hm1 || pose proof (ms_H_SL P a a' Hm (fadd (Arith:=XA) (s_H_SL a) (fmul (Arith:=XA) (p_SLR P) (p_dt P)))) as Hm1.
    set (b := set_H_SL _ a) in *. set (b' := set_H_SL _ a') in *.
    unfold advance_clock. cbn [p_dt mirror_params].
    rewrite (mi_time _ _ _ Hm1), (mi_since_data _ _ _ Hm1), (mi_since_checkpoint _ _ _ Hm1), (mi_time_iter _ _ _ Hm1).
    apply ms_time, ms_save_time_since_data, ms_save_time_since_checkpoint, ms_time_iter. auto.
  Qed.

  Lemma checkpoint_mir (st : state R S) (st' : state R (list R)) : mirror_state P st st' ->
    mirror_checkpoint P (save_the_checkpoint st) (save_the_checkpoint st').
  Proof. intros Hm. constructor; apply Hm. Qed.

  Lemma write_mir (st : state R S) (st' : state R (list R)) st1 o : mirror_state P st st' ->
    write_output (A:=XA) P st = (st1, o) ->
    exists st1', mirror_state P st1 st1' /\ forall rest, exists o',
      write_output (A:=XA) P' (set_rng rest st') = (set_rng rest st1', o') /\ Forall2 (mirror_output P) o o'.
  Proof.
    intros Hm E. unfold write_output, output_data, output_checkpoint in *. cbn [p_save_dt p_checkpoint_dt p_save_checkpoint mirror_params] in *.
    change (s_save_time_since_data (set_rng ?r st')) with (s_save_time_since_data st').
    assert (Rec : forall rest, mirror_output P (Record_ (s_save_iter st) (s_time st) st) (Record_ (s_save_iter st') (s_time st') (set_rng rest st'))).
    { intros rest. rewrite (mi_save_iter _ _ _ Hm), (mi_time _ _ _ Hm). constructor. apply ms_rng_r; auto. }
    destruct (ext_geb (s_save_time_since_data st) (p_save_dt P)) eqn:E1.
    - set (a := set_save_time_since_data _ _) in E.
      set (a' := set_save_time_since_data (Fin (fz (Arith:=XA) 0)) (set_save_iter (s_save_iter st' + 1) st')).
      assert (Ha : mirror_state P a a').
      { unfold a, a'. rewrite (mi_save_iter _ _ _ Hm). apply ms_save_time_since_data, ms_save_iter; auto. }
      destruct (ext_geb (s_save_time_since_checkpoint a) (p_checkpoint_dt P) && p_save_checkpoint P) eqn:E2; injection E as <- <-.
      + exists (set_save_time_since_checkpoint (Fin (fz (Arith:=XA) 0)) a'). split; [apply ms_save_time_since_checkpoint; auto|].
        intros rest. exists ([Record_ (s_save_iter st') (s_time st') (set_rng rest st')] ++ [Checkpoint (save_the_checkpoint (set_rng rest a'))]).
        split.
        * change (s_save_time_since_data (set_rng rest st')) with (s_save_time_since_data st').
          rewrite (mi_since_data _ _ _ Hm), E1.
          match goal with |- context [s_save_time_since_checkpoint ?x] =>
            change (s_save_time_since_checkpoint x) with (s_save_time_since_checkpoint a') end.
          rewrite (mi_since_checkpoint _ _ _ Ha), E2. reflexivity.
        * constructor; [apply Rec|]. constructor; [|constructor]. constructor. apply checkpoint_mir. apply ms_rng_r. auto.
      + exists a'. split; auto. intros rest. exists ([Record_ (s_save_iter st') (s_time st') (set_rng rest st')] ++ []). split.
        * change (s_save_time_since_data (set_rng rest st')) with (s_save_time_since_data st').
          rewrite (mi_since_data _ _ _ Hm), E1.
          match goal with |- context [s_save_time_since_checkpoint ?x] =>
            change (s_save_time_since_checkpoint x) with (s_save_time_since_checkpoint a') end.
          rewrite (mi_since_checkpoint _ _ _ Ha), E2. reflexivity.
        * constructor; [apply Rec|]. constructor.
    - destruct (ext_geb (s_save_time_since_checkpoint st) (p_checkpoint_dt P) && p_save_checkpoint P) eqn:E2; injection E as <- <-.
      + exists (set_save_time_since_checkpoint (Fin (fz (Arith:=XA) 0)) st'). split; [apply ms_save_time_since_checkpoint; auto|].
        intros rest. exists ([] ++ [Checkpoint (save_the_checkpoint (set_rng rest st'))]). split.
        * change (s_save_time_since_data (set_rng rest st')) with (s_save_time_since_data st').
          rewrite (mi_since_data _ _ _ Hm), E1.
          change (s_save_time_since_checkpoint (set_rng rest st')) with (s_save_time_since_checkpoint st').
          rewrite (mi_since_checkpoint _ _ _ Hm), E2. reflexivity.
        * constructor; [|constructor]. constructor. apply checkpoint_mir. apply ms_rng_r. auto.
      + exists st'. split; auto. intros rest. exists []. split; [|constructor].
        change (s_save_time_since_data (set_rng rest st')) with (s_save_time_since_data st').
        rewrite (mi_since_data _ _ _ Hm), E1.
        change (s_save_time_since_checkpoint (set_rng rest st')) with (s_save_time_since_checkpoint st').
        rewrite (mi_since_checkpoint _ _ _ Hm), E2. reflexivity.
  Qed.

  Context (HG : uniform_range G) (Hu : forall s, (0 < fst (draw s))%R).

  Lemma end_rng (st : state R (list R)) r :
    advance_clock (A:=XA) P' (finalize_timestep (A:=XA) P' (apply_subsidence (A:=XA) P' (set_rng r st))) =
    set_rng r (advance_clock (A:=XA) P' (finalize_timestep (A:=XA) P' (apply_subsidence (A:=XA) P' st))).
  Proof.
    unfold apply_subsidence. change (s_time (set_rng r st)) with (s_time st). destruct (_ && _); reflexivity.
  Qed.

  Lemma update_mir (st : state R S) (st' : state R (list R)) st1 o :
    model_ready P st -> mirror_state P st st' -> corners_land P st ->
    update (A:=XA) P st = Ok (st1, o) ->
    exists us st1', variates us /\ mirror_state P st1 st1' /\ forall rest, exists o',
      update (A:=XA) (G:=tape) P' (set_rng (us ++ rest) st') = Ok (set_rng rest st1', o') /\ Forall2 (mirror_output P) o o'.
  Proof.
    intros (Hw & Hs & HD) Hm Hc E. apply update_inv in E as (sa & sb & E1 & E2 & E3).
    pose proof (wd_W _ _ _ _ _ (wr_domain _ _ Hw)) as HW. pose proof (wd_L0 _ _ _ _ _ (wr_domain _ _ Hw)) as HL.
    set (s0 := set_eta0 (s_eta st) st) in *. set (s0' := set_eta0 (s_eta st') st').
    assert (Hw0 : water_ready P s0) by (destruct Hw; constructor; auto).
    assert (Hm0 : mirror_state P s0 s0') by (apply ms_eta0; [exact Hm|apply Hm]).
    destruct (route_water_mir P HG Hu s0 s0' sa Hw0 Hm0 Hc E1) as (us1 & sa' & Hus1 & Hma & E1').
    pose proof (route_water_frame _ _ _ E1) as F1.
    assert (Hs1 : sed_ready P sa) by (apply (sed_ready_frame P st sa); auto; apply F1).
    destruct (route_sediment_mir P HG Hu sa sa' sb Hs1 Hma HD E2) as (us2 & sb' & Hus2 & Hmb & E2').
    destruct (write_mir _ _ _ _ (end_mir sb sb' ltac:(lia) ltac:(lia) Hmb) E3) as (st1' & Hm1 & E3').
    exists (us1 ++ us2), st1'. split; [apply Forall_app; auto|]. split; auto. intros rest.
    destruct (E3' rest) as (o' & E3'' & HF). exists o'. split; auto.
    unfold update, solve_water_and_sediment_timestep. rewrite <- app_assoc.
    change (set_eta0 (s_eta (set_rng (us1 ++ us2 ++ rest) st')) (set_rng (us1 ++ us2 ++ rest) st')) with (set_rng (us1 ++ us2 ++ rest) s0').
    rewrite E1'. cbn [rbind]. rewrite E2'. cbn [rbind]. rewrite end_rng, E3''. reflexivity.
  Qed.

  Lemma updates_mir n : forall (st : state R S) (st' : state R (list R)) st1 o,
    model_ready P st -> mirror_state P st st' -> corners_land P st ->
    updates (A:=XA) P n st = Ok (st1, o) ->
    exists us st1', variates us /\ mirror_state P st1 st1' /\ forall rest, exists o',
      updates (A:=XA) (G:=tape) P' n (set_rng (us ++ rest) st') = Ok (set_rng rest st1', o') /\ Forall2 (mirror_output P) o o'.
  Proof.
    induction n as [|n IH]; intros st st' st1 o Hr Hm Hc E; cbn [updates] in *.
    - injection E as <- <-. exists [], st'. split; [constructor|]. split; auto. intros rest. exists []. auto.
    - apply rbind_Ok in E as ([sa oa] & E1 & E). apply rbind_Ok in E as ([sb ob] & E2 & E).
      injection E as <- <-.
      destruct (update_mir st st' sa oa Hr Hm Hc E1) as (us1 & sa' & Hus1 & Hma & E1').
      destruct (update_total P st Hr HG Hu) as (sx & ox & Ex & Hra). change RX with XA in Ex.
      rewrite E1 in Ex. injection Ex as <- <-.
      assert (Hca : corners_land P sa).
      { unfold corners_land in *. replace (s_cell_type sa) with (s_cell_type st); auto. symmetry. apply (update_frame P st sa oa E1). }
      destruct (IH sa sa' sb ob Hra Hma Hca E2) as (us2 & sb' & Hus2 & Hmb & E2').
      exists (us1 ++ us2), sb'. split; [apply Forall_app; auto|]. split; auto. intros rest.
      destruct (E1' (us2 ++ rest)) as (oa' & E1'' & Fa). destruct (E2' rest) as (ob' & E2'' & Fb).
      exists (oa' ++ ob'). split; [|apply Forall2_app; auto].
      rewrite <- app_assoc, E1''. cbn [rbind]. rewrite E2''. reflexivity.
  Qed.
End Iter.

(** ** Weights *)
Lemma first_err_ok {T} (f : Z -> Z -> result T) l : first_err f l = None ->
  forall i j, In (i, j) l -> exists v, f i j = Ok v.
Proof.
  induction l as [|[a b] l IH]; intros E i j Hin; [destruct Hin|]. cbn [first_err] in E.
  destruct (f a b) as [v|e] eqn:Ef; [|discriminate]. destruct Hin as [Hin|Hin]; [|auto].
  injection Hin as <- <-. eauto.
Qed.
Lemma array_mir {S S'} (P : params R) (st : state R S) (st' : state R S') w : mirror_state P st st' ->
  get_water_weight_array (A:=XA) P (s_depth st) (s_stage st) (s_mod_water_weight st) (s_cell_type st) (s_qx st) (s_qy st) = Ok w ->
  exists w', get_water_weight_array (A:=XA) (mirror_params P) (s_depth st') (s_stage st') (s_mod_water_weight st')
      (s_cell_type st') (s_qx st') (s_qy st') = Ok w' /\
    forall i j k, inb (p_L P) (p_W P) i j -> (k < 9)%nat -> w' i (flip (p_W P) j) (flip_dir k) = w i j k.
Proof.
  intros Hm E. unfold get_water_weight_array in *. rewrite gmemo_id in *. cbn [p_L p_W mirror_params].
  destruct (first_err _ _) as [e|] eqn:Ef in E; [discriminate|]. injection E as <-.
  pose proof (first_err_ok _ _ Ef) as Hok. clear Ef.
  assert (Hc : forall i j, inb (p_L P) (p_W P) i j -> exists v v',
    water_weight_cell (A:=XA) P (s_depth st) (s_stage st) (s_mod_water_weight st) (s_cell_type st) (s_qx st) (s_qy st) i j = Ok v /\
    water_weight_cell (A:=XA) (mirror_params P) (s_depth st') (s_stage st') (s_mod_water_weight st') (s_cell_type st') (s_qx st') (s_qy st')
      i (flip (p_W P) j) = Ok v' /\ vmir v v').
  { intros i j Hij. destruct (Hok i j) as [v Ev]; [apply cells_In; auto|].
    pose proof (water_cell_mir P (s_depth st) (s_depth st') (s_stage st) (s_stage st')
        (s_mod_water_weight st) (s_mod_water_weight st') (s_cell_type st) (s_cell_type st') (s_qx st) (s_qx st')
        (s_qy st) (s_qy st') i j (mi_depth _ _ _ Hm) (mi_stage _ _ _ Hm) (mi_mod_water_weight _ _ _ Hm) (mi_cell_type _ _ _ Hm)
        (mi_qx _ _ _ Hm) (mi_qy _ _ _ Hm) Hij) as Q.
    rewrite Ev in Q. destruct (water_weight_cell (A:=XA) (mirror_params P) _ _ _ _ _ _ _ _) as [v'|e]; [|contradiction].
    exists v, v'. auto. }
  rewrite first_err_none.
  - eexists. split; [reflexivity|]. intros i j k Hij Hk. cbv beta.
    destruct (Hc i j Hij) as (v & v' & -> & -> & Hv). apply Hv; auto.
  - intros i j Hin. apply cells_In in Hin. destruct (Hc i (flip (p_W P) j) (flip_inb _ _ _ _ Hin)) as (v & v' & _ & Ev & _).
    rewrite flip_flip in Ev. eauto.
Qed.

(** ** The starting layout *)
Section Layout.
  Context {S : Type} (P : params R) (st : state R S) (first : Z) (HL : layout P st first) (HW : 6 <= p_W P).

  Lemma centre_left : 1 <= p_W P - 1 - 2 * p_CTR P <= 2 /\ 0 <= p_CTR P.
  Proof.
    rewrite (la_centre _ _ _ HL). destruct (Z.ltb_spec (p_W P) 6); [lia|].
    pose proof (Z.div_mod (p_W P) 2 ltac:(lia)). pose proof (Z.mod_pos_bound (p_W P) 2 ltac:(lia)). lia.
  Qed.

  Lemma off_centre a b : inb (p_L P) (p_W P) a b -> s_cell_type st a b = OCEAN ->
    ~ mirror_image (p_L P) (p_W P) (s_cell_type st) (s_cell_type st).
  Proof.
    intros Hab Ho Hsym. pose proof centre_left as HC. destruct HL as [_ Hst Hbd Hra Hoc _ _ _].
    set (Rd := Rmin (IZR (p_L P - 5)) (IZR (p_W P) / 2 - 5)) in *.
    set (dist := fun j => sqrt (IZR ((a - 3) * (a - 3) + (j - p_CTR P) * (j - p_CTR P)))) in *.
    assert (Ha : p_L0 P <= a < p_L P - 1).
    { destruct Hab as [Hi Hj]. destruct (Z_lt_le_dec a (p_L0 P)) as [Hs|Hs].
      - rewrite Hst in Ho by (unfold inb; auto). destruct (_ && _); discriminate.
      - split; [lia|]. destruct (Z.eq_dec a (p_L P - 1)) as [Ee|Ee]; [|lia].
        rewrite Hbd in Ho by (unfold inb; auto). discriminate. }
    (* cells of the row within the radius *)
    assert (Hin : forall j, (dist j < Rd)%R -> 0 < j < p_W P - 1).
    { intros j Hj. assert (Hd : (Rabs (IZR (j - p_CTR P)) < IZR (p_W P) / 2 - 5)%R).
      { eapply Rle_lt_trans; [|eapply Rlt_le_trans; [exact Hj|apply Rmin_r]].
        rewrite <- sqrt_Rsqr_abs. apply sqrt_le_1_alt. unfold Rsqr. rewrite <- mult_IZR. apply IZR_le. pose proof (Z.square_nonneg (a - 3)). lia. }
      apply Rabs_def2 in Hd as [Hd1 Hd2].
      assert (K1 : (IZR (2 * (j - p_CTR P)) < IZR (p_W P - 10))%R) by (rewrite mult_IZR, (minus_IZR (p_W P) 10); lra).
      assert (K2 : (IZR (- (p_W P - 10)) < IZR (2 * (j - p_CTR P)))%R) by (rewrite opp_IZR, mult_IZR, (minus_IZR (p_W P) 10); lra).
      apply lt_IZR in K1, K2. lia. }
    assert (Hiff : forall j, 0 <= j < p_W P -> s_cell_type st a j = OCEAN -> (dist j < Rd)%R).
    { intros j Hj Ej. destruct (Rlt_le_dec (dist j) Rd) as [|Hge]; auto.
      rewrite Hra in Ej; [discriminate|split; [apply Hab|auto]|lia|exact Hge]. }
    assert (Hback : forall j, (dist j < Rd)%R -> s_cell_type st a j = OCEAN).
    { intros j Hj. pose proof (Hin j Hj). apply Hoc; [split; [apply Hab|lia]|lia|lia|exact Hj]. }
    assert (Hstep : forall j, (dist j < Rd)%R -> (dist (j + (p_W P - 1 - 2 * p_CTR P))%Z < Rd)%R).
    { intros j Hj. assert (Hj' : (dist (2 * p_CTR P - j)%Z < Rd)%R).
      { unfold dist in *. replace (2 * p_CTR P - j - p_CTR P) with (- (j - p_CTR P)) by lia. rewrite Z.mul_opp_opp. exact Hj. }
      pose proof (Hin _ Hj') as K. apply Hiff; [lia|].
      replace (j + (p_W P - 1 - 2 * p_CTR P)) with (flip (p_W P) (2 * p_CTR P - j)) by (unfold flip; lia).
      rewrite Hsym by (split; [apply Hab|lia]). apply Hback; auto. }
    assert (Hall : forall n : nat, (dist (b + Z.of_nat n * (p_W P - 1 - 2 * p_CTR P))%Z < Rd)%R).
    { induction n as [|n IH].
      - replace (b + Z.of_nat 0 * (p_W P - 1 - 2 * p_CTR P)) with b by lia. apply Hiff; [apply Hab|auto].
      - replace (b + Z.of_nat (Datatypes.S n) * (p_W P - 1 - 2 * p_CTR P))
          with (b + Z.of_nat n * (p_W P - 1 - 2 * p_CTR P) + (p_W P - 1 - 2 * p_CTR P)) by lia. auto. }
    pose proof (Hin _ (Hall (Z.to_nat (p_W P)))) as K. destruct Hab as [_ Hb]. rewrite Z2Nat.id in K by lia. nia.
  Qed.

  Lemma inlet_centred :
    (forall j, In j (p_inlet P) <-> In (flip (p_W P) j) (p_inlet P)) <->
    (Z.even (p_W P) = true /\ Z.even (p_N0 P) = true) \/ (Z.even (p_W P) = false /\ p_N0 P mod 4 = 1).
  Proof.
    pose proof (la_columns _ _ _ HL) as Hcol.
    assert (Hm : forall j, In j (p_inlet P) <-> first <= j < first + p_N0 P).
    { intros j. rewrite (la_inlet _ _ _ HL), zseq_In, Z2Nat.id by lia. reflexivity. }
    assert (Hc : (forall j, In j (p_inlet P) <-> In (flip (p_W P) j) (p_inlet P)) <-> 2 * first + p_N0 P = p_W P).
    { split.
      - intros H. pose proof (proj1 (H first)) as H1. pose proof (proj1 (H (first + p_N0 P - 1))) as H2.
        rewrite !Hm in H1, H2. unfold flip in *. lia.
      - intros H j. rewrite !Hm. unfold flip. lia. }
    rewrite Hc. clear Hc. pose proof (la_centre _ _ _ HL) as HC. destruct (Z.ltb_spec (p_W P) 6); [lia|].
    destruct (la_first _ _ _ HL) as (half & -> & Hh).
    pose proof (Z.div_mod (p_W P) 2 ltac:(lia)) as D. pose proof (Z.mod_pos_bound (p_W P) 2 ltac:(lia)) as D'.
    assert (EW : Z.even (p_W P) = (p_W P mod 2 =? 0)).
    { rewrite Zmod_even. destruct (Z.even (p_W P)); reflexivity. }
    rewrite EW. destruct Hh as [Hh|[Hh He]].
    - assert (EN : Z.even (p_N0 P) = true) by (apply Z.even_spec; exists half; lia). rewrite EN.
      assert (p_N0 P mod 4 <> 1).
      { intros K. pose proof (Z.div_mod (p_N0 P) 4 ltac:(lia)). lia. }
      destruct (Z.eqb_spec (p_W P mod 2) 0); [split; [left; auto|lia]|]. split; [lia|]. intros [[? _]|[_ ?]]; [discriminate|contradiction].
    - apply Z.even_spec in He as [h ->].
      assert (EN : Z.even (p_N0 P) = false).
      { destruct (Z.even (p_N0 P)) eqn:Q; auto. apply Z.even_spec in Q as [q Q]. lia. }
      rewrite EN. pose proof (Z.div_mod (p_N0 P) 4 ltac:(lia)). pose proof (Z.mod_pos_bound (p_N0 P) 4 ltac:(lia)).
      destruct (Z.eqb_spec (p_W P mod 2) 0).
      + split; [lia|]. intros [[_ ?]|[? _]]; discriminate.
      + split; [|lia]. intros K. right. split; auto. lia.
  Qed.
End Layout.
