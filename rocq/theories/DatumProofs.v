(** Elevations counted from another zero: the routing of water (C78). *)
From Coq Require Import ZArith List Bool Reals Lra Lia.
From Flocq Require Import Core.
From Verif Require Import Base RLemmas Shared SharedSpec SharedProofs Params State Water Sed VecLemmas
  WaterSpec WeightProofs WalkProofs RunProofs SurfaceProofs FlowProofs StepSpec StepProofs MirrorSpec MirrorProofs MirrorFlow DatumSpec.
Import ListNotations.
Local Open Scope Z_scope.

Section Set_.
  Context {S : Type} (c : R) (P : params R) (st st' : state R S) (H : raised c P st st').
  Lemma us_eta g g' : higher (p_L P) (p_W P) c g g' -> raised c P (set_eta g st) (set_eta g' st').
  Proof. intros Hg. destruct H; constructor; assumption. Qed.
  Lemma us_eta0 g g' : higher (p_L P) (p_W P) c g g' -> raised c P (set_eta0 g st) (set_eta0 g' st').
  Proof. intros Hg. destruct H; constructor; assumption. Qed.
  Lemma us_stage g g' : higher (p_L P) (p_W P) c g g' -> raised c P (set_stage g st) (set_stage g' st').
  Proof. intros Hg. destruct H; constructor; assumption. Qed.
  Lemma us_Hnew g g' : higher (p_L P) (p_W P) c g g' -> raised c P (set_Hnew g st) (set_Hnew g' st').
  Proof. intros Hg. destruct H; constructor; assumption. Qed.
  Lemma us_depth g g' : same (p_L P) (p_W P) g g' -> raised c P (set_depth g st) (set_depth g' st').
  Proof. intros Hg. destruct H; constructor; assumption. Qed.
  Lemma us_qx g g' : same (p_L P) (p_W P) g g' -> raised c P (set_qx g st) (set_qx g' st').
  Proof. intros Hg. destruct H; constructor; assumption. Qed.
  Lemma us_qy g g' : same (p_L P) (p_W P) g g' -> raised c P (set_qy g st) (set_qy g' st').
  Proof. intros Hg. destruct H; constructor; assumption. Qed.
  Lemma us_qw g g' : same (p_L P) (p_W P) g g' -> raised c P (set_qw g st) (set_qw g' st').
  Proof. intros Hg. destruct H; constructor; assumption. Qed.
  Lemma us_qxn g g' : same (p_L P) (p_W P) g g' -> raised c P (set_qxn g st) (set_qxn g' st').
  Proof. intros Hg. destruct H; constructor; assumption. Qed.
  Lemma us_qyn g g' : same (p_L P) (p_W P) g g' -> raised c P (set_qyn g st) (set_qyn g' st').
  Proof. intros Hg. destruct H; constructor; assumption. Qed.
  Lemma us_qwn g g' : same (p_L P) (p_W P) g g' -> raised c P (set_qwn g st) (set_qwn g' st').
  Proof. intros Hg. destruct H; constructor; assumption. Qed.
  Lemma us_ux g g' : same (p_L P) (p_W P) g g' -> raised c P (set_ux g st) (set_ux g' st').
  Proof. intros Hg. destruct H; constructor; assumption. Qed.
  Lemma us_uy g g' : same (p_L P) (p_W P) g g' -> raised c P (set_uy g st) (set_uy g' st').
  Proof. intros Hg. destruct H; constructor; assumption. Qed.
  Lemma us_uw g g' : same (p_L P) (p_W P) g g' -> raised c P (set_uw g st) (set_uw g' st').
  Proof. intros Hg. destruct H; constructor; assumption. Qed.
  Lemma us_qs g g' : same (p_L P) (p_W P) g g' -> raised c P (set_qs g st) (set_qs g' st').
  Proof. intros Hg. destruct H; constructor; assumption. Qed.
  Lemma us_sand_frac g g' : same (p_L P) (p_W P) g g' -> raised c P (set_sand_frac g st) (set_sand_frac g' st').
  Proof. intros Hg. destruct H; constructor; assumption. Qed.
  Lemma us_active_layer g g' : same (p_L P) (p_W P) g g' -> raised c P (set_active_layer g st) (set_active_layer g' st').
  Proof. intros Hg. destruct H; constructor; assumption. Qed.
  Lemma us_Vp_dep_sand g g' : same (p_L P) (p_W P) g g' -> raised c P (set_Vp_dep_sand g st) (set_Vp_dep_sand g' st').
  Proof. intros Hg. destruct H; constructor; assumption. Qed.
  Lemma us_Vp_dep_mud g g' : same (p_L P) (p_W P) g g' -> raised c P (set_Vp_dep_mud g st) (set_Vp_dep_mud g' st').
  Proof. intros Hg. destruct H; constructor; assumption. Qed.
  Lemma us_mod_water_weight g g' : same (p_L P) (p_W P) g g' -> raised c P (set_mod_water_weight g st) (set_mod_water_weight g' st').
  Proof. intros Hg. destruct H; constructor; assumption. Qed.
  Lemma us_mod_sed_weight g g' : same (p_L P) (p_W P) g g' -> raised c P (set_mod_sed_weight g st) (set_mod_sed_weight g' st').
  Proof. intros Hg. destruct H; constructor; assumption. Qed.
  Lemma us_mod_erosion g g' : same (p_L P) (p_W P) g g' -> raised c P (set_mod_erosion g st) (set_mod_erosion g' st').
  Proof. intros Hg. destruct H; constructor; assumption. Qed.
  Lemma us_cf g g' : same (p_L P) (p_W P) g g' -> raised c P (set_cf g st) (set_cf g' st').
  Proof. intros Hg. destruct H; constructor; assumption. Qed.
  Lemma us_cell_type g g' : same (p_L P) (p_W P) g g' -> raised c P (set_cell_type g st) (set_cell_type g' st').
  Proof. intros Hg. destruct H; constructor; assumption. Qed.
  Lemma us_time x : raised c P (set_time x st) (set_time x st').
  Proof. destruct H; constructor; first [reflexivity|assumption]. Qed.
  Lemma us_time_iter x : raised c P (set_time_iter x st) (set_time_iter x st').
  Proof. destruct H; constructor; first [reflexivity|assumption]. Qed.
  Lemma us_save_time_since_data x : raised c P (set_save_time_since_data x st) (set_save_time_since_data x st').
  Proof. destruct H; constructor; first [reflexivity|assumption]. Qed.
  Lemma us_save_time_since_checkpoint x : raised c P (set_save_time_since_checkpoint x st) (set_save_time_since_checkpoint x st').
  Proof. destruct H; constructor; first [reflexivity|assumption]. Qed.
  Lemma us_save_iter x : raised c P (set_save_iter x st) (set_save_iter x st').
  Proof. destruct H; constructor; first [reflexivity|assumption]. Qed.
  Lemma us_width x : raised c P (set_width x st) (set_width x st').
  Proof. destruct H; constructor; first [reflexivity|assumption]. Qed.
  Lemma us_rng x : raised c P (set_rng x st) (set_rng x st').
  Proof. destruct H; constructor; first [reflexivity|assumption]. Qed.
  Lemma us_H_SL x x' : x' = (x + c)%R -> raised c P (set_H_SL x st) (set_H_SL x' st').
  Proof. intros Hx. destruct H; constructor; assumption. Qed.
  Lemma us_walks v v' t t' : same (p_L P) (p_W P) v v' ->
    (forall i j, inb (p_L P) (p_W P) i j -> t' i j = (t i j + v i j * c)%R) ->
    raised c P (set_sfc_visit v (set_sfc_sum t st)) (set_sfc_visit v' (set_sfc_sum t' st')).
  Proof. intros Hv Ht. destruct H; constructor; assumption. Qed.
End Set_.

Lemma alike_bind {T U T' U'} (Q : T -> T' -> Prop) (K : U -> U' -> Prop) r r' (f : T -> result U) (f' : T' -> result U') :
  alike Q r r' -> (forall x x', r = Ok x -> Q x x' -> alike K (f x) (f' x')) -> alike K (rbind r f) (rbind r' f').
Proof. destruct r, r'; cbn; intros H Hf; try contradiction; auto. Qed.
Lemma alike_refl {T} (r : result T) : alike eq r r.
Proof. destruct r; reflexivity. Qed.
Lemma alike_eq {T} (r r' : result T) : alike eq r r' -> r = r'.
Proof. destruct r, r'; cbn; intros H; try contradiction; congruence. Qed.

(** ** Vectors of the nine directions *)
Definition veq {T} (v v' : vec T) : Prop := forall k, (k < 9)%nat -> v' k = v k.
Lemma veq_mir {T} (v v' : vec T) : veq v v' -> vmir v (fun k => v (flip_dir k)) /\ vmir (fun k => v (flip_dir k)) v'.
Proof.
  intros H. split; intros k Hk.
  - rewrite fd_fd by exact Hk. reflexivity.
  - apply H, fd_lt, Hk.
Qed.
Lemma rmir_twice {T} r0 (r1 : result (vec T)) r2 : rmir vmir r0 r1 -> rmir vmir r1 r2 -> alike veq r0 r2.
Proof.
  destruct r0 as [v0|], r1 as [v1|], r2 as [v2|]; cbn; intros H1 H2; try contradiction; try congruence.
  intros k Hk. rewrite <- (H1 k Hk). rewrite <- (H2 (flip_dir k)) by (apply fd_lt, Hk). rewrite fd_fd by exact Hk. reflexivity.
Qed.
Lemma vsum_veq v v' : veq v v' -> vsum (A:=XA) v' = vsum (A:=XA) v.
Proof. intros H. change XA with RX. rewrite !vsum_X. apply sum9_ext. exact H. Qed.
Lemma weight_cell_veq row0 ws ws' wi wi' dn dn' mw mw' ct ct' dry gamma theta :
  veq ws ws' -> veq wi wi' -> veq dn dn' -> veq mw mw' -> veq ct ct' ->
  alike veq (get_weight_at_cell_water (A:=XA) row0 ws wi dn mw ct dry gamma theta)
            (get_weight_at_cell_water (A:=XA) row0 ws' wi' dn' mw' ct' dry gamma theta).
Proof.
  intros H1 H2 H3 H4 H5. apply veq_mir in H1 as [? ?], H2 as [? ?], H3 as [? ?], H4 as [? ?], H5 as [? ?].
  eapply rmir_twice; apply weight_cell_mir; eassumption.
Qed.
Lemma sed_cell_veq wi wi' dn dn' ct ct' dry theta ms ms' :
  veq wi wi' -> veq dn dn' -> veq ct ct' -> veq ms ms' ->
  alike veq (get_weight_at_cell_sediment (A:=XA) wi dn ct dry theta ms)
            (get_weight_at_cell_sediment (A:=XA) wi' dn' ct' dry theta ms').
Proof.
  intros H2 H3 H4 H5. apply veq_mir in H2 as [? ?], H3 as [? ?], H4 as [? ?], H5 as [? ?].
  eapply rmir_twice; apply sed_cell_mir; eassumption.
Qed.

Section Grid.
  Context (L W : Z) (c : R).
  Lemma nearest_same {T} (g g' : grid T) i j : 1 <= L -> 1 <= W -> same L W g g' -> nearest L W g' i j = nearest L W g i j.
  Proof. intros HL HW H. unfold nearest. apply H. unfold inb, clamp. lia. Qed.
  Lemma nearest_higher g g' i j : 1 <= L -> 1 <= W -> higher L W c g g' -> nearest L W g' i j = (nearest L W g i j + c)%R.
  Proof. intros HL HW H. unfold nearest. apply H. unfold inb, clamp. lia. Qed.
  Lemma window_same {T} (d : T) g g' i j : inb L W i j -> same L W g g' ->
    veq (window (custom_pad d L W g) i j) (window (custom_pad d L W g') i j).
  Proof. intros Hi H k Hk. rewrite !pad_window by auto. apply nearest_same; auto; destruct Hi; lia. Qed.
  Lemma window_higher d d' g g' i j k : inb L W i j -> (k < 9)%nat -> higher L W c g g' ->
    window (custom_pad d' L W g') i j k = (window (custom_pad d L W g) i j k + c)%R.
  Proof. intros Hi Hk H. rewrite !pad_window by auto. apply nearest_higher; auto; destruct Hi; lia. Qed.
End Grid.

Section Walks.
  Context {S : Type} {G : Rng R S} (c : R) (P : params R).
  Notation L := (p_L P).
  Notation W := (p_W P).

  Lemma cell_up depth depth' stage stage' mw mw' ct ct' qx qx' qy qy' i j :
    same L W depth depth' -> higher L W c stage stage' -> same L W mw mw' ->
    same L W ct ct' -> same L W qx qx' -> same L W qy qy' -> inb L W i j ->
    alike veq (water_weight_cell (A:=XA) P depth stage mw ct qx qy i j)
              (water_weight_cell (A:=XA) P depth' stage' mw' ct' qx' qy' i j).
  Proof.
    intros Hd Hs Hm Hc Hx Hy Hi. unfold water_weight_cell. rewrite !vmemo_id, (Hx i j Hi), (Hy i j Hi).
    apply weight_cell_veq; auto using window_same.
    - intros k Hk. unfold get_weight_sfc. rewrite (Hs i j Hi), (window_higher L W c (fz (Arith:=XA) 0) _ _ _ i j k Hi Hk Hs). do 2 f_equal. ra. ring.
    - intros k Hk. reflexivity.
  Qed.

  Definition weq (w w' : Z -> Z -> vec R) : Prop := forall i j, inb L W i j -> veq (w i j) (w' i j).
  Lemma array_up (st st' : state R S) : raised c P st st' ->
    alike weq (get_water_weight_array (A:=XA) P (s_depth st) (s_stage st) (s_mod_water_weight st) (s_cell_type st) (s_qx st) (s_qy st))
      (get_water_weight_array (A:=XA) P (s_depth st') (s_stage st') (s_mod_water_weight st') (s_cell_type st') (s_qx st') (s_qy st')).
  Proof.
    intros H. unfold get_water_weight_array. rewrite !gmemo_id.
    set (f := water_weight_cell (A:=XA) P (s_depth st) _ _ _ _ _). set (f' := water_weight_cell (A:=XA) P (s_depth st') _ _ _ _ _).
    assert (Hf : forall i j, inb L W i j -> alike veq (f i j) (f' i j)) by (intros i j Hi; apply cell_up; auto; apply H).
    assert (He : forall l, (forall x, In x l -> inb L W (fst x) (snd x)) -> first_err f' l = first_err f l).
    { induction l as [|[i j] l IH]; intros Hl; [reflexivity|]. cbn [first_err].
      pose proof (Hf i j (Hl (i, j) (or_introl eq_refl))) as Q.
      destruct (f i j), (f' i j); cbn in Q; try contradiction; [|congruence]. apply IH. intros x Hx. apply Hl. right. exact Hx. }
    rewrite He by (intros [i j] Hx; apply cells_In; exact Hx).
    destruct (first_err f (cells L W)); cbn [alike]; [reflexivity|].
    intros i j Hi. pose proof (Hf i j Hi) as Q. destruct (f i j), (f' i j); cbn in Q; try contradiction; auto.
    intros k Hk. reflexivity.
  Qed.

  Context (HL1 : 1 <= L) (HW1 : 1 <= W).
  Lemma flat_cell n n' : flat_ix P n = Ok n' -> inb L W (n' / W) (n' mod W).
  Proof.
    unfold flat_ix. set (m := wrap (L * W) n). destruct ((0 <=? m) && (m <? L * W)) eqn:E; [|discriminate].
    intros [= <-]. apply andb_prop in E as [E1 E2]. apply Z.leb_le in E1. apply Z.ltb_lt in E2.
    pose proof (Z.mod_pos_bound m W ltac:(lia)). split; [|lia]. split; [apply Z.div_pos; lia|]. apply Z.div_lt_upper_bound; lia.
  Qed.

  Section Loop.
    Context (w w' : Z -> Z -> vec R) (Hw : weq w w') (stage stage' : grid R) (H_SL : R) (Hs : higher L W c stage stage').
    Context (ct ct' : grid Z) (Hct : same L W ct ct').

    Lemma choose_up ps : forall s, choose_next_directions (A:=XA) P w' ps s = choose_next_directions (A:=XA) P w ps s.
    Proof.
      induction ps as [|p ps IH]; intros s; [reflexivity|]. cbn [choose_next_directions].
      assert (E : (if cur p =? 0 then Ok (4%nat, s) else rbind (flat_ix P (cur p)) (fun n => random_pick (A:=XA) (map (w' (n / W) (n mod W)) D9) s))
        = (if cur p =? 0 then Ok (4%nat, s) else rbind (flat_ix P (cur p)) (fun n => random_pick (A:=XA) (map (w (n / W) (n mod W)) D9) s))).
      { destruct (cur p =? 0); [reflexivity|]. destruct (flat_ix P (cur p)) as [n|] eqn:En; [|reflexivity]. cbn [rbind].
        f_equal. apply map_ext_in. intros k Hk. apply (Hw _ _ (flat_cell _ _ En)). unfold D9 in Hk. apply in_seq in Hk. lia. }
      rewrite E. clear E. destruct (if cur p =? 0 then _ else _) as [[d s1]|]; [|reflexivity]. cbn [rbind]. rewrite IH. reflexivity.
    Qed.

    Lemma check_from_up ps : forall stale, check_loops_from (A:=XA) P stage' (H_SL + c)%R stale ps = check_loops_from (A:=XA) P stage H_SL stale ps.
    Proof.
      induction ps as [|p ps IH]; intros stale; [reflexivity|]. cbn [check_loops_from]. rewrite IH.
      destruct (_ && _); [|reflexivity]. destruct (custom_unravel (new p) (L, W)) as [[px0 py0]|]; [|reflexivity]. cbn [rbind].
      destruct (relocate P stale px0 py0) as [[px py]|]; [|reflexivity]. cbn [rbind].
      destruct (custom_ravel (px, py) (L, W)) as [nind|]; [|reflexivity]. cbn [rbind].
      destruct (inbb L W px0 py0) eqn:E; [|reflexivity]. apply inbb_spec in E. rewrite IH, (Hs _ _ E).
      replace (fsub (Arith:=XA) (stage px0 py0 + c)%R (H_SL + c)%R) with (fsub (Arith:=XA) (stage px0 py0) H_SL) by (ra; ring). reflexivity.
    Qed.

    Lemma record_up p : record_step P ct' p = record_step P ct p.
    Proof.
      unfold record_step, at_boundary. destruct (flat_ix P (new p)) as [n|] eqn:E; [|reflexivity]. cbn [rbind].
      rewrite (Hct _ _ (flat_cell _ _ E)). reflexivity.
    Qed.
    Lemma records_up ps : mapM (record_step P ct') ps = mapM (record_step P ct) ps.
    Proof. induction ps as [|p ps IH]; [reflexivity|]. cbn [mapM]. rewrite record_up, IH. reflexivity. Qed.

    Lemma step_up step x : water_step (A:=XA) P w' stage' (H_SL + c)%R ct' step x = water_step (A:=XA) P w stage H_SL ct step x.
    Proof.
      destruct x as [[[ps q] width] s]. unfold water_step. rewrite choose_up.
      destruct (choose_next_directions P w ps s) as [[ps1 s1]|]; [|reflexivity]. cbn [rbind].
      destruct (update_Q P q cur _) as [q1|]; [|reflexivity]. cbn [rbind].
      destruct (update_Q P q1 new _) as [q2|]; [|reflexivity]. cbn [rbind].
      unfold check_for_loops. rewrite check_from_up.
      destruct (if p_L0 P <? step then _ else _) as [ps2|]; [|reflexivity]. cbn [rbind]. rewrite records_up. reflexivity.
    Qed.
    Lemma loop_up fuel : forall step x, water_loop (A:=XA) P w' stage' (H_SL + c)%R ct' fuel step x = water_loop (A:=XA) P w stage H_SL ct fuel step x.
    Proof.
      induction fuel as [|n IH]; intros step x; [reflexivity|]. cbn [water_loop]. destruct (any_active _); [|reflexivity].
      rewrite step_up. destruct (water_step P w stage H_SL ct (step + 1) x) as [y|]; [|reflexivity]. cbn [rbind]. apply IH.
    Qed.
  End Loop.

  (** The parcels take the same paths. *)
  Lemma run_up (st st' : state R S) : raised c P st st' ->
    run_water_iteration (A:=XA) P st' = run_water_iteration (A:=XA) P st.
  Proof.
    intros H. unfold run_water_iteration. rewrite (up_rng _ _ _ _ H), (up_width _ _ _ _ H), (up_H_SL _ _ _ _ H).
    destruct (get_start_indices (p_inlet P) _ _ _) as [[starts s]|]; [|reflexivity]. cbn [rbind].
    destruct (s_width st <=? 0); [reflexivity|]. pose proof (array_up st st' H) as Q.
    destruct (get_water_weight_array P (s_depth st) _ _ _ _ _) as [w|], (get_water_weight_array P (s_depth st') _ _ _ _ _) as [w'|];
      cbn in Q; try contradiction; cbn [rbind]; [|congruence].
    apply loop_up; auto; apply H.
  Qed.

  (** ** The water surface *)
  Definition summed (v t t' : grid R) : Prop := forall i j, inb L W i j -> t' i j = (t i j + v i j * c)%R.

  Lemma same_gset {T} (g g' : grid T) i j x : same L W g g' -> same L W (gset g i j x) (gset g' i j x).
  Proof. intros H a b Hab. unfold gset. destruct (_ && _); auto. Qed.
  Lemma higher_gset (g g' : grid R) i j x x' : higher L W c g g' -> x' = (x + c)%R -> higher L W c (gset g i j x) (gset g' i j x').
  Proof. intros H E a b Hab. unfold gset. destruct (_ && _); auto. Qed.

  Lemma walk_back_up u0 h0 S0 dx uw uw' ux ux' uy uy' depth depth' :
    same L W uw uw' -> same L W ux ux' -> same L W uy uy' -> same L W depth depth' ->
    forall rest, Forall (fun x => inb L W (fst x) (snd x)) rest -> forall oc dH ip jp H H' v v' t t',
    H' ip jp = (H ip jp + c)%R -> same L W v v' -> summed v t t' ->
    let r := walk_back (A:=XA) u0 h0 S0 dx uw ux uy depth oc dH ip jp rest H v t in
    let r' := walk_back (A:=XA) u0 h0 S0 dx uw' ux' uy' depth' oc dH ip jp rest H' v' t' in
    same L W (fst r) (fst r') /\ summed (fst r) (snd r) (snd r').
  Proof.
    intros Huw Hux Huy Hd. induction 1 as [|[i j] rest Hc HF IH]; intros oc dH ip jp H H' v v' t t' HH Hv Ht; cbn [walk_back].
    - split; auto.
    - cbn [fst snd] in *. cbv zeta.
      rewrite (Huw i j Hc), (Hux i j Hc), (Huy i j Hc), (Hd i j Hc), HH, (Hv i j Hc).
      set (dH' := if _ && negb oc then _ else dH). clearbody dH'. set (oc' := if _ && oc && _ then _ else oc). clearbody oc'.
      assert (Es : forall (K : grid R) x, gset K i j x i j = x) by (intros K x; unfold gset; rewrite !Z.eqb_refl; reflexivity).
      rewrite !Es. apply IH.
      + rewrite !Es. ra. ring.
      + apply same_gset, Hv.
      + intros a b Hab. unfold gset. destruct ((a =? i) && (b =? j)) eqn:E; [|apply Ht, Hab].
        apply andb_prop in E as [E1 E2]. apply Z.eqb_eq in E1, E2. subst a b. rewrite (Ht i j Hc). ra. ring.
  Qed.

  Lemma unravels_in l cs : mapM (unravel_in P) l = Ok cs -> Forall (fun x => inb L W (fst x) (snd x)) cs.
  Proof.
    revert cs. induction l as [|n l IH]; intros cs; cbn [mapM]; [intros [= <-]; constructor|].
    intros E. apply rbind_Ok in E as ([a b] & E1 & E). apply rbind_Ok in E as (cs1 & E2 & E). injection E as <-.
    constructor; [|auto]. unfold unravel_in in E1. apply rbind_Ok in E1 as ([x y] & _ & E1).
    destruct (inbb L W x y) eqn:Eb; [|discriminate]. injection E1 as <- <-. apply inbb_spec, Eb.
  Qed.

  Definition vt_up (vt vt' : grid R * grid R) : Prop := same L W (fst vt) (fst vt') /\ summed (fst vt) (snd vt) (snd vt').

  Lemma accumulate_one_up (st st' : state R S) p vt vt' : raised c P st st' -> vt_up vt vt' ->
    alike vt_up (accumulate_one (A:=XA) P st p vt) (accumulate_one (A:=XA) P st' p vt').
  Proof.
    intros Hm [Hv Ht]. unfold accumulate_one. destruct (mapM (unravel_in P) _) as [cs|] eqn:Ec; [|reflexivity]. cbn [rbind].
    apply unravels_in in Ec. destruct Ec as [|[xl yl] rest Hc HF]; [reflexivity|]. cbn [fst snd] in Hc.
    rewrite (up_cell_type _ _ _ _ Hm xl yl Hc). destruct (_ && _); [|split; auto].
    cbn [alike]. rewrite (up_H_SL _ _ _ _ Hm). apply walk_back_up; auto; try apply Hm.
    unfold gset. rewrite !Z.eqb_refl. reflexivity.
  Qed.

  Lemma accumulate_up (st st' : state R S) ps : raised c P st st' -> forall vt vt', vt_up vt vt' ->
    alike vt_up (accumulate_free_surface_walks (A:=XA) P st ps vt) (accumulate_free_surface_walks (A:=XA) P st' ps vt').
  Proof.
    intros Hm. induction ps as [|p ps IH]; intros vt vt' Hv; cbn [accumulate_free_surface_walks]; [exact Hv|].
    eapply alike_bind; [apply accumulate_one_up; eassumption|]. intros [v t] [v' t'] _ Q. rewrite !gmemo_id. apply IH, Q.
  Qed.

  Lemma hnew_up e d v t h : hnew_cell (A:=XA) (e + c)%R d v (t + v * c)%R (h + c)%R = (hnew_cell (A:=XA) e d v t h + c)%R.
  Proof.
    unfold hnew_cell.
    set (x := if fltb (Arith:=XA) (fz (Arith:=XA) 0) v then fdiv (Arith:=XA) t v else fadd (Arith:=XA) e d).
    replace (if fltb (Arith:=XA) (fz (Arith:=XA) 0) v then fdiv (Arith:=XA) (t + v * c)%R v else fadd (Arith:=XA) (e + c)%R d) with (x + c)%R.
    2:{ unfold x. ra. destruct (Rltb_spec 0 v) as [Hv|Hv]; [field; lra|ring]. }
    clearbody x. ra.
    replace (Rltb (x + c) (h + c)) with (Rltb x h) by (destruct (Rltb_spec x h), (Rltb_spec (x + c) (h + c)); auto; lra).
    set (y := if Rltb x h then h else x).
    replace (if Rltb x h then (h + c)%R else (x + c)%R) with (y + c)%R by (unfold y; destruct (Rltb x h); reflexivity).
    clearbody y.
    replace (Rltb (y + c) (e + c)) with (Rltb y e) by (destruct (Rltb_spec y e), (Rltb_spec (y + c) (e + c)); auto; lra).
    destruct (Rltb y e); reflexivity.
  Qed.

  (** *** Smoothing *)
  Lemma vcount_sum (m : vec bool) : IZR (vcount m) = sum9 (fun k => if m k then 1 else 0)%R.
  Proof.
    rewrite sum9_indicator. ring.
  Qed.
  Lemma vcount_veq (m m' : vec bool) : veq m m' -> vcount m' = vcount m.
  Proof. intros H. apply eq_IZR. rewrite !vcount_sum. apply sum9_ext. intros k Hk. rewrite (H k Hk). reflexivity. Qed.

  Lemma smooth_cell_up C ct ct' H H' : same L W ct ct' -> higher L W c H H' ->
    higher L W c (smooth_cell (A:=XA) P C ct H) (smooth_cell (A:=XA) P C ct' H').
  Proof.
    intros Hct HH i j Hi. unfold smooth_cell. cbv zeta. rewrite (Hct i j Hi), (HH i j Hi). destruct (ct i j =? -1); [reflexivity|].
    set (iv := fun k => (window (custom_pad 0 L W ct) i j k =? -2) || isctr k).
    set (iv' := fun k => (window (custom_pad 0 L W ct') i j k =? -2) || isctr k).
    assert (Hv : veq iv iv') by (intros k Hk; unfold iv, iv'; rewrite (window_same L W 0 ct ct' i j Hi Hct k Hk); reflexivity).
    change (vcount (fun k => negb ((window (custom_pad 0 L W ct) i j k =? -2) || isctr k))) with (vcount (fun k => negb (iv k))).
    change (vcount (fun k => negb ((window (custom_pad 0 L W ct') i j k =? -2) || isctr k))) with (vcount (fun k => negb (iv' k))).
    rewrite (vcount_veq (fun k => negb (iv k)) (fun k => negb (iv' k))) by (intros k Hk; rewrite (Hv k Hk); reflexivity).
    set (n := vcount (fun k => negb (iv k))).
    assert (Es : vsum (A:=XA) (vset (window (custom_pad (fz (Arith:=XA) 0) L W H') i j) iv' (fz (Arith:=XA) 0)) =
      (vsum (A:=XA) (vset (window (custom_pad (fz (Arith:=XA) 0) L W H) i j) iv (fz (Arith:=XA) 0)) + IZR n * c)%R).
    { change XA with RX. rewrite !vsum_X. unfold n. rewrite vcount_sum.
      assert (Ek : forall k, (k < 9)%nat -> vset (window (custom_pad (fz (Arith:=RX) 0) L W H') i j) iv' (fz (Arith:=RX) 0) k =
        (vset (window (custom_pad (fz (Arith:=RX) 0) L W H) i j) iv (fz (Arith:=RX) 0) k + (if negb (iv k) then 1 else 0) * c)%R).
      { intros k Hk. unfold vset. rewrite (Hv k Hk). destruct (iv k); cbn [negb]; [change RX with (RA (fun x => x)); ra; ring|].
        rewrite (window_higher L W c (fz (Arith:=RX) 0) _ _ _ i j k Hi Hk HH). ring. }
      unfold sum9. rewrite !Ek by lia. ring. }
    rewrite Es. destruct (Z.ltb_spec 0 n) as [Hn|]; [|reflexivity]. apply IZR_lt in Hn. ra. field. lra.
  Qed.
  Lemma smooth_up C ct ct' n : same L W ct ct' -> forall H H', higher L W c H H' ->
    higher L W c (smooth_passes (A:=XA) P C ct n H) (smooth_passes (A:=XA) P C ct' n H').
  Proof.
    intros Hct. induction n as [|n IH]; intros H H' HH; cbn [smooth_passes]; auto.
    apply IH. rewrite !gmemo_id. apply smooth_cell_up; auto.
  Qed.
End Walks.

(** ** Flooding *)
Section Flood.
  Context (c : R) (P : params R).
  Notation L := (p_L P).
  Notation W := (p_W P).
  Definition D8' : list nat := [0; 1; 2; 3; 5; 6; 7; 8]%nat.

  Lemma highest_ub depth stage i j k : In k D8' -> (offered P depth stage i j k <= highest P depth stage i j)%R.
  Proof. intros H. unfold highest. cbn [D8' In] in H. decompose [or] H; subst; try contradiction; under_max. Qed.
  Lemma highest_lub depth stage i j x : (forall k, In k D8' -> (offered P depth stage i j k <= x)%R) -> (highest P depth stage i j <= x)%R.
  Proof. intros H. unfold highest. repeat apply Rmax_lub; apply H; cbn [D8' In]; tauto. Qed.
  Lemma highest_at depth stage i j : exists k, In k D8' /\ highest P depth stage i j = offered P depth stage i j k.
  Proof.
    unfold highest.
    assert (M : forall a b (Q : R -> Prop), Q a -> Q b -> Q (Rmax a b)) by (intros a b Q Ha Hb; unfold Rmax; destruct (Rle_dec a b); auto).
    repeat (apply (M _ _ (fun x => exists k, In k D8' /\ x = offered P depth stage i j k));
      [eexists; split; [|reflexivity]; cbn [D8' In]; tauto|]).
    eexists; split; [|reflexivity]; cbn [D8' In]; tauto.
  Qed.

  Section Cell.
    Context (depth eta stage : grid R) (i j : Z) (Hi : inb L W i j).
    Context (Hz : forall a b, inb L W a b -> (0 <= stage a b)%R /\ (0 <= stage a b + c)%R).

    Lemma wet_in k : wet_at P depth i j k = true -> inb L W (nb_row i k) (nb_col j k).
    Proof. unfold wet_at, is_wet. intros E. apply andb_prop in E as [E _]. apply inbb_spec, E. Qed.
    Lemma highest_zero : existsb (wet_at P depth i j) [0; 1; 2; 3; 5; 6; 7; 8]%nat = true ->
      (0 <= highest P depth stage i j)%R /\ (0 <= highest P depth stage i j + c)%R.
    Proof.
      intros E. apply existsb_exists in E as (k & Hk & E). pose proof (highest_ub depth stage i j k Hk) as Q.
      unfold offered in Q. rewrite E in Q. pose proof (Hz _ _ (wet_in k E)). lra.
    Qed.
    Lemma flooded_zero : (0 <= flooded P depth eta stage i j)%R /\ (0 <= flooded P depth eta stage i j + c)%R.
    Proof.
      unfold flooded. pose proof (Hz i j Hi). destruct (is_wet P depth i j); [auto|]. destruct (existsb _ _) eqn:E; [|auto].
      pose proof (highest_zero E). destruct (Rlt_dec _ _); auto.
    Qed.

    Lemma flooded_up depth' eta' stage' : same L W depth depth' -> higher L W c eta eta' -> higher L W c stage stage' ->
      flooded P depth' eta' stage' i j = (flooded P depth eta stage i j + c)%R.
    Proof.
      intros Hd He Hs.
      assert (Hw : forall a b, is_wet P depth' a b = is_wet P depth a b).
      { intros a b. unfold is_wet. destruct (inbb L W a b) eqn:E; auto. apply inbb_spec in E. rewrite (Hd a b E). reflexivity. }
      assert (Hwk : forall k, wet_at P depth' i j k = wet_at P depth i j k) by (intros k; apply Hw).
      assert (Hok : forall k, offered P depth' stage' i j k = if wet_at P depth i j k then (offered P depth stage i j k + c)%R else 0%R).
      { intros k. unfold offered. rewrite Hwk. destruct (wet_at P depth i j k) eqn:E; auto. apply Hs, wet_in, E. }
      assert (Ho0 : forall k, wet_at P depth i j k = false -> offered P depth stage i j k = 0%R) by (intros k E; unfold offered; rewrite E; reflexivity).
      unfold flooded. rewrite Hw.
      replace (existsb (wet_at P depth' i j) [0; 1; 2; 3; 5; 6; 7; 8]%nat) with (existsb (wet_at P depth i j) [0; 1; 2; 3; 5; 6; 7; 8]%nat)
        by (cbn [existsb]; rewrite !Hwk; reflexivity).
      rewrite (Hs i j Hi), (He i j Hi).
      destruct (is_wet P depth i j) eqn:Ew; [reflexivity|]. destruct (existsb _ _) eqn:Ex; [|reflexivity].
      destruct (highest_zero Ex) as [Z1 Z2].
      assert (E : highest P depth' stage' i j = (highest P depth stage i j + c)%R).
      { apply Rle_antisym.
        - apply highest_lub. intros k Hk. rewrite Hok. pose proof (highest_ub depth stage i j k Hk). destruct (wet_at P depth i j k); lra.
        - destruct (highest_at depth stage i j) as (k & Hk & E). pose proof (highest_ub depth' stage' i j k Hk) as Q. rewrite Hok in Q.
          destruct (wet_at P depth i j k) eqn:Ek; [lra|]. rewrite (Ho0 k Ek) in E.
          apply existsb_exists in Ex as (k0 & Hk0 & Ex). pose proof (highest_ub depth stage i j k0 Hk0) as Q0.
          pose proof (highest_ub depth' stage' i j k0 Hk0) as Q0'. rewrite Hok, Ex in Q0'. unfold offered in Q0, Q0'. rewrite Ex in Q0, Q0'.
          pose proof (Hz _ _ (wet_in k0 Ex)). lra. }
      rewrite E. destruct (Rlt_dec _ _), (Rlt_dec _ _); lra.
    Qed.
  End Cell.

  Lemma flooding_up depth depth' eta eta' stage stage' : 2 <= L -> 2 <= W ->
    same L W depth depth' -> higher L W c eta eta' -> higher L W c stage stage' ->
    (forall i j, inb L W i j -> (0 <= stage i j)%R /\ (0 <= stage i j + c)%R) ->
    higher L W c (flooding_correction (A:=XA) P depth eta stage) (flooding_correction (A:=XA) P depth' eta' stage').
  Proof.
    intros HL HW Hd He Hs Hz i j Hi. rewrite !(flooding_formula P) by auto. apply flooded_up; auto.
  Qed.
End Flood.

(** ** A turn of water routing *)
Section Turn.
  Context {S : Type} {G : Rng R S} (c : R) (P : params R).
  Notation L := (p_L P).
  Notation W := (p_W P).
  Context (HL : 2 <= L) (HW : 2 <= W).

  Context (Hav : averages P).

  Lemma bounded (H : grid R) : exists M, forall i j, inb L W i j -> (H i j <= M)%R.
  Proof.
    assert (E : exists M, forall x, In x (cells L W) -> (H (fst x) (snd x) <= M)%R).
    { induction (cells L W) as [|[a b] l [M IH]]; [exists 0%R; intros x []|]. exists (Rmax (H a b) M).
      intros x [<-|Hx]; [apply Rmax_l|]. eapply Rle_trans; [apply IH, Hx|apply Rmax_r]. }
    destruct E as [M E]. exists M. intros i j Hi. apply (E (i, j)), cells_In, Hi.
  Qed.

  Lemma smooth_low ct n (H : grid R) m : (forall i j, inb L W i j -> (m <= H i j)%R) ->
    forall i j, inb L W i j -> (m <= smooth_passes (A:=XA) P (p_Csmooth P) ct n H i j)%R.
  Proof.
    intros Hm i j Hi. destruct (bounded H) as [M HM].
    apply (smooth_bounds P (p_Csmooth P) ct m M (proj2 Hav) n H); auto.
  Qed.

  Lemma blend_low (st : state R S) h ct (z : R) : (0 <= s_H_SL st + z)%R -> (forall i j, inb L W i j -> (0 <= s_stage st i j + z)%R) ->
    (forall i j, inb L W i j -> (s_H_SL st <= h i j)%R) ->
    forall i j, inb L W i j -> (0 <= fadd (Arith:=XA) (fmul (Arith:=XA) (fsub (Arith:=XA) (fz (Arith:=XA) 1) (p_omega_sfc P)) (s_stage st i j))
      (fmul (Arith:=XA) (p_omega_sfc P) (smooth_free_surface (A:=XA) P h ct (p_Nsmooth P) (p_Csmooth P) i j)) + z)%R.
  Proof.
    intros Hs Hst Hh i j Hi. unfold smooth_free_surface.
    pose proof (smooth_low ct (Z.to_nat (p_Nsmooth P)) h (s_H_SL st) Hh i j Hi) as Q.
    set (x := smooth_passes _ _ _ _ _ i j) in *. specialize (Hst i j Hi). destruct Hav as [Ho _]. ra. nra.
  Qed.

  Lemma free_surface_up ps (st st' : state R S) : raised c P st st' -> levels_above_zero c P st ->
    alike (fun x x' => raised c P x x' /\ levels_above_zero c P x) (compute_free_surface (A:=XA) P ps st) (compute_free_surface (A:=XA) P ps st').
  Proof.
    intros Hm [[Z1 Z2] Hz]. unfold compute_free_surface. eapply alike_bind.
    { apply (accumulate_up c P st st' ps Hm). split; intros i j Hi; cbn [fst snd]; [reflexivity|ra; ring]. }
    intros [v t] [v' t'] _ [Hv Ht]. cbn [fst snd] in *. rewrite !gmemo_id.
    set (h := fun i j => hnew_cell (A:=XA) (s_eta st i j) _ _ _ _).
    set (h' := fun i j => hnew_cell (A:=XA) (s_eta st' i j) _ _ _ _).
    assert (Hh : higher L W c h h').
    { intros i j Hi. unfold h, h'. rewrite (up_eta _ _ _ _ Hm i j Hi), (up_depth _ _ _ _ Hm i j Hi), (Hv i j Hi), (Ht i j Hi), (up_H_SL _ _ _ _ Hm).
      apply hnew_up. }
    assert (Hl : forall i j, (s_H_SL st <= h i j)%R) by (intros i j; unfold h; apply (hnew_bounds (fun x => x))).
    clearbody h h'. cbn [alike].
    assert (Hm1 : raised c P (set_sfc_visit v (set_sfc_sum t (set_Hnew h st))) (set_sfc_visit v' (set_sfc_sum t' (set_Hnew h' st')))).
    { apply us_walks; auto. apply us_Hnew; auto. }
    change (s_H_SL st) with (s_H_SL (set_sfc_visit v (set_sfc_sum t (set_Hnew h st)))) in *.
    change (s_stage st) with (s_stage (set_sfc_visit v (set_sfc_sum t (set_Hnew h st)))) in Hz.
    set (sa := set_sfc_visit v _) in *. set (sa' := set_sfc_visit v' _) in *. clearbody sa sa'. clear Hm.
    assert (Hsm : higher L W c (smooth_free_surface (A:=XA) P h (s_cell_type sa) (p_Nsmooth P) (p_Csmooth P))
       (smooth_free_surface (A:=XA) P h' (s_cell_type sa') (p_Nsmooth P) (p_Csmooth P)))
      by (apply smooth_up; auto; apply Hm1).
    rewrite ?gmemo_id, (up_time_iter _ _ _ _ Hm1).
    set (f := if 0 <? s_time_iter sa then _ else s_stage sa). set (f' := if 0 <? s_time_iter sa then _ else s_stage sa').
    assert (Hf : higher L W c f f').
    { unfold f, f'. destruct (0 <? s_time_iter sa); [|apply Hm1].
      intros i j Hi. rewrite (Hsm i j Hi), (up_stage _ _ _ _ Hm1 i j Hi). ra. ring. }
    assert (Hf0 : forall i j, inb L W i j -> (0 <= f i j)%R /\ (0 <= f i j + c)%R).
    { intros i j Hi. unfold f. destruct (0 <? s_time_iter sa); [|apply Hz, Hi]. split.
      - rewrite <- Rplus_0_r. apply blend_low; auto; [lra|]. intros a b Hab. rewrite Rplus_0_r. apply Hz, Hab.
      - apply blend_low; auto. intros a b Hab. apply Hz, Hab. }
    clearbody f f'. split.
    - apply us_stage; auto. apply flooding_up; auto; apply Hm1.
    - split; [split; auto|]. intros i j Hi. cbn [s_stage set_stage]. rewrite (flooding_formula P) by auto. apply flooded_zero; auto.
  Qed.

  Lemma flow_up it (st st' : state R S) : raised c P st st' ->
    raised c P (update_flow_field (A:=XA) P it st) (update_flow_field (A:=XA) P it st').
  Proof.
    intros Hm. unfold update_flow_field. rewrite !gmemo_id, (up_time_iter _ _ _ _ Hm).
    set (om := if it =? 0 then _ else _).
    apply us_qxn; [apply us_qyn; [apply us_qx; [apply us_qy; [apply us_qw; [exact Hm|]|]|]|]|]; intros i j Hi;
      rewrite ?(up_qxn _ _ _ _ Hm i j Hi), ?(up_qyn _ _ _ _ Hm i j Hi), ?(up_qwn _ _ _ _ Hm i j Hi), ?(up_qx _ _ _ _ Hm i j Hi), ?(up_qy _ _ _ _ Hm i j Hi);
      reflexivity.
  Qed.

  Lemma velocity_up (st st' : state R S) : raised c P st st' ->
    raised c P (update_velocity_field (A:=XA) P st) (update_velocity_field (A:=XA) P st').
  Proof.
    intros Hm. unfold update_velocity_field. rewrite !gmemo_id.
    apply us_uw; [apply us_ux; [apply us_uy; [exact Hm|]|]|]; intros i j Hi;
      rewrite (up_depth _ _ _ _ Hm i j Hi), (up_qw _ _ _ _ Hm i j Hi), (up_qx _ _ _ _ Hm i j Hi), (up_qy _ _ _ _ Hm i j Hi); reflexivity.
  Qed.

  Lemma levels_depth_up (st st' : state R S) : raised c P st st' ->
    raised c P (set_depth (gmemo L W (fun i j => npmax (A:=XA) (fsub (Arith:=XA) (s_stage st i j) (s_eta st i j)) (fz (Arith:=XA) 0))) st)
      (set_depth (gmemo L W (fun i j => npmax (A:=XA) (fsub (Arith:=XA) (s_stage st' i j) (s_eta st' i j)) (fz (Arith:=XA) 0))) st').
  Proof.
    intros Hm. apply us_depth; auto. intros i j Hi. rewrite !gmemo_id, (up_stage _ _ _ _ Hm i j Hi), (up_eta _ _ _ _ Hm i j Hi).
    f_equal. ra. ring.
  Qed.
  Lemma levels_stage_up (st st' : state R S) : raised c P st st' ->
    raised c P (set_stage (gmemo L W (fun i j => npmax (A:=XA) (s_stage st i j) (s_H_SL st))) st)
      (set_stage (gmemo L W (fun i j => npmax (A:=XA) (s_stage st' i j) (s_H_SL st'))) st').
  Proof.
    intros Hm. apply us_stage; auto. intros i j Hi. rewrite !gmemo_id, (up_stage _ _ _ _ Hm i j Hi), (up_H_SL _ _ _ _ Hm), !npmax_R.
    unfold Rmax. repeat destruct (Rle_dec _ _); lra.
  Qed.

  Lemma finalize_up it (st st' : state R S) : raised c P st st' ->
    raised c P (finalize_water_iteration (A:=XA) P it st) (finalize_water_iteration (A:=XA) P it st').
  Proof.
    intros Hm. unfold finalize_water_iteration.
    pose proof (levels_stage_up _ _ Hm) as Hm1. set (s1 := set_stage _ st) in *. set (s1' := set_stage _ st') in *. clearbody s1 s1'.
    pose proof (levels_depth_up _ _ Hm1) as Hm2. set (s2 := set_depth _ s1) in *. set (s2' := set_depth _ s1') in *. clearbody s2 s2'.
    apply velocity_up, flow_up, Hm2.
  Qed.

  Lemma iteration_up it (st st' : state R S) : raised c P st st' -> levels_above_zero c P st ->
    alike (fun x x' => raised c P x x' /\ levels_above_zero c P x) (water_iteration (A:=XA) P it st) (water_iteration (A:=XA) P it st').
  Proof.
    intros Hm Hz. unfold water_iteration. rewrite (run_up c P ltac:(lia) _ _ Hm).
    destruct (run_water_iteration P st) as [[[[ps [[qx qy] qw]] width] s]|]; [|reflexivity]. cbn [rbind].
    eapply alike_bind.
    - apply free_surface_up; [|exact Hz].
      apply us_width, us_rng, us_qxn; [apply us_qyn; [apply us_qwn; [exact Hm|]|]|]; intros i j Hi; reflexivity.
    - intros x x' _ [Hx [Z1 Z2]]. cbn [alike]. split; [apply finalize_up, Hx|].
      split; [exact Z1|]. intros i j Hi.
      change (s_stage (finalize_water_iteration (A:=XA) P it x) i j) with (gmemo L W (fun i j => npmax (A:=XA) (s_stage x i j) (s_H_SL x)) i j).
      rewrite gmemo_id, npmax_R. pose proof (Z2 i j Hi). pose proof (Rmax_l (s_stage x i j) (s_H_SL x)). lra.
  Qed.

  Lemma iterations_up n : forall it (st st' : state R S), raised c P st st' -> levels_above_zero c P st ->
    alike (fun x x' => raised c P x x' /\ levels_above_zero c P x) (water_iterations (A:=XA) P n it st) (water_iterations (A:=XA) P n it st').
  Proof.
    induction n as [|n IH]; intros it st st' Hm Hz; cbn [water_iterations]; [split; auto|].
    eapply alike_bind; [apply iteration_up; eassumption|]. intros x x' E [Hx Hx2]. apply IH; auto.
  Qed.
  Lemma route_water_up (st st' : state R S) : raised c P st st' -> levels_above_zero c P st ->
    alike (fun x x' => raised c P x x' /\ levels_above_zero c P x) (route_water (A:=XA) P st) (route_water (A:=XA) P st').
  Proof. apply iterations_up. Qed.
End Turn.
