(** Sediment routing weights and walks: proofs for C19 and C24. *)
From Coq Require Import ZArith List Bool Reals Lra Lia.
From Verif Require Import Base RLemmas Shared SharedSpec SharedProofs Params State Sed
  VecLemmas WaterSpec WeightProofs SedSpec.
From Verif Require Import Water WalkProofs RunProofs.
Import ListNotations.
Local Open Scope R_scope.

Section Weights.
  Context (rnd : R -> R) {HR : Rounding rnd}.
  Notation A := (RA rnd).

  Lemma rnd_pos_16 x : 1 / 16 <= x -> 0 < rnd x.
  Proof. intros H. apply Rlt_le_trans with (rnd (1/16)); [rewrite rnd_16th; lra|]. apply rnd_mono; auto. Qed.

  Lemma sqrt2_bounds : 1 <= sqrt 2 <= 2.
  Proof.
    split.
    - rewrite <- sqrt_1 at 1. apply sqrt_le_1; lra.
    - apply Rsqr_incr_0_var; [|lra]. rewrite Rsqr_sqrt by lra. unfold Rsqr. lra.
  Qed.

  Lemma distances_bounds k : (k < 9)%nat -> 1 <= distances_flat (A:=A) k <= 2.
  Proof.
    intros Hk. pose proof sqrt2_bounds as [H1 H2].
    assert (Hs : 1 <= rnd (sqrt (rnd 2)) <= 2).
    { rewrite (rnd_small 2) by lia. split.
      - apply rnd_ge_1; auto.
      - apply rnd_le_rep; auto. apply rnd_small; lia. }
    unfold distances_flat. ra. rewrite rnd_1. apply lt9 in Hk.
    decompose [or] Hk; subst k; cbn [nth]; try lra.
  Qed.

  Lemma inv_distance_pos k : (k < 9)%nat -> 0 < rnd (rnd 1 / distances_flat (A:=A) k).
  Proof.
    intros Hk. pose proof (distances_bounds k Hk). rewrite rnd_1. apply rnd_pos_16.
    unfold Rdiv. rewrite !Rmult_1_l. apply Rinv_le_contravar; lra.
  Qed.

  (** Raw weight before masking. *)
  Definition raw_weight (wi dn msw : vec R) (theta : R) : vec R :=
    fun k => rnd (rnd (npow (rnd (dn k * msw k)) theta) * vset wi isctr (rnd 0) k).

  Lemma raw_nonneg wi dn msw theta k : (forall k, (k < 9)%nat -> 0 <= wi k) -> (k < 9)%nat ->
    0 <= raw_weight wi dn msw theta k.
  Proof.
    intros H Hk. unfold raw_weight. apply rnd_nonneg; auto. apply Rmult_le_pos.
    - apply rnd_nonneg; auto. apply npow_nonneg.
    - unfold vset. rewrite rnd_0. destruct (isctr k); [lra|auto].
  Qed.

  Lemma sed_weight_core wi dn ct dry theta msw :
    (forall k, (k < 9)%nat -> 0 <= wi k) ->
    match get_weight_at_cell_sediment (A:=A) wi dn ct dry theta msw with
    | Ok w => (forall k, (k < 9)%nat -> 0 <= w k) /\
        (forall k, ct k = LAND \/ k = 4%nat -> w k = 0) /\
        ((exists k, (k < 9)%nat /\ k <> 4%nat /\ ct k <> LAND /\ dry < dn k
            /\ 0 < raw_weight wi dn msw theta k) ->
         forall k, dn k <= dry \/ raw_weight wi dn msw theta k = 0 -> w k = 0)
    | Err e => e = RuntimeError /\ forall k, (k < 9)%nat -> k <> 4%nat -> ct k = LAND
    end.
  Proof.
    intros Hwi. unfold get_weight_at_cell_sediment. rewrite !vmemo_id, !vanynan_R.
    set (dryv := fun k => fleb (Arith:=A) (dn k) dry). set (wall := fun k => (ct k =? -2)%Z).
    set (v1 := vset (vset _ isctr _) _ _).
    assert (Hv1 : forall k, v1 k = if (dryv k || wall k) then 0 else if isctr k then 0
                                   else raw_weight wi dn msw theta k).
    { intros k. unfold v1, vset, raw_weight, vset. ra. rewrite rnd_0. unfold dryv, wall. ra. destruct (_ || _)%bool; auto. }
    assert (Hv1n : forall k, (k < 9)%nat -> 0 <= v1 k).
    { intros k Hk. rewrite Hv1. destruct (dryv k || wall k); [lra|]. destruct (isctr k); [lra|].
      apply raw_nonneg; auto. }
    assert (Hwall : forall k, wall k = true <-> ct k = LAND).
    { intros k. unfold wall, LAND. apply Z.eqb_eq. }
    ra. rewrite !rnd_0.
    destruct (Reqb_spec (vsum (A:=A) v1) 0) as [E0|E0].
    - (* fallback *)
      match goal with |- context [vset (vset ?f wall 0) isctr 0] =>
        set (v2 := vset (vset f wall 0) isctr 0) end.
      assert (Hv2 : forall k, (k < 9)%nat -> 0 <= v2 k).
      { intros k Hk. unfold v2, vset. destruct (isctr k); [lra|]. destruct (wall k); [lra|].
        left. apply inv_distance_pos; auto. }
      destruct (Reqb_spec (vsum (A:=A) v2) 0) as [E2|E2].
      + split; auto. intros k Hk H4. destruct (wall k) eqn:Ew; [apply Hwall; auto|].
        exfalso. pose proof (vsum_ge_elt rnd v2 k Hv2 Hk) as Hge. rewrite E2 in Hge.
        assert (0 < rnd (v2 k)); [|lra].
        unfold v2, vset, isctr. rewrite (proj2 (Nat.eqb_neq k 4) H4), Ew. rewrite rnd_idem.
        apply inv_distance_pos; auto.
      + pose proof (vsum_nonneg rnd v2 Hv2) as Hs. split; [|split].
        * intros k Hk. apply rnd_nonneg; auto. apply Rdiv_nonneg; auto.
        * intros k Hk. assert (v2 k = 0) as ->.
          { unfold v2, vset. destruct Hk as [Hk| ->]; [|reflexivity].
            apply Hwall in Hk. rewrite Hk. destruct (isctr k); auto. }
          unfold Rdiv. rewrite Rmult_0_l. apply rnd_0.
        * intros (k & Hk & H4 & Hl & Hd & Hr). exfalso.
          pose proof (vsum_ge_elt rnd v1 k Hv1n Hk) as Hge. rewrite E0 in Hge.
          rewrite Hv1 in Hge. unfold dryv in Hge. ra_in Hge.
          rewrite (proj2 (Rleb_false (dn k) dry) Hd) in Hge.
          assert (Ew : wall k = false). { destruct (wall k) eqn:E; auto. apply Hwall in E. contradiction. }
          rewrite Ew in Hge. unfold isctr in Hge. rewrite (proj2 (Nat.eqb_neq k 4) H4) in Hge. cbn [orb] in Hge.
          unfold raw_weight in Hge, Hr. rewrite rnd_idem in Hge. lra.
    - match goal with |- context [vset v1 isctr 0] => set (v2 := vset v1 isctr 0) end.
      assert (Hv2 : forall k, v2 k = v1 k).
      { intros k. unfold v2, vset. rewrite Hv1. destruct (isctr k), (dryv k || wall k); auto. }
      assert (Hv2n : forall k, (k < 9)%nat -> 0 <= v2 k) by (intros; rewrite Hv2; auto).
      assert (Es : vsum (A:=A) v2 = vsum (A:=A) v1).
      { unfold vsum. cbn [D9 seq fold_left]. rewrite !Hv2. reflexivity. }
      rewrite Es. destruct (Reqb_spec (vsum (A:=A) v1) 0) as [E2|E2]; [contradiction|].
      pose proof (vsum_nonneg rnd v1 Hv1n) as Hs.
      assert (Hz : forall k, v1 k = 0 -> rnd (v2 k / vsum (A:=A) v1) = 0).
      { intros k Hk. rewrite Hv2, Hk. unfold Rdiv. rewrite Rmult_0_l. apply rnd_0. }
      split; [|split].
      + intros k Hk. apply rnd_nonneg; auto. apply Rdiv_nonneg; auto.
      + intros k Hk. apply Hz. rewrite Hv1. destruct Hk as [Hk| ->].
        * apply Hwall in Hk. rewrite Hk, orb_true_r. reflexivity.
        * destruct (dryv 4%nat || wall 4%nat); reflexivity.
      + intros _ k Hk. apply Hz. rewrite Hv1. destruct Hk as [Hk|Hk].
        * unfold dryv. ra. apply Rleb_true in Hk. rewrite Hk. reflexivity.
        * destruct (dryv k || wall k), (isctr k); auto.
  Qed.
End Weights.

Section WeightsExact.
  Notation XA := (RA (fun x => x)).
  Lemma sed_weight_sum wi dn ct dry theta msw w :
    get_weight_at_cell_sediment (A:=XA) wi dn ct dry theta msw = Ok w -> sum9 w = 1.
  Proof.
    unfold get_weight_at_cell_sediment. rewrite !vmemo_id, !vanynan_R. ra.
    match goal with |- context [Reqb (vsum ?v) 0] =>
      match v with vset (if _ then _ else _) _ _ => set (v2 := v) end end.
    destruct (Reqb_spec (vsum (A:=XA) v2) 0) as [E|E]; [discriminate|].
    intros H. injection H as <-.
    change (vsum (A:=XA) v2) with (vsum (A:=RX) v2) in *. rewrite vsum_X in *.
    rewrite sum9_div. field. exact E.
  Qed.
End WeightsExact.

(** ** Steps *)
Section Steps.
  Context (rnd : R -> R) {HR : Rounding rnd}.
  Notation A := (RA rnd).
  Context {S : Type} {G : Rng R S} (P : params R).
  Notation L := (p_L P).
  Notation W := (p_W P).

  Lemma nonfinite_R (v : vec R) : existsb (fun k => nonfinite (A:=A) (v k)) D9 = false.
  Proof. reflexivity. Qed.

  Lemma sed_weights_unfold g (st : state R S) b px py :
    sed_weights (A:=A) P g st b px py
    = get_weight_at_cell_sediment (A:=A) (get_weight_int (A:=A) (s_qx st px py) (s_qy st px py))
        (window (b_pad_depth b) px py) (window (custom_pad 0%Z L W (s_cell_type st)) px py)
        (p_dry_depth P) (theta_of P g)
        (window (custom_pad (fz (Arith:=A) 0) L W (s_mod_sed_weight st)) px py).
  Proof. unfold sed_weights. rewrite !vmemo_id, vanynan_R. reflexivity. Qed.

  (** Weights of a cell with a non-land neighbour. *)
  Lemma sed_weights_ok g (st : state R S) b i j : inb L W i j ->
    match sed_weights (A:=A) P g st b i j with
    | Ok w => (forall k, (k < 9)%nat -> 0 <= w k) /\
        (forall k, (k < 9)%nat -> at_nb L W (s_cell_type st) i j k = LAND \/ k = 4%nat -> w k = 0)
    | Err e => e = RuntimeError /\
        forall k, (k < 9)%nat -> k <> 4%nat -> at_nb L W (s_cell_type st) i j k = LAND
    end.
  Proof.
    intros Hin. rewrite sed_weights_unfold.
    pose proof (sed_weight_core rnd
      (get_weight_int (A:=A) (s_qx st i j) (s_qy st i j)) (window (b_pad_depth b) i j)
      (window (custom_pad 0%Z L W (s_cell_type st)) i j) (p_dry_depth P) (theta_of P g)
      (window (custom_pad (fz (Arith:=A) 0) L W (s_mod_sed_weight st)) i j)
      (fun k _ => weight_int_nonneg rnd _ _ k)) as H.
    destruct (get_weight_at_cell_sediment _ _ _ _ _ _) as [w|e].
    - destruct H as (H1 & H2 & _). split; auto. intros k Hk Hl. apply H2.
      rewrite pad_window by auto. exact Hl.
    - destruct H as [H1 H2]. split; auto. intros k Hk H4. specialize (H2 k Hk H4).
      rewrite pad_window in H2 by auto. exact H2.
  Qed.

  Lemma nth_D9 (w : vec R) k : (k < 9)%nat -> nth k (map w D9) 0 = w k.
  Proof. intros Hk. apply lt9 in Hk. decompose [or] Hk; subst; reflexivity. Qed.

  Lemma nonneg_D9 (w : vec R) : (forall k, (k < 9)%nat -> 0 <= w k) -> Forall (fun x => 0 <= x) (map w D9).
  Proof.
    intros H. apply Forall_forall. intros x Hx. apply in_map_iff in Hx as (k & <- & Hk).
    apply H. apply D9_In; auto.
  Qed.

  Lemma get_steps_nb k : (k < 9)%nat -> forall i j,
    let '(dist, istep, jstep, _) := get_steps (A:=A) k in
    (i + jstep = nb_row i k /\ j + istep = nb_col j k)%Z /\
    (fltb (Arith:=A) (fz (Arith:=A) 0) dist = negb (Nat.eqb k 4)).
  Proof.
    intros Hk i j. pose proof (astep_spec rnd k Hk) as Ha. unfold get_steps in *. cbn [snd] in Ha.
    split.
    - apply lt9 in Hk. unfold nb_row, nb_col.
      decompose [or] Hk; subst k; cbn; lia.
    - rewrite <- Ha. ra. rewrite rnd_0.
      match goal with |- Rltb 0 ?d = _ => set (d' := d) end.
      assert (0 <= d') by (apply rnd_nonneg; auto; apply sqrt_pos).
      destruct (Rltb_spec 0 d'), (Reqb_spec d' 0); cbn; auto; lra.
  Qed.

  Lemma cell_ix_in i j : inb L W i j -> cell_ix P i j = Ok (i, j).
  Proof.
    intros [Hi Hj]. unfold cell_ix, wrap.
    destruct (Z.ltb_spec i 0); [lia|]. destruct (Z.ltb_spec j 0); [lia|].
    rewrite (proj2 (inbb_spec L W i j)); [reflexivity|split; auto].
  Qed.
  Lemma cell_ix_up j : (1 <= L)%Z -> (0 <= j < W)%Z -> cell_ix P (-1) j = Ok ((L - 1)%Z, j).
  Proof.
    intros HL Hj. unfold cell_ix, wrap. cbn [Z.ltb Z.compare].
    destruct (Z.ltb_spec j 0); [lia|]. replace (-1 + L)%Z with (L - 1)%Z by lia.
    rewrite (proj2 (inbb_spec L W (L - 1) j)); [reflexivity|]. split; lia.
  Qed.

  Context (g : grain) (st : state R S) (HS : sed_ready P st).

  Lemma no_zero_divisor b i j : divisors_ok rnd P -> zero_divisor (A:=A) P g st b i j = false.
  Proof.
    intros HD. unfold zero_divisor. cbn zeta.
    assert (Hv : forall x, x <> 0 -> Reqb x (rnd 0) = false).
    { intros x Hx. rewrite (rnd_0 (rnd:=rnd)). destruct (Reqb_spec x 0); auto. contradiction. }
    cbn [feqb fmul fpow fz RA]. rewrite (Hv _ (dv_area _ _ HD)), (Hv _ (dv_u0 _ _ HD)),
      (Hv _ (dv_ero_sand _ _ HD)), (Hv _ (dv_ero_mud _ _ HD)), (Hv _ (dv_dep_mud _ _ HD)).
    destruct g; cbn [orb]; rewrite !andb_false_r; reflexivity.
  Qed.
  Lemma has_flux_scale : divisors_ok rnd P -> no_flux_scale (A:=A) P g = false.
  Proof.
    intros HD. unfold no_flux_scale. destruct g; auto. cbn [feqb fz RA]. rewrite (rnd_0 (rnd:=rnd)).
    destruct (Reqb_spec (p_dt P) 0) as [E|_]; [destruct (dv_dt _ _ HD E)|].
    destruct (Reqb_spec (p_dx P) 0) as [E|_]; [destruct (dv_dx _ _ HD E)|]. reflexivity.
  Qed.
  Notation ct := (s_cell_type st).
  Let WD := sd_domain P st HS.

  (** Where a parcel stands between steps. *)
  Definition on_bed (i j : Z) : Prop := inb L W i j /\ ct i j <> LAND /\ ct i j <> EDGE.

  Lemma nb_cases i j k : on_bed i j -> (k < 9)%nat ->
    inb L W (nb_row i k) (nb_col j k) \/
    (i = 0%Z /\ nb_row i k = (-1)%Z /\ (0 <= nb_col j k < W)%Z).
  Proof.
    intros (Hin & Hl & He) Hk. pose proof (wd_interior _ _ _ _ _ WD i j Hin Hl He) as [Hi Hj].
    destruct Hin as [Hi' Hj'].
    assert (Hc : (0 <= nb_col j k < W)%Z).
    { unfold nb_col. pose proof (Z.mod_pos_bound (Z.of_nat k) 3 ltac:(lia)). lia. }
    assert (Hr : (i - 1 <= nb_row i k <= i + 1)%Z).
    { unfold nb_row. assert (0 <= Z.of_nat k / 3 <= 2)%Z; [|lia].
      split; [apply Z.div_pos; lia|]. apply Z.lt_succ_r. apply Z.div_lt_upper_bound; lia. }
    destruct (Z.eq_dec (nb_row i k) (-1)) as [E|E].
    - right. repeat split; auto; lia.
    - left. split; lia.
  Qed.

  Lemma nb_in_nearest {T} (f : grid T) i j k : inb L W (nb_row i k) (nb_col j k) ->
    at_nb L W f i j k = f (nb_row i k) (nb_col j k).
  Proof. intros H. unfold at_nb. apply nearest_in; auto. Qed.

  (** One turn of the loop. *)
  Lemma sed_step_ok b V i j s : divisors_ok rnd P -> uniform_range G -> sed_picks rnd P g st -> on_bed i j ->
    exists e s', ev_i0 e = i /\ ev_j0 e = j /\ stop rnd P g st b V e /\
      sed_step (A:=A) P g st b V i j s
        = Ok (ev_px e, ev_py e, ev_b' e, rnd (V - ev_dV e), s') /\
      cell_ix P (ev_px e) (ev_py e) = Ok (ev_i e, ev_j e) /\
      (ct (ev_i e) (ev_j e) <> EDGE -> on_bed (ev_px e) (ev_py e)).
  Proof.
    intros HD HG Hp Hb. pose proof Hb as (Hin & Hl & He).
    unfold sed_step, choose_next_location. rewrite (proj2 (inbb_spec L W i j) Hin).
    pose proof (sed_weights_ok g st b i j Hin) as Hw.
    destruct (sed_weights P g st b i j) as [w|er] eqn:Ew.
    2:{ exfalso. destruct Hw as [_ Hw]. destruct (sd_open P st HS i j Hin Hl He) as (k & Hk & H4 & Hn).
        apply Hn. apply Hw; auto. }
    destruct Hw as [Hw0 Hwz]. cbn [rbind].
    destruct (random_pick_pos rnd (map w D9) s HG (nonneg_D9 w Hw0)) as (k & s' & wk & Epick & Hnth & Hpos).
    { apply (Hp b i j w s); auto. }
    rewrite Epick. cbn [rbind].
    assert (Hk : (k < 9)%nat).
    { change 9%nat with (List.length (map w D9)). apply nth_error_Some. rewrite Hnth. discriminate. }
    apply (nth_error_nth _ _ 0) in Hnth. rewrite nth_D9 in Hnth by auto. subst wk.
    assert (H4 : k <> 4%nat). { intros ->. rewrite (Hwz 4%nat) in Hpos; auto; lra. }
    assert (Hnl : at_nb L W ct i j k <> LAND).
    { intros E. rewrite (Hwz k Hk) in Hpos; auto; lra. }
    pose proof (get_steps_nb k Hk i j) as Hst.
    destruct (get_steps k) as [[[dist istep] jstep] ast]. destruct Hst as [[-> ->] Hd].
    rewrite (cell_ix_in i j Hin). cbn [rbind].
    set (px := nb_row i k). set (py := nb_col j k).
    assert (Hcell : exists a c, cell_ix P px py = Ok (a, c) /\ a = wrap L px /\ c = wrap W py /\ inb L W a c
              /\ (ct a c <> EDGE -> on_bed px py)).
    { destruct (nb_cases i j k Hb Hk) as [Hn|(Hi0 & Hr & Hc)].
      - exists px, py. rewrite cell_ix_in by exact Hn. split; auto.
        unfold wrap. destruct Hn as [Hn1 Hn2]. fold px py in Hn1, Hn2.
        destruct (Z.ltb_spec px 0); [lia|]. destruct (Z.ltb_spec py 0); [lia|].
        repeat split; auto; try lia. rewrite nb_in_nearest in Hnl by (split; auto). auto.
      - assert (1 <= L)%Z by (destruct Hin; lia).
        exists (L - 1)%Z, py. unfold px, py. rewrite Hr, cell_ix_up by auto. split; auto.
        unfold wrap. cbn [Z.ltb Z.compare]. destruct (Z.ltb_spec (nb_col j k) 0); [lia|].
        split; [lia|]. split; [reflexivity|]. split; [split; lia|].
        intros Hne. exfalso. apply Hne. apply (wd_last _ _ _ _ _ WD); auto. }
    destruct Hcell as (a & c & Ec & Ea & Ecc & Hac & Hedge). rewrite Ec. cbn [rbind].
    assert (Epart : match g with Sand => partition_sediment (A:=A) P b V i j a c dist | Mud => b end
       = match g with
         | Sand => set_qs_bed b (add_at (A:=A) (add_at (A:=A) (b_qs b) i j (flux_part (A:=A) P V)) a c (flux_part (A:=A) P V))
         | Mud => b end).
    { destruct g; auto. unfold partition_sediment. rewrite Hd.
      rewrite (proj2 (Nat.eqb_neq k 4) H4). reflexivity. }
    rewrite Epart.
    set (b1 := match g with Sand => _ | Mud => b end).
    rewrite (no_zero_divisor b1 a c HD).
    exists (mkEvent i j px py a c V (volume_change rnd P g st b1 V a c) b1
             (fst (deposit_or_erode (A:=A) P g st b1 V px py a c))), s'.
    cbn [ev_i0 ev_j0 ev_px ev_py ev_i ev_j ev_V ev_dV ev_b ev_b'].
    split; auto. split; auto. split.
    - constructor; cbn [ev_i0 ev_j0 ev_px ev_py ev_i ev_j ev_V ev_dV ev_b ev_b']; auto.
      exists w, k. repeat split; auto.
    - split; [|split; auto]. unfold deposit_or_erode, volume_change. destruct g; reflexivity.
  Qed.

  Lemma route_one_ok fuel : forall b V i j s, (0 < fuel)%nat -> divisors_ok rnd P -> uniform_range G -> sed_picks rnd P g st ->
    on_bed i j ->
    exists es b' V' s', route_one_parcel (A:=A) P g st fuel b V i j s = Ok (b', V', s') /\
      sed_walk rnd P g st fuel i j b V es b' V'.
  Proof.
    induction fuel as [|n IH]; intros b V i j s Hf HD HG Hp Hb; [lia|].
    cbn [route_one_parcel].
    destruct (sed_step_ok b V i j s HD HG Hp Hb) as (e & s' & E1 & E2 & Hst & Es & Ec & Hon).
    rewrite Es. cbn [rbind]. rewrite Ec. cbn [rbind].
    destruct (Z.eqb_spec (ct (ev_i e) (ev_j e)) (-1)) as [Ee|Ee]; cbn [orb].
    - exists [e], (ev_b' e), (rnd (V - ev_dV e)), s'. split; auto. apply sw_last; auto.
    - destruct (Nat.eqb_spec n 0) as [En|En].
      + exists [e], (ev_b' e), (rnd (V - ev_dV e)), s'. split; auto. apply sw_last; auto.
      + destruct (IH (ev_b' e) (rnd (V - ev_dV e)) (ev_px e) (ev_py e) s' ltac:(lia) HD HG Hp (Hon Ee))
          as (es & b' & V' & s'' & Er & Hw).
        exists (e :: es), b', V', s''. split; auto. apply sw_next; auto.
  Qed.

  Lemma route_parcels_ok starts : forall b s, divisors_ok rnd P -> uniform_range G -> sed_picks rnd P g st ->
    Forall (fun c => In c (p_inlet P)) starts ->
    exists hs b' Vs s', route_parcels (A:=A) P g st starts b s = Ok (b', Vs, s') /\
      sed_history rnd P g st starts b hs b' Vs.
  Proof.
    induction starts as [|c cs IH]; intros b s HD HG Hp Hin; cbn [route_parcels].
    - exists [], b, [], s. split; auto. constructor.
    - inversion Hin as [|? ? Hc Hcs]; subst.
      destruct (wd_inlet _ _ _ _ _ WD c Hc) as (Hr & Hl & He).
      assert (Hb : on_bed 0 c).
      { pose proof (wd_L0 _ _ _ _ _ WD). split; [split; lia|auto]. }
      rewrite (cell_ix_in 0 c) by apply Hb. cbn [rbind]. rewrite (has_flux_scale HD).
      pose proof (sd_stepmax P st HS) as Hs.
      change (match g with Sand => set_qs_bed b (add_at (A:=A) (b_qs b) 0 c (flux_part (A:=A) P (p_Vp_sed P)))
                         | Mud => b end) with (entry_bed rnd P g b c).
      destruct (route_one_ok (Z.to_nat (p_stepmax P)) (entry_bed rnd P g b c) (p_Vp_sed P) 0%Z c s
                  ltac:(lia) HD HG Hp Hb) as (es & b1 & V1 & s1 & E1 & Hw).
      rewrite E1. cbn [rbind].
      destruct (IH b1 s1 HD HG Hp Hcs) as (hs & b' & Vs & s' & E2 & Hh). rewrite E2. cbn [rbind].
      exists (es :: hs), b', (V1 :: Vs), s'. split; auto. econstructor; eauto.
  Qed.

  (** Every walk makes legal steps. *)
  Lemma stop_legal b V e : on_bed (ev_i0 e) (ev_j0 e) -> stop rnd P g st b V e ->
    legal_step P st e /\ (ct (ev_i e) (ev_j e) <> EDGE -> on_bed (ev_px e) (ev_py e)).
  Proof.
    intros Hb He. destruct (st_move _ _ _ _ _ _ _ He) as (w & k & Ew & Hk & H4 & Hpos & Ex & Ey).
    destruct (st_cell _ _ _ _ _ _ _ He) as (Ei & Ej & Hin).
    pose proof (sed_weights_ok g st b _ _ (proj1 Hb)) as Hw. rewrite Ew in Hw. destruct Hw as [_ Hz].
    assert (Hnl : at_nb L W ct (ev_i0 e) (ev_j0 e) k <> LAND).
    { intros E. rewrite (Hz k Hk) in Hpos; auto; lra. }
    destruct (nb_cases _ _ k Hb Hk) as [Hn|(Hi0 & Hr & Hc)].
    - rewrite nb_in_nearest in Hnl by auto. rewrite <- Ex, <- Ey in Hn, Hnl.
      assert (E1 : ev_i e = ev_px e).
      { rewrite Ei. unfold wrap. destruct Hn as [Hn _]. destruct (Z.ltb_spec (ev_px e) 0); lia. }
      assert (E2 : ev_j e = ev_py e).
      { rewrite Ej. unfold wrap. destruct Hn as [_ Hn]. destruct (Z.ltb_spec (ev_py e) 0); lia. }
      split.
      + left. split; [|split; [exact Hn|split; [auto|split; [auto|rewrite E1, E2; auto]]]].
        rewrite Ex, Ey. unfold neighbour, nb_row, nb_col. clear - Hk H4. apply lt9 in Hk.
        decompose [or] Hk; subst k; cbn; try contradiction; (split; [lia|intros E; injection E; lia]).
      + intros Hne. rewrite E1, E2 in Hne. repeat split; auto; apply Hn.
    - rewrite <- Ex, <- Ey in *.
      assert (E1 : ev_i e = (L - 1)%Z).
      { rewrite Ei, Hr. unfold wrap. cbn [Z.ltb Z.compare]. lia. }
      assert (E2 : ev_j e = ev_py e).
      { rewrite Ej. unfold wrap. destruct (Z.ltb_spec (ev_py e) 0); lia. }
      split.
      + right. repeat split; auto; try lia. rewrite Ey. unfold nb_col.
        pose proof (Z.mod_pos_bound (Z.of_nat k) 3 ltac:(lia)). lia.
      + intros Hne. exfalso. apply Hne. rewrite E1. apply (wd_last _ _ _ _ _ WD). lia.
  Qed.

  Lemma walk_legal n i j b V es b' V' : sed_walk rnd P g st n i j b V es b' V' -> on_bed i j ->
    Forall (legal_step P st) es /\ (1 <= List.length es <= n)%nat /\
    (exists pre e, es = pre ++ [e] /\
       Forall (fun e => ct (ev_i e) (ev_j e) <> EDGE) pre /\
       (ct (ev_i e) (ev_j e) = EDGE \/ List.length es = n)).
  Proof.
    induction 1 as [n i j b V e E1 E2 Hst Hend|n i j b V e es b' V' E1 E2 Hst Hne Hn Hw IH]; intros Hb.
    - subst i j. destruct (stop_legal b V e Hb Hst) as [Hl _]. split; [constructor; auto|].
      cbn [List.length]. split; [lia|]. exists [], e. repeat split; auto.
      destruct Hend as [H|H]; [auto|right; lia].
    - subst i j. destruct (stop_legal b V e Hb Hst) as [Hl Hon].
      destruct (IH (Hon Hne)) as (H1 & H2 & pre & e' & E & H3 & H4).
      split; [constructor; auto|]. cbn [List.length]. split; [lia|].
      exists (e :: pre), e'. subst es. repeat split; auto.
      destruct H4 as [H4|H4]; [auto|right]. lia.
  Qed.
End Steps.
