(** The routing weights are the routing rule of [WeightSpec]. *)
From Coq Require Import ZArith List Bool Reals Lra Lia.
From Verif Require Import Base RLemmas Shared SharedSpec SharedProofs Params State Water Sed
  VecLemmas WaterSpec WeightProofs SedProofs WeightSpec.
Import ListNotations.
Local Open Scope R_scope.
Notation XA := (RA (fun x => x)).

Lemma sqrt_half : sqrt (1 / 2) = 1 / sqrt 2.
Proof. rewrite sqrt_div by lra. rewrite sqrt_1. reflexivity. Qed.

Lemma sqrt2_pos : 0 < sqrt 2.
Proof. apply sqrt_lt_R0. lra. Qed.

Local Ltac ks H := apply lt9 in H; decompose [or] H; subst; clear H.

Lemma ndist_ok k : (k < 9)%nat -> k <> 4%nat -> distances_flat (A:=XA) k = ndist k.
Proof.
  intros H N. ks H; try (exfalso; lia); unfold distances_flat, ndist, drow, dcol; ra; cbn;
    try (replace (-1 * -1 + -1 * -1) with 2 by lra; reflexivity);
    try (rewrite <- sqrt_1 at 1; f_equal; lra); f_equal; lra.
Qed.

Lemma ndist_pos k : (k < 9)%nat -> k <> 4%nat -> 0 < ndist k.
Proof.
  intros H N. rewrite <- ndist_ok by auto.
  pose proof (distances_bounds (fun x => x) k H). lra.
Qed.

Lemma jvec_ok k : (k < 9)%nat -> k <> 4%nat -> jvec_flat (A:=XA) k = drow k / ndist k.
Proof.
  intros H N. rewrite <- ndist_ok by auto. pose proof sqrt2_pos.
  ks H; try (exfalso; lia); unfold jvec_flat, distances_flat, drow; ra; cbn;
    rewrite ?sqrt_half; field; lra.
Qed.
Lemma ivec_ok k : (k < 9)%nat -> k <> 4%nat -> ivec_flat (A:=XA) k = dcol k / ndist k.
Proof.
  intros H N. rewrite <- ndist_ok by auto. pose proof sqrt2_pos.
  ks H; try (exfalso; lia); unfold ivec_flat, distances_flat, dcol; ra; cbn;
    rewrite ?sqrt_half; field; lra.
Qed.

Lemma slope_ok here sn k : (k < 9)%nat -> k <> 4%nat ->
  get_weight_sfc (A:=XA) here sn k = slope (sn k) here k.
Proof. intros H N. unfold get_weight_sfc, slope. rewrite npmax_R. ra. rewrite ndist_ok by auto. reflexivity. Qed.
Lemma inertia_ok qx qy k : (k < 9)%nat -> k <> 4%nat ->
  get_weight_int (A:=XA) qx qy k = inertia qx qy k.
Proof.
  intros H N. unfold get_weight_int, inertia. rewrite npmax_R. ra.
  rewrite ndist_ok, jvec_ok, ivec_ok by auto. reflexivity.
Qed.

Lemma share_ext v v' k : (forall k, (k < 9)%nat -> v k = v' k) -> (k < 9)%nat -> share v k = share v' k.
Proof. intros H Hk. unfold share. rewrite (sum9_ext v v' H), (H k Hk). reflexivity. Qed.

Lemma rebalance_share v k : (forall k, (k < 9)%nat -> 0 <= v k) -> (k < 9)%nat ->
  rebalance (A:=XA) v k = share v k.
Proof.
  intros H Hk. unfold rebalance, share. rewrite vmemo_id. ra.
  change (vsum (A:=XA) v) with (vsum (A:=RX) v). rewrite vsum_X.
  destruct (Rltb_spec 0 (sum9 v)), (Rlt_dec 0 (sum9 v)); try lra.
  pose proof (sum9_ge v k H Hk). pose proof (H k Hk). lra.
Qed.

Lemma indicator_equal b ok w : (0 < vcount b)%Z ->
  (forall k, (k < 9)%nat -> (b k = true <-> ok k)) ->
  (forall k, w k = vset (fun _ => 0) b (1 / IZR (vcount b)) k / sum9 (vset (fun _ => 0) b (1 / IZR (vcount b)))) ->
  equal_chances ok w.
Proof.
  intros Hc Hb Hw. exists (vcount b). split; [exact Hc|].
  pose proof (indicator_sum b Hc) as Hs. cbn zeta in Hs.
  change (vsum (A:=XA)) with (vsum (A:=RX)) in Hs. rewrite vsum_X in Hs.
  intros k Hk. rewrite Hw, Hs. unfold vset. specialize (Hb k Hk). destruct (b k).
  - split; [intros _; lra|]. intros N. exfalso. apply N, Hb. reflexivity.
  - split; [|intros _; lra]. intros O. apply Hb in O. discriminate.
Qed.

Section Water.
  Context (P : params R) (depth stage mw : grid R) (ct : grid Z) (qx qy : grid R) (i j : Z).
  Hypothesis Hin : inb (p_L P) (p_W P) i j.
  Hypothesis Hg : 0 <= p_gamma P <= 1.
  Local Notation nb g k := (at_nb (p_L P) (p_W P) g i j k).
  Local Notation score := (water_score P depth stage mw ct qx qy i j).
  Local Notation wetk := (wet P depth ct i j).

  Lemma water_formula :
    exists w, water_weight_cell (A:=XA) P depth stage mw ct qx qy i j = Ok w /\
      (0 < sum9 score -> forall k, (k < 9)%nat -> w k = score k / sum9 score) /\
      (sum9 score = 0 -> ct i j = LAND -> forall k, (k < 9)%nat -> w k = 0) /\
      (sum9 score = 0 -> ct i j <> LAND ->
        ((exists k, (k < 9)%nat /\ wet_inside P depth ct i j k) -> equal_chances (wet_inside P depth ct i j) w) /\
        ((forall k, (k < 9)%nat -> ~ wet_inside P depth ct i j k) ->
          equal_chances (fun k => nb ct k <> LAND) w)).
  Proof.
    unfold water_weight_cell. rewrite !vmemo_id.
    unfold get_weight_at_cell_water. rewrite !vanynan_R. cbn [orb].
    set (sfc := get_weight_sfc _ _). set (int := get_weight_int _ _).
    set (dn := window (custom_pad (fz 0) _ _ depth) i j).
    set (mn := window (custom_pad (fz 0) _ _ mw) i j).
    set (cn := window (custom_pad 0%Z _ _ ct) i j).
    assert (Edn : forall k, (k < 9)%nat -> dn k = nb depth k) by (intros; apply pad_window; auto).
    assert (Emn : forall k, (k < 9)%nat -> mn k = nb mw k) by (intros; apply pad_window; auto).
    assert (Ecn : forall k, (k < 9)%nat -> cn k = nb ct k) by (intros; apply pad_window; auto).
    set (dry := fun k => fltb (dn k) (p_dry_depth P)).
    set (wall := fun k => (cn k =? -2)%Z).
    set (dw := fun k => dry k || wall k).
    set (invalid := fun k => wall k || isctr k || ((i =? 0)%Z && Nat.ltb k 3)).
    assert (Hwall : forall k, wall k = true <-> cn k = LAND).
    { intros k. unfold wall, LAND. apply Z.eqb_eq. }
    assert (Hdry : forall k, dry k = true <-> dn k < p_dry_depth P).
    { intros k. unfold dry. ra. apply Rltb_true. }
    assert (Hdw : forall k, (k < 9)%nat -> (k <> 4%nat /\ dw k = false <-> wetk k)).
    { intros k Hk. unfold wet, dw. rewrite <- Edn, <- Ecn by auto.
      destruct (dry k) eqn:E1; destruct (wall k) eqn:E2; cbn.
      - split; [intros [_ C]; discriminate|]. apply Hdry in E1. lra.
      - split; [intros [_ C]; discriminate|]. apply Hdry in E1. lra.
      - split; [intros [_ C]; discriminate|]. apply Hwall in E2. tauto.
      - assert (~ dn k < p_dry_depth P) by (intros C; apply Hdry in C; congruence).
        assert (cn k <> LAND) by (intros C; apply Hwall in C; congruence).
        intuition lra. }
    assert (Hclear : forall v v' k, (forall k, (k < 9)%nat -> k <> 4%nat -> v k = v' k) -> (k < 9)%nat ->
      clear_dirs (A:=XA) v dw k = only wetk (wet_dec P depth ct i j) v' k).
    { intros v v' k Hv Hk. unfold only. destruct (wet_dec P depth ct i j k) as [w|n].
      - apply Hdw in w; [|exact Hk]. unfold clear_dirs, vset, isctr.
        destruct (Nat.eqb_spec k 4); [lia|]. destruct w as [_ ->]. apply Hv; auto.
      - apply (clear_zero (fun x => x)). destruct (Nat.eq_dec k 4); [right; auto|left].
        destruct (dw k) eqn:E; auto. exfalso. apply n. apply Hdw; auto. }
    assert (Hsn : forall k, (k < 9)%nat -> 0 <= clear_dirs (A:=XA) sfc dw k).
    { apply (clear_nonneg (fun x => x)). intros; apply (weight_sfc_nonneg (fun x => x)). }
    assert (Hnn : forall k, (k < 9)%nat -> 0 <= clear_dirs (A:=XA) int dw k).
    { apply (clear_nonneg (fun x => x)). intros; apply (weight_int_nonneg (fun x => x)). }
    assert (Hsfc : forall k, (k < 9)%nat -> rebalance (A:=XA) (clear_dirs (A:=XA) sfc dw) k
        = sfc_share P depth stage ct i j k).
    { intros k Hk. rewrite rebalance_share by auto. unfold sfc_share. apply share_ext; auto.
      intros k' Hk'. apply Hclear; auto. intros k2 Hk2 N2. unfold sfc. rewrite slope_ok by auto.
      rewrite pad_window by auto. reflexivity. }
    assert (Hint : forall k, (k < 9)%nat -> rebalance (A:=XA) (clear_dirs (A:=XA) int dw) k
        = int_share P depth ct qx qy i j k).
    { intros k Hk. rewrite rebalance_share by auto. unfold int_share. apply share_ext; auto.
      intros k' Hk'. apply Hclear; auto. intros k2 Hk2 N2. unfold int. apply inertia_ok; auto. }
    set (cw := combined_weight _ _ _ _ _ _).
    assert (Hcw : forall k, (k < 9)%nat -> cw k = score k).
    { intros k Hk. unfold cw, combined_weight, water_score. rewrite vmemo_id. unfold vset.
      rewrite Hsfc, Hint by auto. ra. unfold isctr. destruct (Nat.eqb_spec k 4) as [->|N].
      - assert (~ wetk 4%nat) by (unfold wet; tauto).
        unfold sfc_share, int_share, share, only. destruct (wet_dec P depth ct i j 4); [contradiction|].
        unfold Rdiv. rewrite !Rmult_0_l. destruct (Rlt_dec _ _), (Rlt_dec _ _); ring.
      - rewrite Edn, Emn by auto. reflexivity. }
    assert (Hcn : forall k, (k < 9)%nat -> 0 <= cw k).
    { intros k Hk. apply (combined_nonneg (fun x => x)); auto.
      - apply (rebalance_nonneg (fun x => x)); auto. - apply (rebalance_nonneg (fun x => x)); auto. }
    assert (Hsum : vsum (A:=XA) cw = sum9 score).
    { change (vsum (A:=XA) cw) with (vsum (A:=RX) cw). rewrite vsum_X. apply sum9_ext; auto. }
    assert (Hpos : 0 <= sum9 score) by (rewrite <- (sum9_ext _ _ Hcw); apply sum9_nonneg; auto).
    ra. rewrite Hsum. destruct (Rltb_spec 0 (sum9 score)) as [Hp|Hp].
    - cbn [rbind]. rewrite vanynan_R. eexists. split; [reflexivity|]. rewrite vmemo_id.
      split; [|split; intros; lra]. intros _ k Hk. rewrite Hcw by auto. reflexivity.
    - destruct (Reqb_spec (sum9 score) 0) as [E0|]; [|lra].
      assert (Hc4 : cn 4%nat = ct i j) by (apply pad_window_centre; auto).
      change (cn 4%nat =? -2)%Z with (wall 4%nat). destruct (wall 4%nat) eqn:E4.
      + cbn [rbind]. rewrite vanynan_R. eexists. split; [reflexivity|].
        apply Hwall in E4. rewrite Hc4 in E4.
        split; [intros; lra|]. split; [auto|]. intros _ C. contradiction.
      + unfold water_fallback. ra.
        set (wv := fun k => negb (dry k) && negb (invalid k)).
        assert (Hwv : forall k, (k < 9)%nat -> (wv k = true <-> wet_inside P depth ct i j k)).
        { intros k Hk. unfold wet_inside. rewrite <- (Hdw k Hk). unfold wv, invalid, dw, isctr.
          destruct (dry k), (wall k), (Nat.eqb_spec k 4), (Z.eqb_spec i 0), (Nat.ltb_spec k 3); cbn;
            split; intros; try discriminate; try (repeat split; auto; lia); intuition (try discriminate; try lia). }
        set (nw := fun k => negb (wall k)).
        assert (Hnw : forall k, (k < 9)%nat -> (nw k = true <-> nb ct k <> LAND)).
        { intros k Hk. unfold nw. rewrite <- Ecn by auto. destruct (wall k) eqn:E.
          - apply Hwall in E. intuition discriminate.
          - split; auto. intros _ C. apply Hwall in C. congruence. }
        assert (HnwP : (0 < vcount nw)%Z).
        { apply vcount_pos. exists 4%nat. split; [lia|]. unfold nw. rewrite E4. reflexivity. }
        assert (NL : ct i j <> LAND) by (rewrite <- Hc4; intros C; apply Hwall in C; congruence).
        change (fun k => negb (dry k) && negb ((cn k =? -2)%Z || isctr k || (i =? 0)%Z && Nat.ltb k 3)) with wv.
        destruct (Z.ltb_spec 0 (vcount wv)) as [Hc|Hc].
        * cbn [rbind]. rewrite vanynan_R. eexists. split; [reflexivity|]. rewrite vmemo_id.
          split; [intros; lra|]. split; [intros _ C; contradiction|]. intros _ _. split.
          -- intros _. apply (indicator_equal wv); auto. intros k.
             change (vsum (A:=XA)) with (vsum (A:=RX)). rewrite vsum_X. reflexivity.
          -- intros N. exfalso. destruct (proj1 (vcount_pos wv) Hc) as (k & Hk & Hb).
             apply (N k Hk). apply Hwv; auto.
        * destruct (Z.ltb_spec 0 (vcount nw)) as [_|]; [|lia].
          cbn [rbind]. rewrite vanynan_R. eexists. split; [reflexivity|]. rewrite vmemo_id.
          split; [intros; lra|]. split; [intros _ C; contradiction|]. intros _ _. split.
          -- intros (k & Hk & O). exfalso. assert (0 < vcount wv)%Z; [|lia].
             apply vcount_pos. exists k. split; auto. apply Hwv; auto.
          -- intros _. apply (indicator_equal nw); auto. intros k.
             change (vsum (A:=XA)) with (vsum (A:=RX)). rewrite vsum_X. reflexivity.
  Qed.
End Water.

Section Sediment.
  Context {S : Type} (P : params R).
  Notation L := (p_L P).
  Notation W := (p_W P).

  Lemma sed_formula g (st : state R S) b i j : inb L W i j ->
    let dn := window (b_pad_depth b) i j in
    let cn := at_nb L W (s_cell_type st) i j in
    let mn := at_nb L W (s_mod_sed_weight st) i j in
    let score := sed_score P dn mn cn (theta_of P g) (s_qx st i j) (s_qy st i j) in
    (0 < sum9 score -> exists w, sed_weights (A:=XA) P g st b i j = Ok w /\
       forall k, (k < 9)%nat -> w k = score k / sum9 score) /\
    (sum9 score = 0 -> (exists k, (k < 9)%nat /\ not_land cn k) ->
       exists w, sed_weights (A:=XA) P g st b i j = Ok w /\
         forall k, (k < 9)%nat -> w k = sed_aimless cn k / sum9 (sed_aimless cn)) /\
    ((forall k, (k < 9)%nat -> ~ not_land cn k) -> sed_weights (A:=XA) P g st b i j = Err RuntimeError).
  Proof.
    intros Hin dn cn mn score. rewrite (sed_weights_unfold (fun x => x)). fold dn.
    unfold get_weight_at_cell_sediment. rewrite !vmemo_id, !vanynan_R.
    set (ctw := window (custom_pad 0%Z L W (s_cell_type st)) i j).
    set (msw := window (custom_pad (fz 0) L W (s_mod_sed_weight st)) i j).
    set (wi := get_weight_int _ _).
    assert (Ecn : forall k, (k < 9)%nat -> ctw k = cn k) by (intros; apply pad_window; auto).
    assert (Emn : forall k, (k < 9)%nat -> msw k = mn k) by (intros; apply pad_window; auto).
    set (v1 := vset (vset _ isctr _) _ _).
    assert (Hv1 : forall k, (k < 9)%nat -> v1 k = score k).
    { intros k Hk. unfold v1, score, sed_score, only. unfold vset, isctr. ra.
      destruct (deep_dec P dn cn k) as [(N & D & Lnd)|N].
      - destruct (Nat.eqb_spec k 4); [contradiction|].
        rewrite (proj2 (Rleb_false (dn k) (p_dry_depth P)) D). rewrite Ecn by auto.
        destruct (Z.eqb_spec (cn k) (-2)) as [C|_]; [contradiction|]. cbn [orb].
        unfold wi. rewrite inertia_ok by auto. rewrite Emn by auto. reflexivity.
      - destruct (Nat.eqb_spec k 4); [destruct (_ || _)%bool; auto|].
        destruct (Rleb_spec (dn k) (p_dry_depth P)); [reflexivity|]. rewrite Ecn by auto.
        destruct (Z.eqb_spec (cn k) (-2)); [reflexivity|]. exfalso. apply N. unfold deep. repeat split; auto; lra. }
    assert (S1 : vsum (A:=XA) v1 = sum9 score).
    { change (vsum (A:=XA) v1) with (vsum (A:=RX) v1). rewrite vsum_X. apply sum9_ext; auto. }
    assert (Hsn : forall k, (k < 9)%nat -> 0 <= score k).
    { intros k Hk. unfold score, sed_score, only. destruct (deep_dec P dn cn k); [|lra].
      apply Rmult_le_pos; [apply npow_nonneg|]. unfold inertia. apply Rmax_l. }
    ra. rewrite S1.
    match goal with |- context [vset (fun k => 1 / distances_flat k) ?m 0] =>
      set (v2 := vset (fun k => 1 / distances_flat (A:=XA) k) m 0);
      assert (Hv2 : forall k, (k < 9)%nat -> vset v2 isctr 0 k = sed_aimless cn k) end.
    { intros k Hk. unfold v2, vset, isctr, sed_aimless, only.
      destruct (not_land_dec cn k) as [[N Lnd]|N]; destruct (Nat.eqb_spec k 4); try contradiction; auto.
      - rewrite Ecn by auto. destruct (Z.eqb_spec (cn k) (-2)); [contradiction|]. rewrite ndist_ok by auto. reflexivity.
      - rewrite Ecn by auto. destruct (Z.eqb_spec (cn k) (-2)); auto. exfalso. apply N. split; auto. }
    assert (S2 : vsum (A:=XA) (vset v2 isctr 0) = sum9 (sed_aimless cn)).
    { change (vsum (A:=XA) (vset v2 isctr 0)) with (vsum (A:=RX) (vset v2 isctr 0)). rewrite vsum_X. apply sum9_ext; auto. }
    assert (Han : forall k, (k < 9)%nat -> 0 <= sed_aimless cn k).
    { intros k Hk. unfold sed_aimless, only. destruct (not_land_dec cn k) as [[N _]|]; [|lra].
      pose proof (ndist_pos k Hk N). apply Rdiv_nonneg; lra. }
    repeat split.
    - intros Hp. destruct (Reqb_spec (sum9 score) 0) as [|_]; [lra|].
      assert (H4 : forall k, (k < 9)%nat -> vset v1 isctr 0 k = score k).
      { intros k Hk. unfold vset, isctr. destruct (Nat.eqb_spec k 4) as [->|]; [|auto].
        unfold score, sed_score, only. destruct (deep_dec P dn cn 4) as [[C _]|]; [contradiction|reflexivity]. }
      assert (S3 : vsum (A:=XA) (vset v1 isctr 0) = sum9 score).
      { change (vsum (A:=XA) (vset v1 isctr 0)) with (vsum (A:=RX) (vset v1 isctr 0)). rewrite vsum_X. apply sum9_ext; auto. }
      rewrite S3. destruct (Reqb_spec (sum9 score) 0) as [|_]; [lra|].
      eexists. split; [reflexivity|]. intros k Hk. cbn beta. rewrite H4 by auto. reflexivity.
    - intros Hz (k0 & Hk0 & N0). destruct (Reqb_spec (sum9 score) 0) as [_|]; [|contradiction].
      fold v2. rewrite S2.
      assert (0 < sum9 (sed_aimless cn)).
      { apply Rlt_le_trans with (sed_aimless cn k0); [|apply sum9_ge; auto].
        unfold sed_aimless, only. destruct (not_land_dec cn k0) as [[N _]|]; [|contradiction].
        pose proof (ndist_pos k0 Hk0 N). apply Rdiv_lt_0_compat; lra. }
      destruct (Reqb_spec (sum9 (sed_aimless cn)) 0) as [|_]; [lra|].
      eexists. split; [reflexivity|]. intros k Hk. cbn beta. rewrite Hv2 by auto. reflexivity.
    - intros HN.
      assert (Z0 : sum9 score = 0).
      { apply sum9_0. intros k Hk. unfold score, sed_score, only.
        destruct (deep_dec P dn cn k) as [(N & _ & Lnd)|]; auto. exfalso. apply (HN k Hk). split; auto. }
      rewrite Z0. destruct (Reqb_spec 0 0) as [_|]; [|lra]. fold v2. rewrite S2.
      assert (Z2 : sum9 (sed_aimless cn) = 0).
      { apply sum9_0. intros k Hk. unfold sed_aimless, only. destruct (not_land_dec cn k) as [C|]; auto.
        exfalso. apply (HN k Hk). exact C. }
      rewrite Z2. destruct (Reqb_spec 0 0) as [_|]; [reflexivity|lra].
  Qed.
End Sediment.
