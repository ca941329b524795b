(** Water routing weights: proofs for C06 and C07. *)
From Coq Require Import ZArith List Bool Reals Lra Lia.
From Verif Require Import Base RLemmas Shared Params State Water VecLemmas WaterSpec.
Import ListNotations.
Local Open Scope R_scope.

Lemma Rdiv_nonneg x t : 0 <= x -> 0 <= t -> 0 <= x / t.
Proof.
  intros Hx Ht. destruct (Req_EM_T t 0) as [->|Hn].
  - unfold Rdiv. rewrite Rinv_0. lra.
  - apply Rmult_le_pos; auto. left. apply Rinv_0_lt_compat. lra.
Qed.

Section W.
  Context (rnd : R -> R) {HR : Rounding rnd}.
  Notation A := (RA rnd).

  Lemma clear_nonneg v m : (forall k, (k < 9)%nat -> 0 <= v k) ->
    forall k, (k < 9)%nat -> 0 <= clear_dirs (A:=A) v m k.
  Proof.
    intros H k Hk. unfold clear_dirs, vset. ra. rewrite rnd_0.
    destruct (isctr k); [lra|]. destruct (m k); [lra|auto].
  Qed.
  Lemma clear_zero v m k : m k = true \/ k = 4%nat -> clear_dirs (A:=A) v m k = 0.
  Proof.
    intros H. unfold clear_dirs, vset, isctr. ra. rewrite rnd_0.
    destruct (Nat.eqb_spec k 4); auto. destruct H as [->|]; auto. contradiction.
  Qed.

  Lemma rebalance_nonneg v : (forall k, (k < 9)%nat -> 0 <= v k) ->
    forall k, (k < 9)%nat -> 0 <= rebalance (A:=A) v k.
  Proof.
    intros H k Hk. unfold rebalance. rewrite vmemo_id. ra. rewrite rnd_0.
    destruct (Rltb_spec 0 (vsum (A:=A) v)); auto.
    apply rnd_nonneg; auto. apply Rdiv_nonneg; auto. lra.
  Qed.
  Lemma rebalance_zero v k : v k = 0 -> rebalance (A:=A) v k = 0.
  Proof.
    intros H. unfold rebalance. rewrite vmemo_id. ra. rewrite rnd_0.
    destruct (Rltb_spec 0 (vsum (A:=A) v)); auto.
    rewrite H. unfold Rdiv. rewrite Rmult_0_l. apply rnd_0.
  Qed.

  Lemma combined_nonneg ws wi dn mw gamma theta : 0 <= gamma <= 1 ->
    (forall k, (k < 9)%nat -> 0 <= ws k) -> (forall k, (k < 9)%nat -> 0 <= wi k) ->
    forall k, (k < 9)%nat -> 0 <= combined_weight (A:=A) ws wi dn mw gamma theta k.
  Proof.
    intros Hg Hs Hi k Hk. unfold combined_weight. rewrite vmemo_id. unfold vset. ra.
    rewrite rnd_0, rnd_1. destruct (isctr k); [lra|].
    apply rnd_nonneg; auto. apply Rmult_le_pos.
    - apply rnd_nonneg; auto. apply npow_nonneg.
    - apply rnd_nonneg; auto. apply Rplus_le_le_0_compat; apply rnd_nonneg; auto.
      + apply Rmult_le_pos; auto; lra.
      + apply Rmult_le_pos; auto. apply rnd_nonneg; auto. lra.
  Qed.
  Lemma combined_zero ws wi dn mw gamma theta k : (ws k = 0 /\ wi k = 0) \/ k = 4%nat ->
    combined_weight (A:=A) ws wi dn mw gamma theta k = 0.
  Proof.
    intros H. unfold combined_weight. rewrite vmemo_id. unfold vset, isctr. ra.
    rewrite rnd_0, rnd_1. destruct (Nat.eqb_spec k 4); auto.
    destruct H as [[-> ->]|]; [|contradiction].
    rewrite !Rmult_0_r, !rnd_0, Rplus_0_r, rnd_0, Rmult_0_r. apply rnd_0.
  Qed.

  Lemma inv_count_pos n : (0 < n <= 9)%Z -> 0 < rnd (1 / rnd (IZR n)).
  Proof.
    intros Hn. rewrite rnd_small by lia.
    apply Rlt_le_trans with (rnd (1/16)); [rewrite rnd_16th; lra|]. apply rnd_mono.
    unfold Rdiv. rewrite !Rmult_1_l.
    assert (IZR n <= 9) by (apply IZR_le; lia). assert (1 <= IZR n) by (apply IZR_le; lia).
    apply Rinv_le_contravar; lra.
  Qed.

  Lemma indicator_nonneg b n : (0 < n <= 9)%Z -> forall k, (k < 9)%nat ->
    0 <= vset (fun _ => 0) b (rnd (1 / rnd (IZR n))) k.
  Proof.
    intros Hn k _. unfold vset. destruct (b k); [|lra].
    left. apply inv_count_pos; auto.
  Qed.

  (** A normalised indicator vector. *)
  Lemma indicator_norm b : (0 < vcount b)%Z ->
    let v := vset (fun _ => rnd 0) b (rnd (rnd 1 / rnd (IZR (vcount b)))) in
    let w := fun k => rnd (v k / vsum (A:=A) v) in
    (forall k, (k < 9)%nat -> 0 <= w k) /\ (forall k, b k = false -> w k = 0)
    /\ 0 < vsum (A:=A) v.
  Proof.
    intros Hc v w. pose proof (vcount_le9 b) as H9.
    assert (Hv : forall k, (k < 9)%nat -> 0 <= v k).
    { intros k Hk. unfold v. rewrite rnd_0, rnd_1. apply indicator_nonneg; auto; lia. }
    assert (Hpos : 0 < vsum (A:=A) v).
    { destruct (proj1 (vcount_pos b)) as (k & Hk & Hb); [lia|].
      apply Rlt_le_trans with (rnd (v k)).
      - unfold v, vset. rewrite Hb, rnd_idem, rnd_1. apply inv_count_pos. lia.
      - apply vsum_ge_elt; auto. }
    split; [|split]; auto.
    - intros k Hk. apply rnd_nonneg; auto. apply Rdiv_nonneg; auto. lra.
    - intros k Hk. unfold w, v, vset. rewrite Hk, rnd_0. unfold Rdiv.
      rewrite Rmult_0_l. apply rnd_0.
  Qed.

  (** The fallback: never an error on a non-land cell, non-negative, zero on
      land, and zero on dry and invalid directions while a wet valid one exists. *)
  Lemma water_fallback_spec (dry wall invalid : vec bool) : wall 4%nat = false ->
    (forall k, wall k = true -> invalid k = true) ->
    exists w, water_fallback (A:=A) dry wall invalid = Ok w /\
      (forall k, (k < 9)%nat -> 0 <= w k) /\
      (forall k, wall k = true -> w k = 0) /\
      ((exists k, (k < 9)%nat /\ dry k = false /\ invalid k = false) ->
        forall k, dry k = true \/ invalid k = true -> w k = 0).
  Proof.
    intros Hw4 Hwi. unfold water_fallback. ra.
    set (wv := fun k => negb (dry k) && negb (invalid k)).
    destruct (Z.ltb_spec 0 (vcount wv)) as [Hc|Hc]; cbn [rbind].
    - eexists. split; [reflexivity|]. rewrite vmemo_id.
      destruct (indicator_norm wv Hc) as (H1 & H2 & _). split; [|split]; auto.
      + intros k Hk. apply H2. unfold wv. rewrite (Hwi k Hk).
        rewrite andb_false_r. reflexivity.
      + intros _ k [Hk|Hk]; apply H2; unfold wv; rewrite Hk; cbn; auto using andb_false_r.
    - set (nw := fun k => negb (wall k)).
      assert (Hn : (0 < vcount nw)%Z).
      { apply vcount_pos. exists 4%nat. split; [lia|]. unfold nw. rewrite Hw4. reflexivity. }
      destruct (Z.ltb_spec 0 (vcount nw)) as [_|Hc']; [|lia]. cbn [rbind].
      eexists. split; [reflexivity|]. rewrite vmemo_id.
      destruct (indicator_norm nw Hn) as (H1 & H2 & _). split; [|split]; auto.
      + intros k Hk. apply H2. unfold nw. rewrite Hk. reflexivity.
      + intros (k & Hk & Hd & Hi). exfalso.
        assert (0 < vcount wv)%Z; [|lia].
        apply vcount_pos. exists k. split; auto. unfold wv. rewrite Hd, Hi. reflexivity.
  Qed.

  (** Main lemma on the weights of a non-land cell. *)
  Lemma water_weights_spec row0 sfc int dn mw ct dry gamma theta :
    0 <= gamma <= 1 ->
    (forall k, (k < 9)%nat -> 0 <= sfc k) -> (forall k, (k < 9)%nat -> 0 <= int k) ->
    ct 4%nat <> LAND ->
    exists w, get_weight_at_cell_water (A:=A) row0 sfc int dn mw ct dry gamma theta = Ok w /\
      (forall k, (k < 9)%nat -> 0 <= w k) /\
      (forall k, ct k = LAND -> w k = 0) /\
      ((exists k, (k < 9)%nat /\ dry <= dn k /\ ct k <> LAND /\ k <> 4%nat
                  /\ (row0 = true -> (3 <= k)%nat)) ->
        forall k, dn k < dry \/ k = 4%nat -> w k = 0).
  Proof.
    intros Hg Hs Hi Hct. unfold get_weight_at_cell_water.
    rewrite !vanynan_R. cbn [orb].
    set (dryv := fun k => fltb (dn k) dry).
    set (wall := fun k => (ct k =? -2)%Z).
    set (dw := fun k => dryv k || wall k).
    set (invalid := fun k => wall k || isctr k || (row0 && Nat.ltb k 3)).
    set (cw := combined_weight _ _ _ _ _ _).
    assert (Hwall : forall k, wall k = true <-> ct k = LAND).
    { intros k. unfold wall, LAND. apply Z.eqb_eq. }
    assert (Hw4 : wall 4%nat = false).
    { destruct (wall 4%nat) eqn:E; auto. apply Hwall in E. contradiction. }
    assert (Hcw : forall k, (k < 9)%nat -> 0 <= cw k).
    { intros k Hk. apply combined_nonneg; auto.
      - apply rebalance_nonneg. apply clear_nonneg; auto.
      - apply rebalance_nonneg. apply clear_nonneg; auto. }
    assert (Hcz : forall k, dw k = true \/ k = 4%nat -> cw k = 0).
    { intros k Hk. apply combined_zero. left. split; apply rebalance_zero, clear_zero; auto. }
    ra. rewrite !rnd_0.
    pose proof (vsum_nonneg rnd cw Hcw) as Ht.
    destruct (Rltb_spec 0 (vsum (A:=A) cw)) as [Hp|Hp].
    - cbn [rbind]. rewrite vanynan_R. eexists. split; [reflexivity|]. rewrite vmemo_id.
      assert (Hz : forall k, dw k = true \/ k = 4%nat -> rnd (cw k / vsum (A:=A) cw) = 0).
      { intros k Hk. rewrite Hcz by auto. unfold Rdiv. rewrite Rmult_0_l. apply rnd_0. }
      split; [|split].
      + intros k Hk. apply rnd_nonneg; auto. apply Rdiv_nonneg; auto.
      + intros k Hk. apply Hz. left. unfold dw. apply Hwall in Hk. rewrite Hk.
        apply orb_true_r.
      + intros _ k [Hk|Hk]; apply Hz; auto. left. unfold dw, dryv. ra.
        apply Rltb_true in Hk. rewrite Hk. reflexivity.
    - assert (E0 : vsum (A:=A) cw = 0) by lra. rewrite E0.
      destruct (Reqb_spec 0 0) as [_|]; [|lra].
      change (ct 4%nat =? -2)%Z with (wall 4%nat). rewrite Hw4.
      destruct (water_fallback_spec dryv wall invalid Hw4) as (w & E & H1 & H2 & H3).
      { intros k Hk. unfold invalid. rewrite Hk. reflexivity. }
      match goal with |- context [water_fallback ?a ?b ?c] =>
        change (water_fallback (A:=A) a b c) with (water_fallback (A:=A) dryv wall invalid) end.
      rewrite E. cbn [rbind]. rewrite vanynan_R. exists w. split; [reflexivity|].
      split; [|split]; auto.
      + intros k Hk. apply H2. apply Hwall; auto.
      + intros (k & Hk & Hd & Hl & H4 & Hr) k' Hk'. apply H3.
        * exists k. repeat split; auto.
          -- unfold dryv. ra. apply Rltb_false. auto.
          -- unfold invalid, isctr. destruct (wall k) eqn:Ew.
             { apply Hwall in Ew. contradiction. }
             destruct (Nat.eqb_spec k 4); [contradiction|]. cbn [orb].
             destruct row0; auto. cbn [andb]. apply Nat.ltb_ge. auto.
        * destruct Hk' as [Hk'| ->].
          -- left. unfold dryv. ra. apply Rltb_true. auto.
          -- right. unfold invalid, isctr. cbn. rewrite orb_true_r. reflexivity.
  Qed.

  (** A land cell: never an error about missing neighbours, weights are
      either a distribution over its neighbours or all zero. *)
  Lemma water_weights_land row0 sfc int dn mw ct dry gamma theta :
    0 <= gamma <= 1 ->
    (forall k, (k < 9)%nat -> 0 <= sfc k) -> (forall k, (k < 9)%nat -> 0 <= int k) ->
    ct 4%nat = LAND ->
    exists w, get_weight_at_cell_water (A:=A) row0 sfc int dn mw ct dry gamma theta = Ok w /\
      (forall k, (k < 9)%nat -> 0 <= w k) /\
      (forall k, ct k = LAND -> w k = 0) /\
      ((forall k, (k < 9)%nat -> dn k < dry \/ ct k = LAND \/ k = 4%nat) ->
        forall k, w k = 0).
  Proof.
    intros Hg Hs Hi Hct. unfold get_weight_at_cell_water.
    rewrite !vanynan_R. cbn [orb].
    set (dryv := fun k => fltb (dn k) dry).
    set (wall := fun k => (ct k =? -2)%Z).
    set (dw := fun k => dryv k || wall k).
    set (invalid := fun k => wall k || isctr k || (row0 && Nat.ltb k 3)).
    set (cw := combined_weight _ _ _ _ _ _).
    assert (Hwall : forall k, wall k = true <-> ct k = LAND).
    { intros k. unfold wall, LAND. apply Z.eqb_eq. }
    assert (Hw4 : wall 4%nat = true) by (apply Hwall; auto).
    assert (Hcw : forall k, (k < 9)%nat -> 0 <= cw k).
    { intros k Hk. apply combined_nonneg; auto.
      - apply rebalance_nonneg. apply clear_nonneg; auto.
      - apply rebalance_nonneg. apply clear_nonneg; auto. }
    assert (Hcz : forall k, dw k = true \/ k = 4%nat -> cw k = 0).
    { intros k Hk. apply combined_zero. left. split; apply rebalance_zero, clear_zero; auto. }
    ra. rewrite !rnd_0.
    pose proof (vsum_nonneg rnd cw Hcw) as Ht.
    destruct (Rltb_spec 0 (vsum (A:=A) cw)) as [Hp|Hp].
    - cbn [rbind]. rewrite vanynan_R. eexists. split; [reflexivity|]. rewrite vmemo_id.
      assert (Hz : forall k, dw k = true \/ k = 4%nat -> rnd (cw k / vsum (A:=A) cw) = 0).
      { intros k Hk. rewrite Hcz by auto. unfold Rdiv. rewrite Rmult_0_l. apply rnd_0. }
      split; [|split].
      + intros k Hk. apply rnd_nonneg; auto. apply Rdiv_nonneg; auto.
      + intros k Hk. apply Hz. left. unfold dw. apply Hwall in Hk. rewrite Hk.
        apply orb_true_r.
      + intros Hall. exfalso.
        assert (vsum (A:=A) cw = 0); [|lra].
        apply vsum_0; auto. intros k Hk. apply Hcz.
        destruct (Hall k Hk) as [Hd|[Hl|H4]]; auto; left; unfold dw, dryv; ra.
        * apply Rltb_true in Hd. rewrite Hd. reflexivity.
        * apply Hwall in Hl. rewrite Hl. apply orb_true_r.
    - assert (E0 : vsum (A:=A) cw = 0) by lra. rewrite E0.
      destruct (Reqb_spec 0 0) as [_|]; [|lra].
      change (ct 4%nat =? -2)%Z with (wall 4%nat). rewrite Hw4.
      cbn [rbind]. rewrite vanynan_R. eexists. split; [reflexivity|].
      split; [|split]; intros; ra; lra.
  Qed.
End W.

(** Exact arithmetic: the weights sum to one. *)
Section Exact.
  Notation XA := (RA (fun x => x)).
  Let vsum_X' v : vsum (A:=XA) v = sum9 v := vsum_X v.
  Lemma indicator_sum b : (0 < vcount b)%Z ->
    let v := vset (fun _ => 0) b (1 / IZR (vcount b)) in
    vsum (A:=XA) v = 1.
  Proof.
    intros Hc v. rewrite vsum_X'. unfold v, vset. rewrite sum9_indicator.
    apply IZR_lt in Hc. field. lra.
  Qed.

  Lemma water_fallback_sum dry wall invalid w :
    water_fallback (A:=XA) dry wall invalid = Ok w -> sum9 w = 1.
  Proof.
    unfold water_fallback. ra.
    set (wv := fun k => negb (dry k) && negb (invalid k)).
    set (nw := fun k => negb (wall k)).
    destruct (Z.ltb_spec 0 (vcount wv)) as [Hc|Hc]; cbn [rbind].
    - intros E. injection E as <-. rewrite vmemo_id.
      pose proof (indicator_sum wv Hc) as Hs. cbn zeta in Hs.
      rewrite sum9_div, <- vsum_X'. rewrite Hs. lra.
    - destruct (Z.ltb_spec 0 (vcount nw)) as [Hn|Hn]; cbn [rbind]; [|discriminate].
      intros E. injection E as <-. rewrite vmemo_id.
      pose proof (indicator_sum nw Hn) as Hs. cbn zeta in Hs.
      rewrite sum9_div, <- vsum_X'. rewrite Hs. lra.
  Qed.

  Lemma water_weights_sum row0 sfc int dn mw ct dry gamma theta w :
    ct 4%nat <> LAND ->
    get_weight_at_cell_water (A:=XA) row0 sfc int dn mw ct dry gamma theta = Ok w ->
    sum9 w = 1.
  Proof.
    intros Hct. unfold get_weight_at_cell_water.
    rewrite !vanynan_R. cbn [orb].
    set (cw := combined_weight _ _ _ _ _ _).
    assert (Hw4 : (ct 4%nat =? -2)%Z = false) by (apply Z.eqb_neq; exact Hct).
    ra. destruct (Rltb_spec 0 (vsum (A:=XA) cw)) as [Hp|Hp].
    - cbn [rbind]. rewrite vanynan_R. intros E. injection E as <-. rewrite vmemo_id.
      rewrite sum9_div, <- vsum_X'. field. lra.
    - destruct (Reqb_spec (vsum (A:=XA) cw) 0); [|cbn; discriminate].
      rewrite Hw4. destruct (water_fallback _ _ _) as [w'|e'] eqn:E; cbn [rbind]; [|discriminate].
      rewrite vanynan_R. intros E'. injection E' as <-.
      eapply water_fallback_sum; eauto.
  Qed.
End Exact.

(** ** Cells and the whole array *)
From Verif Require Import SharedSpec SharedProofs.

Section Cells.
  Context (rnd : R -> R) {HR : Rounding rnd}.
  Notation A := (RA rnd).

  Lemma weight_sfc_nonneg st sn k : 0 <= get_weight_sfc (A:=A) st sn k.
  Proof. unfold get_weight_sfc. rewrite npmax_R. ra. rewrite rnd_0. apply Rmax_l. Qed.
  Lemma weight_int_nonneg qx qy k : 0 <= get_weight_int (A:=A) qx qy k.
  Proof. unfold get_weight_int. rewrite npmax_R. ra. rewrite rnd_0. apply Rmax_l. Qed.

  Context (P : params R) (depth stage mw : grid R) (ct : grid Z) (qx qy : grid R).
  Notation L := (p_L P).
  Notation W := (p_W P).
  Notation cellw := (water_weight_cell (A:=A) P depth stage mw ct qx qy).

  Local Notation at_nb := (at_nb L W).

  Lemma ctr_nb {T} (g : grid T) i j : inb L W i j -> at_nb g i j 4 = g i j.
  Proof.
    intros H. unfold WaterSpec.at_nb, nb_row, nb_col. change (Z.of_nat 4 / 3)%Z with 1%Z.
    change (Z.of_nat 4 mod 3)%Z with 1%Z.
    replace (i + 1 - 1)%Z with i by lia. replace (j + 1 - 1)%Z with j by lia.
    apply nearest_in; auto.
  Qed.

  Lemma water_cell_spec i j : inb L W i j -> 0 <= p_gamma P <= 1 ->
    ct i j <> LAND ->
    exists w, cellw i j = Ok w /\
      (forall k, (k < 9)%nat -> 0 <= w k) /\
      (forall k, (k < 9)%nat -> at_nb ct i j k = LAND -> w k = 0) /\
      ((exists k, (k < 9)%nat /\ p_dry_depth P <= at_nb depth i j k
                  /\ at_nb ct i j k <> LAND /\ k <> 4%nat
                  /\ (i = 0%Z -> (3 <= k)%nat)) ->
        forall k, (k < 9)%nat -> at_nb depth i j k < p_dry_depth P \/ k = 4%nat -> w k = 0).
  Proof.
    intros Hin Hg Hct. unfold water_weight_cell. rewrite !vmemo_id.
    destruct (water_weights_spec rnd (i =? 0)%Z
      (get_weight_sfc (A:=A) (stage i j) (window (custom_pad (fz (Arith:=A) 0) L W stage) i j))
      (get_weight_int (A:=A) (qx i j) (qy i j))
      (window (custom_pad (fz (Arith:=A) 0) L W depth) i j)
      (window (custom_pad (fz (Arith:=A) 0) L W mw) i j)
      (window (custom_pad 0%Z L W ct) i j) (p_dry_depth P) (p_gamma P) (p_theta_water P))
      as (w & E & H1 & H2 & H3); auto.
    - intros; apply weight_sfc_nonneg.
    - intros; apply weight_int_nonneg.
    - rewrite pad_window_centre by auto. auto.
    - exists w. split; [exact E|]. split; [auto|]. split.
      + intros k Hk Hl. apply H2. rewrite pad_window by auto. exact Hl.
      + intros (k & Hk & Hd & Hl & H4 & Hr) k' Hk' Hd'. apply H3.
        * exists k. split; auto. rewrite !pad_window by auto.
          repeat split; auto. intros Hr'. apply Hr. apply Z.eqb_eq; auto.
        * rewrite pad_window by auto. destruct Hd'; auto.
  Qed.

  Lemma water_cell_land i j : inb L W i j -> 0 <= p_gamma P <= 1 ->
    ct i j = LAND ->
    exists w, cellw i j = Ok w /\
      (forall k, (k < 9)%nat -> 0 <= w k) /\
      (forall k, (k < 9)%nat -> at_nb ct i j k = LAND -> w k = 0) /\
      ((forall k, (k < 9)%nat -> at_nb depth i j k < p_dry_depth P
          \/ at_nb ct i j k = LAND) -> forall k, (k < 9)%nat -> w k = 0).
  Proof.
    intros Hin Hg Hct. unfold water_weight_cell. rewrite !vmemo_id.
    destruct (water_weights_land rnd (i =? 0)%Z
      (get_weight_sfc (A:=A) (stage i j) (window (custom_pad (fz (Arith:=A) 0) L W stage) i j))
      (get_weight_int (A:=A) (qx i j) (qy i j))
      (window (custom_pad (fz (Arith:=A) 0) L W depth) i j)
      (window (custom_pad (fz (Arith:=A) 0) L W mw) i j)
      (window (custom_pad 0%Z L W ct) i j) (p_dry_depth P) (p_gamma P) (p_theta_water P))
      as (w & E & H1 & H2 & H3); auto.
    - intros; apply weight_sfc_nonneg.
    - intros; apply weight_int_nonneg.
    - rewrite pad_window_centre by auto. auto.
    - exists w. split; [exact E|]. split; [auto|]. split.
      + intros k Hk Hl. apply H2. rewrite pad_window by auto. exact Hl.
      + intros Hall k Hk. apply H3. intros k' Hk'. rewrite !pad_window by auto.
        destruct (Hall k' Hk'); auto.
  Qed.

  Lemma first_err_none {T} (f : Z -> Z -> result T) l :
    (forall i j, In (i, j) l -> exists v, f i j = Ok v) -> first_err f l = None.
  Proof.
    induction l as [|[i j] l IH]; intros H; cbn; auto.
    destruct (H i j (or_introl eq_refl)) as [v E]. rewrite E. apply IH.
    intros; apply H; cbn; auto.
  Qed.

  Lemma water_array_ok : 0 <= p_gamma P <= 1 ->
    exists w, get_water_weight_array (A:=A) P depth stage mw ct qx qy = Ok w /\
      forall i j, inb L W i j -> cellw i j = Ok (w i j).
  Proof.
    intros Hg. unfold get_water_weight_array. rewrite gmemo_id.
    assert (Hok : forall i j, inb L W i j -> exists v, cellw i j = Ok v).
    { intros i j Hin. destruct (Z.eq_dec (ct i j) LAND) as [Hl|Hl].
      - destruct (water_cell_land i j Hin Hg Hl) as (w & E & _). eauto.
      - destruct (water_cell_spec i j Hin Hg Hl) as (w & E & _). eauto. }
    rewrite first_err_none.
    - eexists. split; [reflexivity|]. intros i j Hin. destruct (Hok i j Hin) as [v E].
      rewrite E. reflexivity.
    - intros i j Hin. apply Hok. apply cells_In; auto.
  Qed.
End Cells.

Lemma water_cell_sum P depth stage mw ct qx qy i j w :
  inb (p_L P) (p_W P) i j -> ct i j <> LAND ->
  water_weight_cell (A:=RX) P depth stage mw ct qx qy i j = Ok w -> sum9 w = 1.
Proof.
  intros Hin Hct. unfold water_weight_cell. rewrite !vmemo_id. apply water_weights_sum.
  rewrite pad_window_centre by auto. auto.
Qed.
