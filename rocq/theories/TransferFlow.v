(** A whole iteration of water routing in binary64 (C76): discharge sums, free
    surface, smoothing, flooding and velocities. *)
From Coq Require Import ZArith Reals Lra Lia Bool Floats.SpecFloat List FunctionalExtensionality.
From Flocq Require Import Core.
From Verif Require Import Base RLemmas RoundingFlocq Shared SharedSpec SharedProofs Params State Water VecLemmas WaterSpec WeightProofs
  RunProofs Binary64Spec Binary64 Transfer TransferPicks TransferWalk TransferOps.
Import ListNotations.
Local Open Scope R_scope.

Lemma unit_rel n m : (0 < n <= 2 ^ 52)%Z -> (Z.abs m <= 2 ^ 20)%Z -> (m * m <= n)%Z ->
  rel 0 (fdiv (Arith:=F64) (fz (Arith:=F64) m) (fsqrt (Arith:=F64) (fz (Arith:=F64) n)))
        (fdiv (Arith:=XR) (fz (Arith:=XR) m) (fsqrt (Arith:=XR) (fz (Arith:=XR) n))).
Proof.
  intros Hn Hm Hmn. destruct (sqrt_int_rel n ltac:(lia)) as (H1 & H2 & H3).
  assert (S0 : 0 < fsqrt (Arith:=XR) (fz (Arith:=XR) n)).
  { specialize (H3 1%Z ltac:(cbn; lia) ltac:(lia)). rewrite Rabs_pos_eq in H3 by lra. lra. }
  apply (rel_div (rel_z m Hm) H1); [lia|lra|]. unfold Rdiv. rewrite Rabs_mult, (Rabs_pos_eq (/ _)) by (apply Rlt_le, Rinv_0_lt_compat; exact S0).
  apply (Rmult_le_reg_r (fsqrt (Arith:=XR) (fz (Arith:=XR) n))); [exact S0|]. rewrite Rmult_assoc, Rinv_l by lra.
  change (bpow radix2 0) with 1. rewrite Rmult_1_l, Rmult_1_r.
  specialize (H3 m Hm Hmn). replace (fz (Arith:=XR) m) with (IZR m); [exact H3|].
  cbn [fz RA]. unfold rn64, rne. rewrite round_generic; [reflexivity|apply valid_rnd_N|]. apply generic_format_FLT.
  exists (Float radix2 m 0); cbn; [unfold F2R; cbn; lra|lia|lia].
Qed.

Lemma steps_unit k : snd (get_steps (A:=XR) k) = true -> forall m, m = iwalk_flat k \/ m = jwalk_flat k ->
  rel 0 (fdiv (Arith:=F64) (fz (Arith:=F64) m) (fst (fst (fst (get_steps (A:=F64) k)))))
        (fdiv (Arith:=XR) (fz (Arith:=XR) m) (fst (fst (fst (get_steps (A:=XR) k))))).
Proof.
  unfold get_steps. cbn [fst snd]. intros E m Hm.
  assert (K : (-1 <= iwalk_flat k <= 1)%Z /\ (-1 <= jwalk_flat k <= 1)%Z).
  { unfold iwalk_flat, jwalk_flat. do 9 (destruct k as [|k]; [cbn; lia|]). cbn. destruct k; lia. }
  apply unit_rel.
  - change (2 ^ 52)%Z with 4503599627370496%Z. split; [|nia].
    destruct (Z.eq_dec (iwalk_flat k * iwalk_flat k + jwalk_flat k * jwalk_flat k) 0) as [Z|Z]; [|nia].
    rewrite Z in E. rewrite rz in E by lia. cbn [fsqrt feqb RA] in E. rewrite sqrt_0, rnd_0 in E. unfold Reqb in E.
    destruct (Req_EM_T 0 0); [discriminate|contradiction].
  - change (2 ^ 20)%Z with 1048576%Z. destruct Hm; lia.
  - destruct Hm; subst m; nia.
Qed.

Section Flow.
  Context {S : Type} {GF : Rng sfloat S} {GR : Rng R S}.
  Context (HG : same_draws GF GR) (HU : uniform_range GR).
  Context (PF : params sfloat) (PR : params R) (HP : same_constants PF PR).
  Notation L := (p_L PR).
  Notation W := (p_W PR).

  (** ** Discharge sums *)
  Definition frel (m c : Z) (q : Z -> sfloat) (q' : Z -> R) : Prop := forall n, (0 <= n < L * W)%Z -> relB (cb m c) (q n) (q' n).
  Lemma frel_mono m k c q q' : (0 <= m <= k)%Z -> frel m c q q' -> frel k c q q'.
  Proof. intros H F n Hn. apply (relB_mono (cb m c)); [apply cb_mono; lia|apply F; exact Hn]. Qed.
  Lemma flat_eq n : flat_ix PF n = flat_ix PR n.
  Proof. apply flat_ix_eq; [apply (sc_L _ _ HP)|apply (sc_W _ _ HP)]. Qed.
  Lemma flat_in n m : flat_ix PR n = Ok m -> (0 <= m < L * W)%Z.
  Proof.
    unfold flat_ix. destruct (_ && _)%bool eqn:E; [|discriminate]. intros H. injection H as <-.
    apply andb_prop in E as [E1 E2]. apply Z.leb_le in E1. apply Z.ltb_lt in E2. lia.
  Qed.
  Lemma fset_rel m k c q q' n x r : (0 <= m <= k)%Z -> frel m c q q' -> relB (cb k c) x r -> frel k c (fset q n x) (fset q' n r).
  Proof.
    intros H F Hx a Ha. unfold fset. destruct (a =? n)%Z; [exact Hx|]. apply (frel_mono m); assumption.
  Qed.

  Lemma dirQ_sum ix stp ps : (stp = iwalk_flat \/ stp = jwalk_flat) -> forall m q q', (0 <= m)%Z ->
    (m + Z.of_nat (length ps) <= 2 ^ 52)%Z -> frel m 0 q q' ->
    both (frel (m + Z.of_nat (length ps)) 0) (update_dirQfield (A:=F64) PF q ix stp ps) (update_dirQfield (A:=XR) PR q' ix stp ps).
  Proof.
    intros Hs. induction ps as [|p ps IH]; intros m q q' Hm Hl F; cbn [update_dirQfield length] in *.
    - cbn [both]. apply (frel_mono m); [lia|exact F].
    - pose proof (steps_rel PF PR (sc_CTR _ _ HP) (sc_centre _ _ HP) (dir p)) as E. pose proof (steps_unit (dir p)) as U.
      destruct (get_steps (A:=F64) (dir p)) as [[[dF iF] jF] aF].
      destruct (get_steps (A:=XR) (dir p)) as [[[dR iR] jR] aR]. cbn [fst snd] in E, U. subst aF.
      rewrite Nat2Z.inj_succ in *.
      replace (m + Z.succ (Z.of_nat (length ps)))%Z with (m + 1 + Z.of_nat (length ps))%Z in * by lia.
      destruct aR; [|apply IH; [lia|lia|apply (frel_mono m); [lia|exact F]]].
      rewrite flat_eq. destruct (flat_ix PR (ix p)) as [n|] eqn:En; cbn [rbind]; [|reflexivity]. apply flat_in in En.
      apply IH; [lia|lia|]. apply (fset_rel m); [lia|exact F|].
      apply relB_add; [lia|lia|lia|lia|apply F; exact En|]. apply rel_cb, U; [reflexivity|]. destruct Hs as [->| ->]; auto.
  Qed.

  (** Discharge of half a step. *)
  Lemma dx_rel : rel 20 (p_dx PF) (p_dx PR) /\ bpow radix2 (-20) <= p_dx PR.
  Proof.
    pose proof (sc_dx_range _ _ HP) as [D1 D2].
    assert (E6 : 10 ^ 6 = 1000000) by (cbn; lra). rewrite E6 in *.
    split; [split; [apply (sc_dx _ _ HP)|]|].
    - rewrite Rabs_pos_eq by (assert (0 < / 1000000) by (apply Rinv_0_lt_compat; lra); lra). change (bpow radix2 20) with 1048576. lra.
    - eapply Rle_trans; [|exact D1]. change (bpow radix2 (-20)) with (/ 1048576). apply Rinv_le_contravar; lra.
  Qed.
  Lemma half_flux_rel : rel 70 (half_flux (A:=F64) PF) (half_flux (A:=XR) PR).
  Proof.
    destruct dx_rel as [D1 D2]. pose proof (bpow_gt_0 radix2 (-20)) as P20.
    assert (Q : rel 50 (p_Qp_water PF) (p_Qp_water PR)).
    { split; [apply (sc_Qp _ _ HP)|]. eapply Rle_trans; [apply (sc_Qp_range _ _ HP)|].
      change (bpow radix2 50) with (IZR (2 ^ 50)). change 10 with (IZR 10). rewrite pow_IZR. apply IZR_le. vm_compute. discriminate. }
    unfold half_flux. apply (rel_div1 70 20); [lia| |apply rel_z; cbn; lia|rewrite rz by lia; lra].
    apply (rel_div Q D1); [lia|lra|]. change 70%Z with (50 + 20)%Z. rewrite bpow_plus. unfold Rdiv. rewrite Rabs_mult.
    apply Rmult_le_compat; [apply Rabs_pos|apply Rabs_pos|apply Q|]. rewrite Rabs_pos_eq by (apply Rlt_le, Rinv_0_lt_compat; lra).
    change (bpow radix2 20) with (bpow radix2 (- (-20))). rewrite bpow_opp. apply Rinv_le_contravar; [apply bpow_gt_0|exact D2].
  Qed.

  Lemma absQ_sum ix ps : forall m q q', (0 <= m)%Z ->
    (m + Z.of_nat (length ps) <= 2 ^ 52)%Z -> frel m 70 q q' ->
    both (frel (m + Z.of_nat (length ps)) 70) (update_absQfield (A:=F64) PF q ix ps) (update_absQfield (A:=XR) PR q' ix ps).
  Proof.
    pose proof half_flux_rel as HF.
    induction ps as [|p ps IH]; intros m q q' Hm Hl F; cbn [update_absQfield length] in *.
    - cbn [both]. apply (frel_mono m); [lia|exact F].
    - pose proof (steps_rel PF PR (sc_CTR _ _ HP) (sc_centre _ _ HP) (dir p)) as E.
      destruct (get_steps (A:=F64) (dir p)) as [[[dF iF] jF] aF].
      destruct (get_steps (A:=XR) (dir p)) as [[[dR iR] jR] aR]. cbn [fst snd] in E. subst aF.
      rewrite Nat2Z.inj_succ in *.
      replace (m + Z.succ (Z.of_nat (length ps)))%Z with (m + 1 + Z.of_nat (length ps))%Z in * by lia.
      destruct aR; [|apply IH; [lia|lia|apply (frel_mono m); [lia|exact F]]].
      rewrite flat_eq. destruct (flat_ix PR (ix p)) as [n|] eqn:En; cbn [rbind]; [|reflexivity]. apply flat_in in En.
      apply IH; [lia|lia|]. apply (fset_rel m); [lia|exact F|].
      apply relB_add; [lia|lia|lia|lia|apply F; exact En|]. apply rel_cb. exact HF.
  Qed.

  Definition qrel (m : Z) (q : qfields (F:=sfloat)) (q' : qfields (F:=R)) : Prop :=
    frel m 0 (fst (fst q)) (fst (fst q')) /\ frel m 0 (snd (fst q)) (snd (fst q')) /\ frel m 70 (snd q) (snd q').
  Lemma qrel_mono m k q q' : (0 <= m <= k)%Z -> qrel m q q' -> qrel k q q'.
  Proof. intros H (A1 & A2 & A3). split; [|split]; apply (frel_mono m); assumption. Qed.
  Lemma Q_sum ix ps m q q' : (0 <= m)%Z -> (m + Z.of_nat (length ps) <= 2 ^ 52)%Z -> qrel m q q' ->
    both (qrel (m + Z.of_nat (length ps))) (update_Q (A:=F64) PF q ix ps) (update_Q (A:=XR) PR q' ix ps).
  Proof.
    intros Hm Hl (A1 & A2 & A3). unfold update_Q. destruct q as [[a b] c], q' as [[a' b'] c']. cbn [fst snd] in *.
    pose proof (dirQ_sum ix jwalk_flat ps (or_intror eq_refl) m a a' Hm Hl A1) as H1.
    destruct (update_dirQfield (A:=F64) PF a ix jwalk_flat ps), (update_dirQfield (A:=XR) PR a' ix jwalk_flat ps); cbn [both rbind] in *; try contradiction; [|exact H1].
    pose proof (dirQ_sum ix iwalk_flat ps (or_introl eq_refl) m b b' Hm Hl A2) as H2.
    destruct (update_dirQfield (A:=F64) PF b ix iwalk_flat ps), (update_dirQfield (A:=XR) PR b' ix iwalk_flat ps); cbn [both rbind] in *; try contradiction; [|exact H2].
    pose proof (absQ_sum ix ps m c c' Hm Hl A3) as H3.
    destruct (update_absQfield (A:=F64) PF c ix ps), (update_absQfield (A:=XR) PR c' ix ps); cbn [both rbind] in *; try contradiction; [|exact H3].
    rewrite !fmemo_id. split; [|split]; assumption.
  Qed.

  (** ** Lengths of the paths *)
  Definition wl (ps : list parcel) : list nat := map (fun p => length (walk p)) ps.
  Lemma choose_wl w ps : forall s ps' s', choose_next_directions (A:=XR) (G:=GR) PR w ps s = Ok (ps', s') -> wl ps' = wl ps.
  Proof.
    induction ps as [|p ps IH]; intros s ps' s'; cbn [choose_next_directions].
    - intros H. injection H as <- <-. reflexivity.
    - destruct (if (cur p =? 0)%Z then _ else _) as [[d s1]|]; cbn [rbind]; [|discriminate].
      destruct (choose_next_directions (A:=XR) PR w ps s1) as [[rest s2]|] eqn:E; cbn [rbind]; [|discriminate].
      intros H. injection H as <- <-. unfold wl in *. cbn [map walk]. f_equal. exact (IH _ _ _ E).
  Qed.
  Lemma loops_wl stage h ps : forall stale ps', check_loops_from (A:=XR) PR stage h stale ps = Ok ps' -> wl ps' = wl ps.
  Proof.
    induction ps as [|p ps IH]; intros stale ps'; cbn [check_loops_from].
    - intros H. injection H as <-. reflexivity.
    - cbv zeta. match goal with |- context [if ?c then _ else _] => destruct c end.
      + destruct (custom_unravel _ _) as [[px0 py0]|]; cbn [rbind]; [|discriminate].
        destruct (relocate (A:=XR) PR stale px0 py0) as [[px py]|]; cbn [rbind]; [|discriminate].
        destruct (custom_ravel _ _) as [nind|]; cbn [rbind]; [|discriminate].
        destruct (inbb _ _ _ _); [|discriminate].
        destruct (check_loops_from (A:=XR) PR stage h (Some (px, py)) ps) as [rest|] eqn:E; cbn [rbind]; [|discriminate].
        intros H. injection H as <-. unfold wl in *. cbn [map walk]. f_equal. exact (IH _ _ E).
      + destruct (check_loops_from (A:=XR) PR stage h stale ps) as [rest|] eqn:E; cbn [rbind]; [|discriminate].
        intros H. injection H as <-. unfold wl in *. cbn [map walk]. f_equal. exact (IH _ _ E).
  Qed.
  Lemma check_wl stage h step ps ps' : check_for_loops (A:=XR) PR stage h step ps = Ok ps' -> wl ps' = wl ps.
  Proof.
    unfold check_for_loops. destruct (_ <? _)%Z; [apply loops_wl|]. intros H. injection H as <-. unfold wl. rewrite map_map. reflexivity.
  Qed.
  Lemma records_wl ct ps : forall pbs, mapM (record_step PR ct) ps = Ok pbs -> wl (map fst pbs) = map Datatypes.S (wl ps) /\ length pbs = length ps.
  Proof.
    induction ps as [|p ps IH]; intros pbs; cbn [mapM].
    - intros H. injection H as <-. split; reflexivity.
    - unfold record_step at 1. destruct (at_boundary PR ct (new p)) as [b|]; cbn [rbind]; [|discriminate].
      destruct (mapM (record_step PR ct) ps) as [ys|]; cbn [rbind]; [|discriminate].
      intros H. injection H as <-. destruct (IH _ eq_refl) as [I1 I2]. unfold wl in *. cbn [map fst walk length]. rewrite I1, I2. split; reflexivity.
  Qed.
  Lemma wl_len ps ps' : wl ps = wl ps' -> length ps = length ps'.
  Proof. unfold wl. intros H. apply (f_equal (@length _)) in H. rewrite !map_length in H. exact H. Qed.

  (** ** Turns of the loop *)
  Context (b : Z) (Hb : (0 <= b <= 200)%Z) (stageF : grid sfloat) (stageR : grid R) (hF : sfloat) (hR : R).
  Context (Hst : forall i j, inb L W i j -> rel b (stageF i j) (stageR i j)) (Hh : rel b hF hR).

  Definition same_run (N : nat) (k : nat) (m : Z) (x : list parcel * qfields (F:=sfloat) * Z * S) (y : list parcel * qfields (F:=R) * Z * S) : Prop :=
    same_walk x y /\ length (fst (fst (fst y))) = N /\ Forall (fun n => n <= k)%nat (wl (fst (fst (fst y)))) /\
    qrel m (snd (fst (fst x))) (snd (fst (fst y))).

  Lemma step_run wF wR ct step N k m x y : wrel PR wF wR -> (0 <= m)%Z -> (m + 3 * Z.of_nat N <= 2 ^ 52)%Z -> same_run N k m x y ->
    both (same_run N (Datatypes.S k) (m + 3 * Z.of_nat N)) (water_step (A:=F64) (G:=GF) PF wF stageF hF ct step x) (water_step (A:=XR) (G:=GR) PR wR stageR hR ct step y).
  Proof.
    destruct x as [[[ps q] w] s], y as [[[ps' q'] w'] s']. intros Hw Hm Hl ((A1 & A2 & A3) & A4 & A5 & A6). cbn [fst snd] in *. subst ps' w' s'.
    pose proof (sc_L _ _ HP) as EL. pose proof (sc_W _ _ HP) as EW. pose proof (sc_CTR _ _ HP) as EC. pose proof (sc_L0 _ _ HP) as E0.
    pose proof (sc_rows _ _ HP) as HL. pose proof (sc_cols _ _ HP) as HW. pose proof (sc_centre _ _ HP) as HC.
    unfold water_step. cbv zeta. rewrite (choose_rel HG HU PF PR EL EW HW wF wR ps s Hw).
    destruct (choose_next_directions (A:=XR) PR wR ps s) as [[ps1 s1]|e] eqn:Ec; cbn [rbind]; [|reflexivity].
    apply choose_wl in Ec.
    rewrite (newinds_eq PF PR EW). set (ps2 := calculate_new_inds PR ps1).
    assert (E2 : wl ps2 = wl ps) by (rewrite <- Ec; unfold ps2, calculate_new_inds, wl; rewrite map_map; reflexivity).
    pose proof (wl_len _ _ E2) as N2. rewrite A4 in N2.
    pose proof (Q_sum cur ps2 m q q' Hm ltac:(lia) A6) as H1.
    destruct (update_Q (A:=F64) PF q cur ps2) as [q1|e1], (update_Q (A:=XR) PR q' cur ps2) as [q1'|e1']; cbn [both rbind] in *; try contradiction; [|exact H1].
    pose proof (Q_sum new ps2 (m + Z.of_nat (length ps2)) q1 q1' ltac:(lia) ltac:(lia) H1) as H2.
    destruct (update_Q (A:=F64) PF q1 new ps2) as [q2|e2], (update_Q (A:=XR) PR q1' new ps2) as [q2'|e2']; cbn [both rbind] in *; try contradiction; [|exact H2].
    rewrite (check_rel PF PR EL EW EC E0 HL HW HC b Hb stageF stageR hF hR Hst Hh).
    destruct (check_for_loops (A:=XR) PR stageR hR step ps2) as [ps3|e] eqn:E3; cbn [rbind]; [|reflexivity]. apply check_wl in E3.
    rewrite (records_eq PF PR EL EW). destruct (mapM (record_step PR ct) ps3) as [pbs|e] eqn:E4; cbn [rbind]; [|reflexivity].
    apply records_wl in E4 as [E4 N4]. rewrite (wl_len _ _ E3), N2 in N4.
    unfold check_size_of_indices_matrix. rewrite (sc_stepmax _ _ HP).
    destruct (step <? _)%Z; [|reflexivity].
    assert (N5 : (length (map fst (filter snd pbs)) <= N)%nat).
    { rewrite map_length, <- N4. clear. induction pbs as [|x l IH]; cbn; [lia|]. destruct (snd x); cbn; lia. }
    pose proof (Q_sum new (map fst (filter snd pbs)) (m + Z.of_nat (length ps2) + Z.of_nat (length ps2)) q2 q2' ltac:(lia) ltac:(lia) H2) as H3.
    destruct (update_Q (A:=F64) PF q2 new _) as [q3|e3], (update_Q (A:=XR) PR q2' new _) as [q3'|e3']; cbn [both rbind] in *; try contradiction; [|exact H3].
    unfold same_run, same_walk. cbn [fst snd]. split; [auto|]. split; [rewrite map_length; exact N4|]. split.
    - rewrite E4, E3, E2. clear - A5. induction A5; cbn [map]; constructor; auto. lia.
    - eapply qrel_mono; [|exact H3]. lia.
  Qed.

  Lemma loop_run wF wR ct N fuel : wrel PR wF wR -> forall step k m x y, (0 <= m)%Z -> (m + 3 * Z.of_nat N * Z.of_nat fuel <= 2 ^ 52)%Z ->
    same_run N k m x y ->
    both (same_run N (k + fuel) (m + 3 * Z.of_nat N * Z.of_nat fuel)) (water_loop (A:=F64) (G:=GF) PF wF stageF hF ct fuel step x) (water_loop (A:=XR) (G:=GR) PR wR stageR hR ct fuel step y).
  Proof.
    intros Hw. induction fuel as [|n IH]; intros step k m x y Hm Hl H; cbn [water_loop].
    - cbn [both]. replace (k + 0)%nat with k by lia. replace (m + 3 * Z.of_nat N * Z.of_nat 0)%Z with m by lia. exact H.
    - pose proof H as ((E1 & _) & _). rewrite E1.
      assert (Mono : both (same_run N (k + Datatypes.S n) (m + 3 * Z.of_nat N * Z.of_nat (Datatypes.S n))) (Ok x) (Ok y)).
      { cbn [both]. destruct H as (B1 & B2 & B3 & B4). split; [exact B1|]. split; [exact B2|]. split.
        - eapply Forall_impl; [|exact B3]. cbn. intros; lia.
        - eapply qrel_mono; [|exact B4]. lia. }
      destruct (any_active _); [|exact Mono]. clear Mono.
      replace (m + 3 * Z.of_nat N * Z.of_nat (Datatypes.S n))%Z with ((m + 3 * Z.of_nat N) + 3 * Z.of_nat N * Z.of_nat n)%Z in * by lia.
      pose proof (step_run wF wR ct (step + 1) N k m x y Hw Hm ltac:(lia) H) as K.
      destruct (water_step (A:=F64) PF wF stageF hF ct (step + 1) x), (water_step (A:=XR) PR wR stageR hR ct (step + 1) y); cbn [both rbind] in *; try contradiction; [|exact K].
      replace (k + Datatypes.S n)%nat with (Datatypes.S k + n)%nat by lia.
      apply IH; [lia|lia|exact K].
  Qed.
End Flow.
