(** The choice of a direction in binary64: a non-zero variate gives a positive
    threshold (C76). *)
From Coq Require Import ZArith Reals Lra Lia Bool Floats.SpecFloat List.
From Flocq Require Import Core.
From Verif Require Import Base RLemmas RoundingFlocq Shared SharedSpec SharedProofs Params State Water VecLemmas WaterSpec WeightProofs
  Binary64Spec Binary64 Transfer.
Import ListNotations.
Local Open Scope R_scope.

Notation repr v := (rn64 v%R = v%R).

Lemma repr_double r : repr r -> repr (2 * r).
Proof.
  intros H. unfold rn64, rne in *. apply round_generic; [apply valid_rnd_N|].
  assert (G : generic_format radix2 (FLT_exp (-1074) 53) r) by (rewrite <- H; apply generic_format_round; [apply FLT_exp_valid; reflexivity|apply valid_rnd_N]).
  apply FLT_format_generic in G; [|reflexivity]. destruct G as [[m e] Hr Hm He]. cbn [Fnum Fexp] in *.
  apply generic_format_FLT. exists (Float radix2 m (e + 1)); cbn [Fnum Fexp]; [|exact Hm|lia].
  rewrite Hr. unfold F2R. cbn [Fnum Fexp]. rewrite bp_double. lra.
Qed.

Lemma sum_le_max (w : vec R) m : repr m -> 0 <= m -> (forall k, (k < 9)%nat -> w k <= m) -> vsum (A:=XR) w <= 512 * m.
Proof.
  intros Hm M0 H. unfold vsum.
  assert (K : forall ks acc b, (forall k, In k ks -> w k <= b) -> m <= b -> repr b -> acc <= b ->
    fold_left (fun acc k => fadd (Arith:=XR) acc (w k)) ks acc <= 2 ^ length ks * b).
  { induction ks as [|k ks IH]; intros acc b Hk Hb Rb Ha; cbn [fold_left length]; [cbn; lra|].
    replace (2 ^ S (length ks) * b) with (2 ^ length ks * (2 * b)) by (cbn; lra). apply IH.
    - intros q Hq. specialize (Hk q (or_intror Hq)). lra.
    - lra.
    - apply repr_double. exact Rb.
    - cbn [fadd RA]. rewrite <- (repr_double b Rb). apply rnd_mono. specialize (Hk k (or_introl eq_refl)). lra. }
  specialize (K D9 (fz (Arith:=XR) 0) m). replace (512 * m) with (2 ^ length D9 * m) by (cbn; lra).
  apply K; [|lra|exact Hm|rewrite rz by lia; exact M0]. intros k Hk. apply H. apply in_seq in Hk. lia.
Qed.

Lemma vec_max (w : vec R) : exists k, (k < 9)%nat /\ forall q, (q < 9)%nat -> w q <= w k.
Proof.
  assert (K : forall n, exists k, (k < S n)%nat /\ forall q, (q < S n)%nat -> w q <= w k).
  { induction n as [|n (k & Hk & Hm)]; [exists 0%nat; split; [lia|]; intros q Hq; replace q with 0%nat by lia; lra|].
    destruct (Rle_dec (w k) (w (S n))) as [C|C].
    - exists (S n). split; [lia|]. intros q Hq. destruct (Nat.eq_dec q (S n)) as [->|]; [lra|]. specialize (Hm q ltac:(lia)). lra.
    - exists k. split; [lia|]. intros q Hq. destruct (Nat.eq_dec q (S n)) as [->|]; [lra|]. apply Hm. lia. }
  exact (K 8%nat).
Qed.

(** Shares of a vector that is not all zero. *)
Definition shares (w : vec R) : Prop := exists v : vec R,
  (forall k, (k < 9)%nat -> repr (v k) /\ 0 <= v k) /\ 0 < vsum (A:=XR) v /\
  forall k, (k < 9)%nat -> w k = fdiv (Arith:=XR) (v k) (vsum (A:=XR) v).

Lemma share_floor w : shares w -> exists k, (k < 9)%nat /\ 1 / 512 <= w k.
Proof.
  intros (v & Hv & Ht & Hw). destruct (vec_max v) as (k & Hk & Hm). exists k. split; [exact Hk|]. rewrite Hw by exact Hk.
  assert (B := sum_le_max v (v k) (proj1 (Hv k Hk)) (proj2 (Hv k Hk)) Hm).
  assert (E : repr (1 / 512)).
  { replace (1 / 512) with (bpow radix2 (-9)) by (cbn; lra). apply bp_repr. lia. }
  rewrite <- E at 1. cbn [fdiv RA]. apply rnd_mono. apply (Rmult_le_reg_r (vsum (A:=XR) v)); [exact Ht|].
  unfold Rdiv at 2. rewrite Rmult_assoc, Rinv_l by lra. lra.
Qed.

Lemma cell_shares row0 sfc int dn mw ct dry gamma theta w : 0 <= gamma <= 1 ->
  (forall k, (k < 9)%nat -> 0 <= sfc k) -> (forall k, (k < 9)%nat -> 0 <= int k) -> ct 4%nat <> LAND ->
  get_weight_at_cell_water (A:=XR) row0 sfc int dn mw ct dry gamma theta = Ok w -> shares w.
Proof.
  intros Hg Hs Hi Hct. unfold get_weight_at_cell_water. rewrite !vanynan_R. cbn [orb]. cbv zeta.
  match goal with |- context [combined_weight (A:=XR) ?a ?b ?c ?d ?e ?f] => set (cw := combined_weight (A:=XR) a b c d e f); assert (N : forall k, (k < 9)%nat -> 0 <= cw k) by
   (apply (combined_nonneg rn64); [exact Hg| |]; apply (rebalance_nonneg rn64); apply (clear_nonneg rn64); assumption) end.
  assert (Rc : forall k, repr (cw k)).
  { intros k. unfold cw, combined_weight. rewrite vmemo_id. unfold vset. destruct (isctr k); [rewrite rz by lia; apply rnd_0|].
    cbn [fmul RA]. apply rnd_idem. }
  assert (Hw4 : (ct 4%nat =? -2)%Z = false) by (apply Z.eqb_neq; exact Hct). rewrite Hw4.
  destruct (fltb (Arith:=XR) (fz (Arith:=XR) 0) (vsum (A:=XR) cw)) eqn:E1.
  - cbn [rbind]. rewrite vanynan_R. intros E. injection E as <-. exists cw. split; [auto|]. split.
    + rewrite rz in E1 by lia. cbn [fltb RA] in E1. unfold Rltb in E1. destruct (Rlt_dec _ _); [assumption|discriminate].
    + intros k _. rewrite vmemo_id. reflexivity.
  - destruct (feqb (Arith:=XR) _ _); [|discriminate].
    assert (F : forall dry wall invalid w', water_fallback (A:=XR) dry wall invalid = Ok w' -> shares w').
    { clear. intros dry wall invalid w'.
      assert (Even : forall m, (0 <? vcount m)%Z = true -> shares (vmemo (fun k => fdiv (Arith:=XR)
          (vset (fun _ => fz (Arith:=XR) 0) m (fdiv (Arith:=XR) (fz (Arith:=XR) 1) (fz (Arith:=XR) (vcount m))) k)
          (vsum (A:=XR) (vset (fun _ => fz (Arith:=XR) 0) m (fdiv (Arith:=XR) (fz (Arith:=XR) 1) (fz (Arith:=XR) (vcount m)))))))).
      { intros m Hm. destruct (even_rel m m (fun k _ => eq_refl) Hm) as (A1 & A2 & A3).
        eexists. split; [|split; [exact A3|intros k _; rewrite vmemo_id; reflexivity]].
        intros k Hk. split; [|apply A2; exact Hk]. exact (stands_repr _ _ (proj1 (A1 k Hk))). }
      unfold water_fallback. cbv zeta. destruct (0 <? vcount _)%Z eqn:E1.
      - intros E. injection E as <-. exact (Even _ E1).
      - destruct (0 <? vcount (fun k => negb (wall k)))%Z eqn:E2; [|discriminate].
        intros E. injection E as <-. exact (Even _ E2). }
    destruct (water_fallback _ _ _) as [w'|e'] eqn:E; cbn [rbind]; [|discriminate].
    rewrite vanynan_R. intros E'. injection E' as <-. exact (F _ _ _ _ E).
Qed.

Lemma cumsum_from_ge l : forall acc, (forall x, In x l -> 0 <= x /\ repr x) -> 0 <= acc -> repr acc ->
  forall x, x = acc \/ In x l -> x <= last (cumsum_from (A:=XR) acc l) acc.
Proof.
  induction l as [|y l IH]; intros acc Hl H0 Ra x Hx; cbn [cumsum_from]; [cbn [last]; destruct Hx as [->|[]]; lra|]. cbv zeta.
  destruct (Hl y (or_introl eq_refl)) as [Y1 Y2].
  assert (A1 : acc <= fadd (Arith:=XR) acc y) by (cbn [fadd RA]; rewrite <- Ra at 1; apply rnd_mono; lra).
  assert (A2 : y <= fadd (Arith:=XR) acc y) by (cbn [fadd RA]; rewrite <- Y2 at 1; apply rnd_mono; lra).
  assert (E : last (fadd (Arith:=XR) acc y :: cumsum_from (A:=XR) (fadd (Arith:=XR) acc y) l) acc
            = last (cumsum_from (A:=XR) (fadd (Arith:=XR) acc y) l) (fadd (Arith:=XR) acc y)).
  { generalize (fadd (Arith:=XR) acc y). intros a. generalize (cumsum_from (A:=XR) a l). intros m. revert a.
    induction m as [|z m IHm]; intros a; [reflexivity|]. cbn [last] in *. destruct m; [reflexivity|]. apply (IHm a). }
  rewrite E. set (a := fadd (Arith:=XR) acc y) in *.
  assert (Rr : repr a) by (unfold a; cbn [fadd RA]; apply rnd_idem).
  assert (B : forall x, x = a \/ In x l -> x <= last (cumsum_from (A:=XR) a l) a).
  { apply IH; [intros z Hz; apply Hl; right; exact Hz|lra|exact Rr]. }
  destruct Hx as [->|[->|Hx]]; [specialize (B a (or_introl eq_refl)); lra|specialize (B a (or_introl eq_refl)); lra|apply B; right; exact Hx].
Qed.

Lemma binary64_picks {S} {G : Rng R S} (P : params R) (st : state R S) w :
  (forall s, powerRZ 2 (-1000) <= fst (draw s)) ->
  get_water_weight_array (A:=XR) P (s_depth st) (s_stage st)
     (s_mod_water_weight st) (s_cell_type st) (s_qx st) (s_qy st) = Ok w ->
  0 <= p_gamma P <= 1 -> positive_picks rn64 P st w.
Proof.
  intros Hu Ew Hg i j s Hin Hl.
  destruct (water_array_ok rn64 P (s_depth st) (s_stage st) (s_mod_water_weight st)
     (s_cell_type st) (s_qx st) (s_qy st) Hg) as (w' & E' & Hc).
  rewrite Ew in E'. injection E' as <-. specialize (Hc i j Hin).
  unfold water_weight_cell in Hc. rewrite !vmemo_id in Hc.
  apply cell_shares in Hc; [|exact Hg|intros; apply (weight_sfc_nonneg rn64)|intros; apply (weight_int_nonneg rn64)|rewrite pad_window_centre by exact Hin; exact Hl].
  destruct (share_floor _ Hc) as (k & Hk & Hf). destruct Hc as (v & Hv & Ht & Hw).
  assert (T : 1 / 512 <= last (cumsum (A:=XR) (map (w i j) D9)) 0).
  { eapply Rle_trans; [exact Hf|]. unfold cumsum. replace (fz (Arith:=XR) 0) with 0 by (rewrite rz by lia; reflexivity).
    apply cumsum_from_ge.
    - intros x Hx. apply in_map_iff in Hx as (q & <- & Hq). apply in_seq in Hq. rewrite Hw by lia. cbn [fdiv RA].
      split; [|apply rnd_idem]. rewrite <- rnd_0. apply rnd_mono. apply Rdiv_nonneg; [apply Hv; lia|lra].
    - lra.
    - apply rnd_0.
    - right. apply in_map. apply in_seq. lia. }
  specialize (Hu s). rewrite <- bpow2 in Hu.
  assert (0 < bpow radix2 (-1009)) by apply bpow_gt_0. eapply Rlt_le_trans; [exact H|].
  rewrite <- (bp_repr (-1009)) by lia. apply rnd_mono.
  replace (-1009)%Z with (-9 + -1000)%Z by lia. rewrite bpow_plus.
  replace (bpow radix2 (-9)) with (1 / 512) by (cbn; lra). apply Rmult_le_compat; [lra|apply bpow_ge_0|exact T|exact Hu].
Qed.
