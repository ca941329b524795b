(** Bounded computations in binary64 are computations with correctly rounded
    reals (C76): routing weights and weighted choice. *)
From Coq Require Import ZArith Reals Lra Lia Bool Floats.SpecFloat List FunctionalExtensionality.
From Flocq Require Import Core.
From Verif Require Import Base RLemmas RoundingFlocq Shared SharedSpec Params State Water VecLemmas Binary64Spec Binary64.
Import ListNotations.
Local Open Scope R_scope.

Notation XR := (RA rn64).
#[export] Instance HR64 : Rounding rn64.
Proof. exact binary64_Rounding. Qed.

(** x stands for r, which is at most 2^b. *)
Definition rel (b : Z) (x : sfloat) (r : R) : Prop := stands_for x r /\ Rabs r <= bpow radix2 b.

Lemma bp_le a b : (a <= b)%Z -> bpow radix2 a <= bpow radix2 b.
Proof. apply bpow_le. Qed.
Lemma bp_double b : bpow radix2 (b + 1) = 2 * bpow radix2 b.
Proof. rewrite bpow_plus. cbn. lra. Qed.

Lemma rel_mono a b x r : (a <= b)%Z -> rel a x r -> rel b x r.
Proof. intros H [H1 H2]. split; [exact H1|]. eapply Rle_trans; [exact H2|apply bp_le; exact H]. Qed.

Lemma stands_repr x r : stands_for x r -> rn64 r = r.
Proof.
  intros H. apply stands_iff in H as (b & _ & _ & <-). unfold rn64, rne. apply round_generic; [apply valid_rnd_N|].
  apply (BinarySingleNaN.generic_format_B2R 53 1024).
Qed.

Lemma bp_repr b : (-1074 <= b <= 1023)%Z -> rn64 (bpow radix2 b) = bpow radix2 b.
Proof.
  intros H. unfold rn64, rne. apply round_generic; [apply valid_rnd_N|].
  apply generic_format_FLT_bpow; [reflexivity|lia].
Qed.

Lemma rn_opp r : rn64 (- r) = - rn64 r.
Proof. unfold rn64, rne. apply round_NE_opp. Qed.

Lemma rn_bound r b : (-1074 <= b <= 1023)%Z -> Rabs r <= bpow radix2 b -> Rabs (rn64 r) <= bpow radix2 b.
Proof.
  intros Hb H. apply Rabs_le. apply Rabs_le_inv in H. split.
  - rewrite <- (bp_repr b Hb), <- rn_opp. apply rnd_mono. lra.
  - rewrite <- (bp_repr b Hb). apply rnd_mono. lra.
Qed.
Lemma rn_fits r b : (-1074 <= b <= 1023)%Z -> Rabs r <= bpow radix2 b -> fits r.
Proof.
  intros Hb H. unfold fits. rewrite <- bpow2. eapply Rle_lt_trans; [apply (rn_bound r b Hb H)|]. apply bpow_lt. lia.
Qed.

Section Ops.
  Context {a b : Z} {x y : sfloat} {r s : R}.
  Context (Ha : (0 <= a <= 1000)%Z) (Hb : (0 <= b <= 1000)%Z) (Hx : rel a x r) (Hy : rel b y s).

  Lemma rel_res (c : Z) (z : sfloat) (v : R) : (0 <= c <= 1023)%Z -> Rabs v <= bpow radix2 c ->
    (fits v -> stands_for z (rn64 v)) -> rel c z (rn64 v).
  Proof. intros Hc Hv H. split; [apply H, (rn_fits v c); [lia|exact Hv]|apply rn_bound; [lia|exact Hv]]. Qed.

  Lemma rel_add : rel (Z.max a b + 1) (fadd (Arith:=F64) x y) (fadd (Arith:=XR) r s).
  Proof.
    apply rel_res; [lia| |apply add_ok; [apply Hx|apply Hy]].
    rewrite bp_double. destruct Hx as [_ H1], Hy as [_ H2]. eapply Rle_trans; [apply Rabs_triang|].
    pose proof (bp_le a (Z.max a b) ltac:(lia)). pose proof (bp_le b (Z.max a b) ltac:(lia)). lra.
  Qed.
  Lemma rel_sub : rel (Z.max a b + 1) (fsub (Arith:=F64) x y) (fsub (Arith:=XR) r s).
  Proof.
    apply rel_res; [lia| |apply sub_ok; [apply Hx|apply Hy]].
    rewrite bp_double. destruct Hx as [_ H1], Hy as [_ H2]. unfold Rminus. eapply Rle_trans; [apply Rabs_triang|].
    rewrite Rabs_Ropp.
    pose proof (bp_le a (Z.max a b) ltac:(lia)). pose proof (bp_le b (Z.max a b) ltac:(lia)). lra.
  Qed.
  Lemma rel_mul : (a + b <= 1000)%Z -> rel (a + b) (fmul (Arith:=F64) x y) (fmul (Arith:=XR) r s).
  Proof.
    intros Hab. apply rel_res; [lia| |apply mul_ok; [apply Hx|apply Hy]].
    destruct Hx as [_ H1], Hy as [_ H2]. rewrite Rabs_mult, bpow_plus.
    apply Rmult_le_compat; auto using Rabs_pos.
  Qed.
  Lemma rel_div c : (0 <= c <= 1000)%Z -> s <> 0 -> Rabs (r / s) <= bpow radix2 c ->
    rel c (fdiv (Arith:=F64) x y) (fdiv (Arith:=XR) r s).
  Proof.
    intros Hc Hs H. apply rel_res; [lia|exact H|]. apply div_ok; [apply Hx|apply Hy|exact Hs].
  Qed.
  Lemma rel_lt : fltb (Arith:=F64) x y = fltb (Arith:=XR) r s.
  Proof. apply compare_ok; [apply Hx|apply Hy]. Qed.
  Lemma rel_eq : feqb (Arith:=F64) x y = feqb (Arith:=XR) r s.
  Proof. apply compare_ok; [apply Hx|apply Hy]. Qed.
  Lemma rel_nan : fnan (Arith:=F64) x = false.
  Proof. exact (nan_ok x r (proj1 Hx)). Qed.
End Ops.

Lemma rel_z n : (Z.abs n <= 2 ^ 20)%Z -> rel 20 (fz (Arith:=F64) n) (fz (Arith:=XR) n).
Proof.
  intros H. apply rel_res; [lia| |apply of_Z_ok].
  rewrite <- abs_IZR. change (bpow radix2 20) with (IZR (2 ^ 20)). apply IZR_le. exact H.
Qed.
Lemma rz n : (Z.abs n <= 1000000)%Z -> fz (Arith:=XR) n = IZR n.
Proof. intros H. cbn. apply rnd_small; exact H. Qed.
Lemma rel_z0 b : (0 <= b)%Z -> rel b (fz (Arith:=F64) 0) 0.
Proof.
  intros Hb. pose proof (rel_z 0 ltac:(cbn; lia)) as [H _]. rewrite rz in H by lia. split; [exact H|].
  rewrite Rabs_R0. apply bpow_ge_0.
Qed.
Lemma rel_z1 : rel 0 (fz (Arith:=F64) 1) 1.
Proof.
  pose proof (rel_z 1 ltac:(cbn; lia)) as [H _]. rewrite rz in H by lia. split; [exact H|]. rewrite Rabs_R1. cbn. lra.
Qed.

Lemma rel_max a x y r s : rel a x r -> rel a y s -> rel a (npmax (A:=F64) x y) (npmax (A:=XR) r s).
Proof.
  intros Hx Hy. unfold npmax, fmax. rewrite (rel_nan Hx), (rel_nan Hy), (rel_lt Hx Hy).
  cbn [fnan RA]. destruct (fltb (Arith:=XR) r s); assumption.
Qed.

(** ** Vectors of nine *)
Definition vrel (b : Z) (v : vec sfloat) (w : vec R) : Prop := forall k, (k < 9)%nat -> rel b (v k) (w k).
Definition vpos (w : vec R) : Prop := forall k, (k < 9)%nat -> 0 <= w k.

Lemma fold_rel b v w ks : (0 <= b)%Z -> vrel b v w -> Forall (fun k => k < 9)%nat ks ->
  forall c x r, (b <= c)%Z -> (c + Z.of_nat (length ks) <= 1000)%Z -> rel c x r ->
  rel (c + Z.of_nat (length ks)) (fold_left (fun acc k => fadd (Arith:=F64) acc (v k)) ks x)
    (fold_left (fun acc k => fadd (Arith:=XR) acc (w k)) ks r).
Proof.
  intros Hb Hv Hk. induction Hk as [|k ks Hk Hks IH]; intros c x r Hc Hl Hx; cbn [fold_left length].
  - replace (c + Z.of_nat 0)%Z with c by lia. exact Hx.
  - cbn [length] in Hl. replace (c + Z.of_nat (Datatypes.S (length ks)))%Z with ((c + 1) + Z.of_nat (length ks))%Z by lia.
    apply IH; [lia|lia|]. replace (c + 1)%Z with (Z.max c b + 1)%Z by lia. apply rel_add; [lia|lia|exact Hx|exact (Hv k Hk)].
Qed.
Lemma D9_lt : Forall (fun k => k < 9)%nat D9.
Proof. unfold D9. apply Forall_forall. intros k Hk. apply in_seq in Hk. lia. Qed.
Lemma vsum_rel b v w : (0 <= b <= 900)%Z -> vrel b v w -> rel (b + 9) (vsum (A:=F64) v) (vsum (A:=XR) w).
Proof.
  intros Hb Hv. unfold vsum. change 9%Z with (Z.of_nat (length D9)).
  apply (fold_rel b v w D9); [lia|exact Hv|exact D9_lt|lia|cbn; lia|].
  rewrite rz by lia. apply rel_z0. lia.
Qed.

Lemma fold_ge (w : vec R) ks : (forall k, In k ks -> 0 <= w k /\ rn64 (w k) = w k) -> forall acc, 0 <= acc -> rn64 acc = acc ->
  let t := fold_left (fun acc k => fadd (Arith:=XR) acc (w k)) ks acc in
  acc <= t /\ forall k, In k ks -> w k <= t.
Proof.
  induction ks as [|k ks IH]; intros H acc H0 Hr; cbn [fold_left]; [split; [lra|intros k []]|].
  destruct (H k (or_introl eq_refl)) as [K1 K2].
  assert (Ga : acc <= rn64 (acc + w k)) by (rewrite <- Hr at 1; apply rnd_mono; lra).
  assert (Gw : w k <= rn64 (acc + w k)) by (rewrite <- K2 at 1; apply rnd_mono; lra).
  destruct (IH (fun q Hq => H q (or_intror Hq)) (fadd (Arith:=XR) acc (w k))) as [I1 I2].
  - cbn. lra.
  - cbn. apply rnd_idem.
  - cbn [fadd RA] in I1, I2 |- *. split; [lra|]. intros q [<-|Hq]; [lra|apply I2; exact Hq].
Qed.
Lemma vsum_ge b v w : vrel b v w -> vpos w -> 0 <= vsum (A:=XR) w /\ forall k, (k < 9)%nat -> w k <= vsum (A:=XR) w.
Proof.
  intros Hv Hp. destruct (fold_ge w D9) with (acc := fz (Arith:=XR) 0) as [H1 H2].
  - intros k Hk. apply in_seq in Hk. split; [apply Hp; lia|]. apply (stands_repr (v k)). apply Hv. lia.
  - rewrite rz by lia. lra.
  - rewrite rz by lia. apply (rnd_0).
  - split; [eapply Rle_trans; [|exact H1]; rewrite rz by lia; lra|]. intros k Hk. apply H2. apply in_seq. lia.
Qed.

(** Shares of a positive total. *)
Lemma share_rel b v w k : (0 <= b <= 900)%Z -> vrel b v w -> vpos w -> 0 < vsum (A:=XR) w -> (k < 9)%nat ->
  rel 0 (fdiv (Arith:=F64) (v k) (vsum (A:=F64) v)) (fdiv (Arith:=XR) (w k) (vsum (A:=XR) w)) /\
  0 <= fdiv (Arith:=XR) (w k) (vsum (A:=XR) w).
Proof.
  intros Hb Hv Hp Ht Hk. destruct (vsum_ge b v w Hv Hp) as [_ Hg]. specialize (Hg k Hk). pose proof (Hp k Hk) as H0.
  assert (Q : 0 <= w k / vsum (A:=XR) w <= 1).
  { split; [apply Rmult_le_pos; [exact H0|apply Rlt_le, Rinv_0_lt_compat; exact Ht]|].
    apply (Rmult_le_reg_r (vsum (A:=XR) w)); [exact Ht|]. unfold Rdiv. rewrite Rmult_assoc, Rinv_l by lra. lra. }
  split.
  - apply (rel_div (a:=b) (b:=b + 9)); [apply Hv; exact Hk|apply vsum_rel; assumption|lia|lra|].
    rewrite Rabs_pos_eq by lra. change (bpow radix2 0) with 1. lra.
  - change (0 <= rn64 (w k / vsum (A:=XR) w)). rewrite <- rnd_0. apply rnd_mono; lra.
Qed.

Lemma rebalance_rel b v w : (0 <= b <= 900)%Z -> vrel b v w -> vpos w ->
  vrel 0 (rebalance (A:=F64) v) (rebalance (A:=XR) w) /\ vpos (rebalance (A:=XR) w).
Proof.
  intros Hb Hv Hp. unfold rebalance. rewrite !vmemo_id.
  pose proof (rel_z0 (b + 9) ltac:(lia)) as Z0. rewrite <- (rz 0 ltac:(lia)) in Z0.
  rewrite (rel_lt Z0 (vsum_rel b v w Hb Hv)).
  destruct (fltb (Arith:=XR) (fz 0) (vsum (A:=XR) w)) eqn:E.
  - assert (Ht : 0 < vsum (A:=XR) w).
    { rewrite rz in E by lia. cbn [fltb RA] in E. unfold Rltb in E. destruct (Rlt_dec _ _); [assumption|discriminate]. }
    split; intros k Hk; apply (share_rel b v w k); assumption.
  - assert (Ht : vsum (A:=XR) w <= 0).
    { rewrite rz in E by lia. cbn [fltb RA] in E. unfold Rltb in E. destruct (Rlt_dec _ _); [discriminate|lra]. }
    destruct (vsum_ge b v w Hv Hp) as [_ Hg]. split; [|exact Hp]. intros k Hk.
    assert (w k = 0) by (specialize (Hg k Hk); specialize (Hp k Hk); lra).
    destruct (Hv k Hk) as [H1 _]. split; [exact H1|]. rewrite H, Rabs_R0. apply bpow_ge_0.
Qed.

Lemma vset_rel b v w m x r : vrel b v w -> rel b x r -> vrel b (vset v m x) (vset w m r).
Proof. intros Hv Hx k Hk. unfold vset. destruct (m k); [exact Hx|apply Hv; exact Hk]. Qed.
Lemma vset_pos w m r : vpos w -> 0 <= r -> vpos (vset w m r).
Proof. intros Hw Hr k Hk. unfold vset. destruct (m k); [exact Hr|apply Hw; exact Hk]. Qed.
Lemma nonan b v w : vrel b v w -> vanynan (A:=F64) v = false.
Proof.
  intros Hv. unfold vanynan. apply not_true_is_false. intros H. apply existsb_exists in H as (k & Hk & H).
  apply in_seq in Hk. rewrite (rel_nan (Hv k ltac:(lia))) in H. discriminate.
Qed.
Lemma nonanR (w : vec R) : vanynan (A:=XR) w = false.
Proof. reflexivity. Qed.

Lemma clear_rel b v w m : (0 <= b)%Z -> vrel b v w -> vpos w ->
  vrel b (clear_dirs (A:=F64) v m) (clear_dirs (A:=XR) w m) /\ vpos (clear_dirs (A:=XR) w m).
Proof.
  intros Hb Hv Hp. unfold clear_dirs. rewrite (rz 0) by lia. split.
  - apply vset_rel; [apply vset_rel; [exact Hv|]|]; apply rel_z0; exact Hb.
  - apply vset_pos; [apply vset_pos; [exact Hp|]|]; lra.
Qed.

(** ** Powers *)
(** The exponents 0, 1 and 2. *)
Definition small_power (n : Z) : Prop := (n = 0 \/ n = 1 \/ n = 2)%Z.
Lemma pow_rel b x r n t : (0 <= b <= 400)%Z -> rel b x r -> 0 <= r -> small_power n -> stands_for t (IZR n) ->
  rel (2 * b) (fpow (Arith:=F64) x t) (fpow (Arith:=XR) r (IZR n)) /\ 0 <= fpow (Arith:=XR) r (IZR n).
Proof.
  intros Hb Hx Hr Hn Ht.
  assert (Et : ftrunc (Arith:=F64) t = n) by (rewrite (trunc_ok t (IZR n) Ht); apply Ztrunc_IZR).
  assert (E : sf_pow x t = sf_pow_nat x (Z.to_nat n)).
  { unfold sf_pow. change (sf_trunc t) with (ftrunc (Arith:=F64) t). rewrite Et. cbv zeta.
    change SFeqb with (feqb (Arith:=F64)). change (sf_of_Z n) with (fz (Arith:=F64) n).
    destruct (rel_z n) as [Hz _]; [destruct Hn as [->|[->| ->]]; cbn; lia|].
    rewrite rz in Hz by (destruct Hn as [->|[->| ->]]; lia).
    destruct (compare_ok _ _ _ _ Hz Ht) as (_ & _ & ->). unfold Reqb. destruct (Req_EM_T (IZR n) (IZR n)); [|contradiction].
    destruct Hn as [->|[->| ->]]; reflexivity. }
  change (fpow (Arith:=F64) x t) with (sf_pow x t). rewrite E. cbn [fpow RA].
  destruct Hn as [->|[->| ->]].
  - assert (npow r 0 = 1) as ->.
    { unfold npow. destruct (Req_EM_T r 0); [destruct (Req_EM_T 0 0); [reflexivity|contradiction]|].
      destruct (Rlt_dec 0 r); [apply Rpower_O; assumption|lra]. }
    rewrite rnd_1. split; [|lra]. apply (rel_mono 0); [lia|]. exact rel_z1.
  - assert (npow r 1 = r) as ->.
    { unfold npow. destruct (Req_EM_T r 0); [subst r; destruct (Req_EM_T 1 0); [lra|reflexivity]|].
      destruct (Rlt_dec 0 r); [apply Rpower_1; assumption|lra]. }
    rewrite (stands_repr x r (proj1 Hx)). split; [|exact Hr]. apply (rel_mono b); [lia|]. exact Hx.
  - assert (npow r 2 = r * r) as ->.
    { unfold npow. destruct (Req_EM_T r 0); [subst r; destruct (Req_EM_T 2 0); [lra|lra]|].
      destruct (Rlt_dec 0 r); [|lra]. change 2 with (INR 2). rewrite Rpower_pow by assumption. cbn. lra. }
    split.
    + replace (2 * b)%Z with (b + b)%Z by lia. apply (rel_mul (a:=b) (b:=b)); try lia; exact Hx.
    + rewrite <- rnd_0. apply rnd_mono. nra.
Qed.

(** ** The water weights of a cell *)
Lemma dist_rel k : (k < 9)%nat -> rel 1 (distances_flat (A:=F64) k) (distances_flat (A:=XR) k) /\ 1 <= distances_flat (A:=XR) k.
Proof.
  assert (Z2 : rel 20 (fz (Arith:=F64) 2) 2) by (rewrite <- (rz 2) by lia; apply rel_z; cbn; lia).
  assert (S1 : 1 <= sqrt 2 <= 2).
  { split; [rewrite <- sqrt_1 at 1; apply sqrt_le_1_alt; lra|]. rewrite <- (sqrt_square 2) at 2 by lra. apply sqrt_le_1_alt. lra. }
  assert (D : rel 1 (fsqrt (Arith:=F64) (fz (Arith:=F64) 2)) (fsqrt (Arith:=XR) (fz (Arith:=XR) 2)) /\
    1 <= fsqrt (Arith:=XR) (fz (Arith:=XR) 2)).
  { rewrite rz by lia. cbn [fsqrt RA]. split.
    - split; [apply sqrt_ok; [apply Z2|lra]|]. apply rn_bound; [lia|]. rewrite Rabs_pos_eq by lra. change (bpow radix2 1) with 2. lra.
    - rewrite <- rnd_1 at 1. apply rnd_mono. lra. }
  assert (O : rel 1 (fz (Arith:=F64) 1) (fz (Arith:=XR) 1) /\ 1 <= fz (Arith:=XR) 1).
  { rewrite rz by lia. split; [|lra]. apply (rel_mono 0); [lia|exact rel_z1]. }
  intros Hk. unfold distances_flat. do 9 (destruct k as [|k]; [cbn [nth]; assumption|]). lia.
Qed.

Lemma half_rel : rel 0 (fsqrt (Arith:=F64) (flit (A:=F64) 1 2)) (fsqrt (Arith:=XR) (flit (A:=XR) 1 2)).
Proof.
  assert (Z2 : rel 20 (fz (Arith:=F64) 2) 2) by (rewrite <- (rz 2) by lia; apply rel_z; cbn; lia).
  assert (H : rel 0 (flit (A:=F64) 1 2) (flit (A:=XR) 1 2)).
  { unfold flit. rewrite !rz by lia. apply (rel_div rel_z1 Z2); [lia|lra|]. rewrite Rabs_pos_eq by lra. change (bpow radix2 0) with 1. lra. }
  assert (P0 : 0 <= flit (A:=XR) 1 2 <= 1).
  { unfold flit. rewrite !rz by lia. cbn [fdiv RA]. split; [apply (Rle_trans _ (rn64 0)); [rewrite rnd_0; lra|apply rnd_mono; lra]|apply (Rle_trans _ (rn64 1)); [apply rnd_mono; lra|rewrite rnd_1; lra]]. }
  cbn [fsqrt RA]. split; [apply sqrt_ok; [apply H|apply P0]|]. apply rn_bound; [lia|].
  rewrite Rabs_pos_eq by apply sqrt_pos. change (bpow radix2 0) with 1. rewrite <- sqrt_1. apply sqrt_le_1_alt. apply P0.
Qed.
Lemma rel_opp b x r : rel b x r -> rel b (fopp (Arith:=F64) x) (fopp (Arith:=XR) r).
Proof. intros [H1 H2]. split; [apply opp_ok; exact H1|]. cbn [fopp RA]. rewrite Rabs_Ropp. exact H2. Qed.
Lemma neg1_rel : rel 0 (fz (Arith:=F64) (-1)) (fz (Arith:=XR) (-1)).
Proof.
  destruct (rel_z (-1) ltac:(cbn; lia)) as [H _]. split; [exact H|]. rewrite rz by lia.
  rewrite Rabs_left by lra. change (bpow radix2 0) with 1. lra.
Qed.
Lemma zero_rel : rel 0 (fz (Arith:=F64) 0) (fz (Arith:=XR) 0).
Proof. rewrite rz by lia. apply rel_z0. lia. Qed.
Lemma one_rel : rel 0 (fz (Arith:=F64) 1) (fz (Arith:=XR) 1).
Proof. rewrite rz by lia. exact rel_z1. Qed.
Lemma ivec_rel k : (k < 9)%nat -> rel 0 (ivec_flat (A:=F64) k) (ivec_flat (A:=XR) k).
Proof.
  pose proof half_rel. pose proof neg1_rel. pose proof zero_rel. pose proof one_rel. pose proof (rel_opp _ _ _ half_rel).
  intros Hk. unfold ivec_flat. cbv zeta. do 9 (destruct k as [|k]; [cbn [nth]; assumption|]). lia.
Qed.
Lemma jvec_rel k : (k < 9)%nat -> rel 0 (jvec_flat (A:=F64) k) (jvec_flat (A:=XR) k).
Proof.
  pose proof half_rel. pose proof neg1_rel. pose proof zero_rel. pose proof one_rel. pose proof (rel_opp _ _ _ half_rel).
  intros Hk. unfold jvec_flat. cbv zeta. do 9 (destruct k as [|k]; [cbn [nth]; assumption|]). lia.
Qed.

(** Division by something at least one. *)
Lemma rel_div1 a b x y r s : (0 <= a <= 1000)%Z -> rel a x r -> rel b y s -> 1 <= s ->
  rel a (fdiv (Arith:=F64) x y) (fdiv (Arith:=XR) r s).
Proof.
  intros Ha Hx Hy Hs. apply (rel_div Hx Hy a Ha); [lra|]. destruct Hx as [_ H]. unfold Rdiv. rewrite Rabs_mult.
  rewrite (Rabs_pos_eq (/ s)) by (apply Rlt_le, Rinv_0_lt_compat; lra).
  assert (/ s <= 1) by (rewrite <- Rinv_1; apply Rinv_le_contravar; lra).
  assert (0 <= / s) by (apply Rlt_le, Rinv_0_lt_compat; lra). pose proof (Rabs_pos r). nra.
Qed.

Lemma max0_rel a x r : (0 <= a)%Z -> rel a x r ->
  rel a (npmax (A:=F64) (fz (Arith:=F64) 0) x) (npmax (A:=XR) (fz (Arith:=XR) 0) r) /\ 0 <= npmax (A:=XR) (fz (Arith:=XR) 0) r.
Proof.
  intros Ha Hx. split; [apply rel_max; [apply (rel_mono 0); [exact Ha|exact zero_rel]|exact Hx]|].
  unfold npmax, fmax. cbn [fnan RA]. rewrite rz by lia. cbn [fltb RA]. unfold Rltb. destruct (Rlt_dec 0 r); lra.
Qed.

Lemma sfc_rel b x r v w : (0 <= b <= 400)%Z -> rel b x r -> vrel b v w ->
  vrel (b + 1) (get_weight_sfc (A:=F64) x v) (get_weight_sfc (A:=XR) r w) /\ vpos (get_weight_sfc (A:=XR) r w).
Proof.
  intros Hb Hx Hv. assert (K : forall k, (k < 9)%nat -> rel (b + 1)
    (fdiv (Arith:=F64) (fsub (Arith:=F64) x (v k)) (distances_flat (A:=F64) k))
    (fdiv (Arith:=XR) (fsub (Arith:=XR) r (w k)) (distances_flat (A:=XR) k))).
  { intros k Hk. destruct (dist_rel k Hk) as [D1 D2]. apply (rel_div1 _ 1); [lia| |exact D1|exact D2].
    replace (b + 1)%Z with (Z.max b b + 1)%Z by lia. apply rel_sub; [lia|lia|exact Hx|exact (Hv k Hk)]. }
  split; intros k Hk; destruct (max0_rel (b + 1) _ _ ltac:(lia) (K k Hk)) as [M1 M2]; [exact M1|exact M2].
Qed.
Lemma int_rel b x y r s : (0 <= b <= 400)%Z -> rel b x r -> rel b y s ->
  vrel (b + 1) (get_weight_int (A:=F64) x y) (get_weight_int (A:=XR) r s) /\ vpos (get_weight_int (A:=XR) r s).
Proof.
  intros Hb Hx Hy. assert (K : forall k, (k < 9)%nat -> rel (b + 1)
    (fdiv (Arith:=F64) (fadd (Arith:=F64) (fmul (Arith:=F64) x (jvec_flat (A:=F64) k)) (fmul (Arith:=F64) y (ivec_flat (A:=F64) k))) (distances_flat (A:=F64) k))
    (fdiv (Arith:=XR) (fadd (Arith:=XR) (fmul (Arith:=XR) r (jvec_flat (A:=XR) k)) (fmul (Arith:=XR) s (ivec_flat (A:=XR) k))) (distances_flat (A:=XR) k))).
  { intros k Hk. destruct (dist_rel k Hk) as [D1 D2]. apply (rel_div1 _ 1); [lia| |exact D1|exact D2].
    replace (b + 1)%Z with (Z.max (b + 0) (b + 0) + 1)%Z by lia.
    apply rel_add; [lia|lia|apply rel_mul; [lia|lia|exact Hx|apply jvec_rel; exact Hk|lia]|apply rel_mul; [lia|lia|exact Hy|apply ivec_rel; exact Hk|lia]]. }
  split; intros k Hk; destruct (max0_rel (b + 1) _ _ ltac:(lia) (K k Hk)) as [M1 M2]; [exact M1|exact M2].
Qed.

Lemma mul_pos r s : 0 <= r -> 0 <= s -> 0 <= fmul (Arith:=XR) r s.
Proof. intros. cbn [fmul RA]. rewrite <- rnd_0. apply rnd_mono. nra. Qed.
Lemma add_pos r s : 0 <= r -> 0 <= s -> 0 <= fadd (Arith:=XR) r s.
Proof. intros. cbn [fadd RA]. rewrite <- rnd_0. apply rnd_mono. lra. Qed.
Lemma sub1_rel x r : rel 0 x r -> 0 <= r <= 1 ->
  rel 0 (fsub (Arith:=F64) (fz (Arith:=F64) 1) x) (fsub (Arith:=XR) (fz (Arith:=XR) 1) r) /\ 0 <= fsub (Arith:=XR) (fz (Arith:=XR) 1) r.
Proof.
  intros Hx Hr. rewrite rz by lia. cbn [fsub RA]. split.
  - apply rel_res; [lia| |apply sub_ok; [apply rel_z1|apply Hx]]. rewrite Rabs_pos_eq by lra. change (bpow radix2 0) with 1. lra.
  - rewrite <- rnd_0. apply rnd_mono. lra.
Qed.

Lemma combined_rel b vs vi dn mw ws wi dnr mwr g gr t n : (0 <= b <= 200)%Z ->
  vrel 0 vs ws -> vrel 0 vi wi -> vrel b dn dnr -> vrel b mw mwr -> vpos ws -> vpos wi -> vpos dnr -> vpos mwr ->
  rel 0 g gr -> 0 <= gr <= 1 -> small_power n -> stands_for t (IZR n) ->
  vrel (4 * b + 1) (combined_weight (A:=F64) vs vi dn mw g t) (combined_weight (A:=XR) ws wi dnr mwr gr (IZR n)) /\
  vpos (combined_weight (A:=XR) ws wi dnr mwr gr (IZR n)).
Proof.
  intros Hb Hs Hi Hd Hm Ps Pi Pd Pm Hg Pg Hn Ht. unfold combined_weight. rewrite !vmemo_id.
  destruct (sub1_rel g gr Hg Pg) as [G1 G2].
  assert (K : forall k, (k < 9)%nat ->
    rel (2 * (b + b)) (fpow (Arith:=F64) (fmul (Arith:=F64) (dn k) (mw k)) t) (fpow (Arith:=XR) (fmul (Arith:=XR) (dnr k) (mwr k)) (IZR n)) /\
    0 <= fpow (Arith:=XR) (fmul (Arith:=XR) (dnr k) (mwr k)) (IZR n)).
  { intros k Hk. apply pow_rel; [lia|apply rel_mul; [lia|lia|apply Hd; exact Hk|apply Hm; exact Hk|lia]|apply mul_pos; auto|exact Hn|exact Ht]. }
  assert (K2 : forall k, (k < 9)%nat ->
    rel 1 (fadd (Arith:=F64) (fmul (Arith:=F64) g (vs k)) (fmul (Arith:=F64) (fsub (Arith:=F64) (fz (Arith:=F64) 1) g) (vi k)))
      (fadd (Arith:=XR) (fmul (Arith:=XR) gr (ws k)) (fmul (Arith:=XR) (fsub (Arith:=XR) (fz (Arith:=XR) 1) gr) (wi k))) /\
    0 <= fadd (Arith:=XR) (fmul (Arith:=XR) gr (ws k)) (fmul (Arith:=XR) (fsub (Arith:=XR) (fz (Arith:=XR) 1) gr) (wi k))).
  { intros k Hk. split.
    - apply (rel_add (a:=0 + 0) (b:=0 + 0)); [lia|lia| |]; apply rel_mul; auto; lia.
    - apply add_pos; apply mul_pos; auto; lra. }
  split.
  - apply vset_rel; [|rewrite rz by lia; apply rel_z0; lia]. intros k Hk.
    replace (4 * b + 1)%Z with (2 * (b + b) + 1)%Z by lia. apply rel_mul; [lia|lia|apply K; exact Hk|apply K2; exact Hk|lia].
  - apply vset_pos; [|rewrite rz by lia; lra]. intros k Hk. apply mul_pos; [apply K; exact Hk|apply K2; exact Hk].
Qed.

(** Outcomes in the two arithmetics. *)
Definition both {T U} (f : T -> U -> Prop) (x : result T) (y : result U) : Prop :=
  match x, y with Ok a, Ok b => f a b | Err e, Err e' => e = e' | _, _ => False end.

Lemma count_some (m : vec bool) : (0 <? vcount m)%Z = true -> (0 < vcount m <= 9)%Z /\ exists k, (k < 9)%nat /\ m k = true.
Proof.
  intros H. apply Z.ltb_lt in H. rewrite vcount_length in *. split.
  - split; [exact H|]. unfold D9. cbn [seq filter]. repeat (destruct (m _); cbn [List.length]); lia.
  - destruct (filter m D9) as [|k l] eqn:E; [cbn in H; lia|]. exists k.
    assert (I : In k (filter m D9)) by (rewrite E; left; reflexivity). apply filter_In in I as [I1 I2].
    apply in_seq in I1. split; [lia|exact I2].
Qed.

(** The same mask in the nine directions. *)
Definition agree (m m' : vec bool) : Prop := forall k, (k < 9)%nat -> m k = m' k.
Lemma agree_count m m' : agree m m' -> vcount m = vcount m'.
Proof. intros H. unfold vcount, D9. cbn [seq fold_left]. rewrite !H by lia. reflexivity. Qed.
Lemma vset_agree b v w m m' x r : agree m m' -> vrel b v w -> rel b x r -> vrel b (vset v m x) (vset w m' r).
Proof. intros Hm Hv Hx k Hk. unfold vset. rewrite (Hm k Hk). destruct (m' k); [exact Hx|apply Hv; exact Hk]. Qed.

Lemma even_rel (m m' : vec bool) : agree m m' -> (0 <? vcount m')%Z = true ->
  let v := vset (fun _ => fz (Arith:=F64) 0) m (fdiv (Arith:=F64) (fz (Arith:=F64) 1) (fz (Arith:=F64) (vcount m'))) in
  let w := vset (fun _ => fz (Arith:=XR) 0) m' (fdiv (Arith:=XR) (fz (Arith:=XR) 1) (fz (Arith:=XR) (vcount m'))) in
  vrel 0 v w /\ vpos w /\ 0 < vsum (A:=XR) w.
Proof.
  intros Ha H v w. destruct (count_some m' H) as [Hc (k & Hk & Hm)].
  assert (Hn : 1 <= IZR (vcount m')) by (apply (IZR_le 1); lia).
  assert (Hn9 : IZR (vcount m') <= 9) by (apply (IZR_le _ 9); lia).
  assert (Zn : rel 20 (fz (Arith:=F64) (vcount m')) (IZR (vcount m'))) by (rewrite <- rz by lia; apply rel_z; lia).
  assert (Q : 1 / 16 <= rn64 (1 / IZR (vcount m'))).
  { rewrite <- rnd_16th at 1. apply rnd_mono. unfold Rdiv. rewrite !Rmult_1_l. apply Rinv_le_contravar; lra. }
  assert (Ev : vrel 0 v w).
  { apply vset_agree; [exact Ha|intros q _; exact zero_rel|]. rewrite !rz by lia. apply (rel_div1 0 20); [lia|exact rel_z1|exact Zn|exact Hn]. }
  assert (Ep : vpos w). { apply vset_pos; [intros q _; rewrite rz by lia; lra|]. rewrite !rz by lia. cbn [fdiv RA]. lra. }
  split; [exact Ev|]. split; [exact Ep|]. destruct (vsum_ge 0 v w Ev Ep) as [_ G]. specialize (G k Hk).
  unfold w at 1, vset in G. rewrite Hm, !rz in G by lia. cbn [fdiv RA] in G. lra.
Qed.

Lemma fallback_rel (dry dry' wall invalid : vec bool) : agree dry dry' ->
  both (vrel 0) (water_fallback (A:=F64) dry wall invalid) (water_fallback (A:=XR) dry' wall invalid).
Proof.
  intros Ha. assert (Ha' : agree (fun k => negb (dry k) && negb (invalid k)) (fun k => negb (dry' k) && negb (invalid k))).
  { intros k Hk. rewrite Ha by exact Hk. reflexivity. }
  unfold water_fallback. cbv zeta. rewrite (agree_count _ _ Ha').
  destruct (0 <? vcount (fun k => negb (dry' k) && negb (invalid k)))%Z eqn:E1.
  - destruct (even_rel _ _ Ha' E1) as (H1 & H2 & H3). cbn [rbind both]. rewrite !vmemo_id. intros k Hk.
    apply (share_rel 0 _ _ k); auto; lia.
  - destruct (0 <? vcount (fun k => negb (wall k)))%Z eqn:E2; [|reflexivity].
    destruct (even_rel _ _ (fun k _ => eq_refl) E2) as (H1 & H2 & H3). cbn [rbind both]. rewrite !vmemo_id. intros k Hk.
    apply (share_rel 0 _ _ k); auto; lia.
Qed.

Lemma cell_water_rel row0 b vs ws vi wi dn dnr mw mwr ct d dr g gr t n : (0 <= b <= 200)%Z ->
  vrel (b + 1) vs ws -> vpos ws -> vrel (b + 1) vi wi -> vpos wi -> vrel b dn dnr -> vpos dnr -> vrel b mw mwr -> vpos mwr ->
  rel b d dr -> rel 0 g gr -> 0 <= gr <= 1 -> small_power n -> stands_for t (IZR n) ->
  both (vrel 0) (get_weight_at_cell_water (A:=F64) row0 vs vi dn mw ct d g t)
    (get_weight_at_cell_water (A:=XR) row0 ws wi dnr mwr ct dr gr (IZR n)).
Proof.
  intros Hb Hs Ps Hi Pi Hd Pd Hm Pm Hdd Hg Pg Hn Ht. unfold get_weight_at_cell_water. cbv zeta.
  assert (Dry : forall k, (k < 9)%nat -> fltb (Arith:=F64) (dn k) d = fltb (Arith:=XR) (dnr k) dr).
  { intros k Hk. apply (rel_lt (Hd k Hk) Hdd). }
  set (dryF := fun k => fltb (Arith:=F64) (dn k) d). set (dryR := fun k => fltb (Arith:=XR) (dnr k) dr).
  set (wall := fun k => (ct k =? -2)%Z).
  assert (EC : forall v : vec sfloat, forall k, (k < 9)%nat ->
    clear_dirs (A:=F64) v (fun k => dryF k || wall k) k = clear_dirs (A:=F64) v (fun k => dryR k || wall k) k).
  { intros v k Hk. unfold clear_dirs, vset, dryF, dryR. rewrite Dry by exact Hk. reflexivity. }
  destruct (clear_rel (b + 1) vs ws (fun k => dryR k || wall k) ltac:(lia) Hs Ps) as [C1 C2].
  destruct (clear_rel (b + 1) vi wi (fun k => dryR k || wall k) ltac:(lia) Hi Pi) as [C3 C4].
  assert (C1' : vrel (b + 1) (clear_dirs (A:=F64) vs (fun k => dryF k || wall k)) (clear_dirs (A:=XR) ws (fun k => dryR k || wall k))).
  { intros k Hk. rewrite EC by exact Hk. apply C1. exact Hk. }
  assert (C3' : vrel (b + 1) (clear_dirs (A:=F64) vi (fun k => dryF k || wall k)) (clear_dirs (A:=XR) wi (fun k => dryR k || wall k))).
  { intros k Hk. rewrite EC by exact Hk. apply C3. exact Hk. }
  pose proof (Dry : agree dryF dryR) as Ag.
  pose proof (fallback_rel dryF dryR wall (fun k => wall k || isctr k || (row0 && Nat.ltb k 3)) Ag) as FB.
  unfold dryF, dryR, wall in *. clear dryF dryR wall.
  rewrite (nonan _ _ _ C1'), (nonan _ _ _ C3'), !nonanR. cbn [orb].
  destruct (rebalance_rel (b + 1) _ _ ltac:(lia) C1' C2) as [R1 R2].
  destruct (rebalance_rel (b + 1) _ _ ltac:(lia) C3' C4) as [R3 R4].
  destruct (combined_rel b _ _ dn mw _ _ dnr mwr g gr t n Hb R1 R3 Hd Hm R2 R4 Pd Pm Hg Pg Hn Ht) as [K1 K2].
  set (wF := combined_weight _ _ dn mw g t) in *. set (wR := combined_weight _ _ dnr mwr gr (IZR n)) in *.
  assert (T : rel (4 * b + 1 + 9) (vsum (A:=F64) wF) (vsum (A:=XR) wR)) by (apply vsum_rel; [lia|exact K1]).
  assert (T0 : rel (4 * b + 1 + 9) (fz (Arith:=F64) 0) (fz (Arith:=XR) 0)) by (apply (rel_mono 0); [lia|exact zero_rel]).
  rewrite (rel_lt T0 T), (rel_eq T T0).
  assert (Fin : forall x y, both (vrel 0) x y ->
    both (vrel 0) (do w <- x; if vanynan (A:=F64) w then Err RuntimeError else Ok w)
      (do w <- y; if vanynan (A:=XR) w then Err RuntimeError else Ok w)).
  { intros [x|e] [y|e'] H; cbn [rbind both] in *; try contradiction; [|exact H].
    rewrite (nonan _ _ _ H), nonanR. exact H. }
  apply Fin.
  destruct (fltb (Arith:=XR) (fz (Arith:=XR) 0) (vsum (A:=XR) wR)) eqn:E1.
  { rewrite rz in E1 by lia. cbn [fltb RA] in E1. unfold Rltb in E1. destruct (Rlt_dec _ _) as [E|]; [|discriminate].
    cbn [both]. rewrite !vmemo_id. intros k Hk. apply (share_rel (4 * b + 1) _ _ k); auto; lia. }
  destruct (feqb (Arith:=XR) _ _); [|reflexivity].
  destruct (ct 4%nat =? -2)%Z; [|exact FB]. cbn [both]. intros k _. exact zero_rel.
Qed.
