(** Bounds that count additions, lengths of vectors and velocities in binary64 (C76). *)
From Coq Require Import ZArith Reals Lra Lia Bool Floats.SpecFloat List FunctionalExtensionality.
From Flocq Require Import Core.
From Verif Require Import Base RLemmas RoundingFlocq Shared SharedSpec SharedProofs Params State Water VecLemmas
  Binary64Spec Binary64 Transfer TransferPicks TransferWalk.
Import ListNotations.
Local Open Scope R_scope.

(** ** Bounds m * 2^c *)
Definition relB (B : R) (x : sfloat) (r : R) : Prop := stands_for x r /\ Rabs r <= B.
Definition cb (m c : Z) : R := IZR m * bpow radix2 c.

Lemma cb_repr m c : (0 <= m <= 2 ^ 52)%Z -> (0 <= c <= 900)%Z -> rn64 (cb m c) = cb m c.
Proof.
  intros Hm Hc. unfold rn64, rne. apply round_generic; [apply valid_rnd_N|]. apply generic_format_FLT.
  exists (Float radix2 m c); cbn; [reflexivity|lia|lia].
Qed.
Lemma cb_pos m c : (0 <= m)%Z -> 0 <= cb m c.
Proof. intros H. unfold cb. apply Rmult_le_pos; [apply IZR_le; exact H|apply bpow_ge_0]. Qed.
Lemma cb_mono m k c d : (0 <= m <= k)%Z -> (c <= d)%Z -> cb m c <= cb k d.
Proof.
  intros H Hc. unfold cb. apply Rmult_le_compat; [apply IZR_le; lia|apply bpow_ge_0|apply IZR_le; lia|apply bpow_le; exact Hc].
Qed.
Lemma cb_add m k c : cb (m + k) c = cb m c + cb k c.
Proof. unfold cb. rewrite plus_IZR. ring. Qed.
Lemma cb_pow m k c : (0 <= m <= 2 ^ k)%Z -> (0 <= k)%Z -> cb m c <= bpow radix2 (c + k).
Proof.
  intros H Hk. unfold cb. rewrite bpow_plus, Rmult_comm. apply Rmult_le_compat_l; [apply bpow_ge_0|].
  rewrite <- IZR_Zpower by exact Hk. apply IZR_le. cbn. lia.
Qed.

Lemma rn_boundB v B : rn64 B = B -> Rabs v <= B -> Rabs (rn64 v) <= B.
Proof.
  intros E H. apply Rabs_le. apply Rabs_le_inv in H. split.
  - rewrite <- E, <- rn_opp. apply rnd_mono. lra.
  - rewrite <- E. apply rnd_mono. lra.
Qed.
Lemma relB_rel c x r : rel c x r <-> relB (bpow radix2 c) x r.
Proof. reflexivity. Qed.
Lemma relB_mono B C x r : B <= C -> relB B x r -> relB C x r.
Proof. intros H [H1 H2]. split; [exact H1|lra]. Qed.
Lemma rel_cb c x r : rel c x r -> relB (cb 1 c) x r.
Proof. unfold cb. rewrite Rmult_1_l. exact (fun H => H). Qed.
Lemma cb_rel m k c x r : (0 <= m <= 2 ^ k)%Z -> (0 <= k)%Z -> relB (cb m c) x r -> rel (c + k) x r.
Proof. intros H Hk. apply relB_mono, cb_pow; assumption. Qed.

Lemma relB_add m k c x y r s : (0 <= m)%Z -> (0 <= k)%Z -> (m + k <= 2 ^ 52)%Z -> (0 <= c <= 900)%Z ->
  relB (cb m c) x r -> relB (cb k c) y s -> relB (cb (m + k) c) (fadd (Arith:=F64) x y) (fadd (Arith:=XR) r s).
Proof.
  intros Hm Hk Hmk Hc [A1 A2] [B1 B2].
  assert (V : Rabs (r + s) <= cb (m + k) c) by (rewrite cb_add; eapply Rle_trans; [apply Rabs_triang|lra]).
  split.
  - apply (add_ok x y r s A1 B1). apply (rn_fits _ (c + 52)); [lia|].
    eapply Rle_trans; [exact V|]. apply cb_pow; lia.
  - cbn [fadd RA]. apply rn_boundB; [apply cb_repr; lia|exact V].
Qed.

(** ** Rounding changes a number by a factor of at most two, except to zero *)
Lemma rn_twice y : Rabs (rn64 y) <= 2 * Rabs y.
Proof.
  unfold rn64, rne.
  pose proof (@round_N_pt radix2 (FLT_exp (-1074) 53) ltac:(apply FLT_exp_valid; reflexivity) (fun x => negb (Z.even x)) y) as [_ H].
  specialize (H 0 (generic_format_0 _ _)).
  rewrite Rminus_0_l, Rabs_Ropp in H.
  change (ZnearestE) with (Znearest (fun x => negb (Z.even x))).
  set (f := round radix2 (FLT_exp (-1074) 53) (Znearest (fun x => negb (Z.even x))) y) in *.
  replace f with ((f - y) + y) by ring. eapply Rle_trans; [apply Rabs_triang|]. lra.
Qed.
Lemma rn_repr y : rn64 (rn64 y) = rn64 y.
Proof. apply rnd_idem. Qed.
Lemma rn_half y s : repr s -> 0 < s -> rn64 y <= s -> y <= 2 * s.
Proof.
  intros Es Hs H. destruct (Rle_dec y (2 * s)) as [K|K]; [exact K|].
  assert (2 * s <= rn64 y); [|lra]. rewrite <- (repr_double s Es). apply rnd_mono. lra.
Qed.
Lemma repr_tiny s : repr s -> 0 < s -> bpow radix2 (-1074) <= s.
Proof.
  intros Es Hs. assert (G : generic_format radix2 (FLT_exp (-1074) 53) s).
  { rewrite <- Es. apply generic_format_round; [apply FLT_exp_valid; reflexivity|apply valid_rnd_N]. }
  apply FLT_format_generic in G; [|reflexivity]. destruct G as [[m e] Hr Hm He]. cbn [Fnum Fexp] in *.
  assert (0 < m)%Z by (apply (gt_0_F2R radix2 m e); rewrite <- Hr; exact Hs).
  rewrite Hr. unfold F2R. cbn [Fnum Fexp].
  assert (1 <= IZR m) by (apply IZR_le; lia).
  pose proof (bpow_le radix2 _ _ He). pose proof (bpow_gt_0 radix2 e). nra.
Qed.

(** ** Length of a vector *)
Lemma hypot_rel a x y r s : (0 <= a <= 400)%Z -> rel a x r -> rel a y s ->
  rel (a + 1) (hypot (A:=F64) x y) (hypot (A:=XR) r s) /\ 0 <= hypot (A:=XR) r s /\
  (0 < hypot (A:=XR) r s -> Rabs r <= 4 * hypot (A:=XR) r s /\ Rabs s <= 4 * hypot (A:=XR) r s /\ bpow radix2 (-537) <= hypot (A:=XR) r s).
Proof.
  intros Ha Hx Hy. unfold hypot.
  pose proof (rel_mul (a:=a) (b:=a) ltac:(lia) ltac:(lia) Hx Hx ltac:(lia)) as X2.
  pose proof (rel_mul (a:=a) (b:=a) ltac:(lia) ltac:(lia) Hy Hy ltac:(lia)) as Y2.
  pose proof (rel_add (a:=a + a) (b:=a + a) ltac:(lia) ltac:(lia) X2 Y2) as Q.
  set (t := fadd (Arith:=XR) (fmul (Arith:=XR) r r) (fmul (Arith:=XR) s s)) in *.
  assert (Px : 0 <= fmul (Arith:=XR) r r) by (cbn [fmul RA]; rewrite <- rnd_0; apply rnd_mono; nra).
  assert (Py : 0 <= fmul (Arith:=XR) s s) by (cbn [fmul RA]; rewrite <- rnd_0; apply rnd_mono; nra).
  assert (Pt : 0 <= t) by (apply add_pos; assumption).
  assert (Et : repr t) by (unfold t; cbn [fadd RA]; apply rnd_idem).
  assert (Lx : fmul (Arith:=XR) r r <= t).
  { unfold t. cbn [fadd RA]. rewrite <- (rn_repr (r * r)) at 1. change (rn64 (r * r)) with (fmul (Arith:=XR) r r). apply rnd_mono. lra. }
  assert (Ly : fmul (Arith:=XR) s s <= t).
  { unfold t. cbn [fadd RA]. rewrite <- (rn_repr (s * s)) at 1. change (rn64 (s * s)) with (fmul (Arith:=XR) s s). apply rnd_mono. lra. }
  cbn [fsqrt RA]. change (SFsqrt sf_prec sf_emax) with (fsqrt (Arith:=F64)).
  assert (P0 : 0 <= rn64 (sqrt t)) by (rewrite <- rnd_0; apply rnd_mono; apply sqrt_pos).
  split; [|split; [exact P0|]].
  - split; [apply sqrt_ok; [apply Q|exact Pt]|]. apply rn_bound; [lia|]. rewrite Rabs_pos_eq by apply sqrt_pos.
    rewrite <- (sqrt_square (bpow radix2 (a + 1))) by apply bpow_ge_0. apply sqrt_le_1_alt. rewrite <- bpow_plus.
    destruct Q as [_ Q]. rewrite Rabs_pos_eq in Q by exact Pt. eapply Rle_trans; [exact Q|]. apply bp_le. lia.
  - intros Hp. set (h := rn64 (sqrt t)) in *.
    assert (Ht : 0 < t).
    { destruct (Req_EM_T t 0) as [Z|Z]; [|lra]. unfold h in Hp. rewrite Z, sqrt_0, rnd_0 in Hp. lra. }
    assert (Hh : sqrt t <= 2 * h) by (apply rn_half; [apply rnd_idem|exact Hp|unfold h; lra]).
    assert (Ht4 : t <= 4 * (h * h)).
    { rewrite <- (sqrt_sqrt t) by lra. pose proof (sqrt_pos t). nra. }
    assert (X : r * r <= 2 * t) by (apply rn_half; assumption).
    assert (Y : s * s <= 2 * t) by (apply rn_half; assumption).
    assert (forall z, z * z <= 2 * t -> Rabs z <= 4 * h).
    { intros z Hz. rewrite <- (Rabs_pos_eq (4 * h)) by lra. apply Rsqr_le_abs_0. unfold Rsqr. nra. }
    split; [auto|]. split; [auto|].
    unfold h. rewrite <- (bp_repr (-537)) by lia. apply rnd_mono.
    rewrite <- (sqrt_square (bpow radix2 (-537))) by apply bpow_ge_0. apply sqrt_le_1_alt. rewrite <- bpow_plus.
    change (-537 + -537)%Z with (-1074)%Z. apply repr_tiny; assumption.
Qed.

(** ** Mixtures *)
Lemma mix_rel c x y r s w wr v vr : (0 <= c <= 900)%Z -> rel c x r -> rel c y s -> rel 0 w wr -> rel 0 v vr ->
  rel (c + 1) (fadd (Arith:=F64) (fmul (Arith:=F64) x w) (fmul (Arith:=F64) y v))
              (fadd (Arith:=XR) (fmul (Arith:=XR) r wr) (fmul (Arith:=XR) s vr)).
Proof.
  intros Hc Hx Hy Hw Hv. replace (c + 1)%Z with (Z.max (c + 0) (c + 0) + 1)%Z by lia.
  apply rel_add; [lia|lia|apply rel_mul; [lia|lia|exact Hx|exact Hw|lia]|apply rel_mul; [lia|lia|exact Hy|exact Hv|lia]].
Qed.
Lemma mix_rel' c x y r s w wr v vr : (0 <= c <= 900)%Z -> rel c x r -> rel c y s -> rel 0 w wr -> rel 0 v vr ->
  rel (c + 1) (fadd (Arith:=F64) (fmul (Arith:=F64) w x) (fmul (Arith:=F64) v y))
              (fadd (Arith:=XR) (fmul (Arith:=XR) wr r) (fmul (Arith:=XR) vr s)).
Proof.
  intros Hc Hx Hy Hw Hv. replace (c + 1)%Z with (Z.max (0 + c) (0 + c) + 1)%Z by lia.
  apply rel_add; [lia|lia|apply rel_mul; [lia|lia|exact Hw|exact Hx|lia]|apply rel_mul; [lia|lia|exact Hv|exact Hy|lia]].
Qed.
Lemma rel_if {T U} (Q : T -> U -> Prop) (c : bool) x y r s : Q x r -> Q y s -> Q (if c then x else y) (if c then r else s).
Proof. destruct c; auto. Qed.

Lemma repr_8 u : repr u -> repr (8 * u).
Proof. intros H. replace (8 * u) with (2 * (2 * (2 * u))) by ring. apply repr_double, repr_double, repr_double, H. Qed.
Lemma bp_8 c : bpow radix2 (c + 3) = 8 * bpow radix2 c.
Proof. rewrite bpow_plus. cbn. lra. Qed.

(** ** Scaling of the directions *)
Lemma scaled_rel a h x y w r s v : (0 <= a <= 400)%Z -> (0 <= h <= 400)%Z -> rel a x r -> rel a y s -> rel h w v ->
  rel (Z.max (h + 3) a) (fst (qn_scaled (A:=F64) x y w)) (fst (qn_scaled (A:=XR) r s v)) /\
  rel (Z.max (h + 3) a) (snd (qn_scaled (A:=F64) x y w)) (snd (qn_scaled (A:=XR) r s v)).
Proof.
  intros Ha Hh Hx Hy Hw. unfold qn_scaled. cbn [fst snd].
  destruct (hypot_rel a x y r s Ha Hx Hy) as (H1 & H2 & H3).
  rewrite (rel_lt zero_rel H1). rewrite (rz 0) by lia. cbn [fltb RA]. unfold Rltb.
  set (d := hypot (A:=XR) r s) in *.
  destruct (Rlt_dec 0 d) as [P|P].
  - destruct (H3 P) as (X & Y & Lo). clear H3.
    assert (Dv : rel (h + 537) (fdiv (Arith:=F64) w (hypot (A:=F64) x y)) (fdiv (Arith:=XR) v d)).
    { apply (rel_div Hw H1); [lia|lra|]. rewrite bpow_plus. unfold Rdiv. rewrite Rabs_mult.
      apply Rmult_le_compat; [apply Rabs_pos|apply Rabs_pos|apply Hw|]. rewrite Rabs_pos_eq by (apply Rlt_le, Rinv_0_lt_compat; exact P).
      change (bpow radix2 537) with (bpow radix2 (- (-537))). rewrite bpow_opp. apply Rinv_le_contravar; [apply bpow_gt_0|exact Lo]. }
    assert (Bd : Rabs (fdiv (Arith:=XR) v d) * d <= 2 * Rabs v).
    { cbn [fdiv RA]. pose proof (rn_twice (v / d)) as T.
      assert (E : Rabs (v / d) * d = Rabs v).
      { rewrite <- (Rabs_pos_eq d) at 2 by lra. rewrite <- Rabs_mult. f_equal. field. lra. }
      nra. }
    assert (G : forall z q, rel a z q -> Rabs q <= 4 * d -> rel (Z.max (h + 3) a)
        (fmul (Arith:=F64) z (fdiv (Arith:=F64) w (hypot (A:=F64) x y))) (fmul (Arith:=XR) q (fdiv (Arith:=XR) v d))).
    { intros z q Hz Hq. apply (rel_mono (h + 3)); [lia|]. cbn [fmul RA].
      apply rel_res; [lia| |apply mul_ok; [apply Hz|apply Dv]].
      rewrite Rabs_mult, bp_8. destruct Hw as [_ Hv]. pose proof (Rabs_pos (fdiv (Arith:=XR) v d)).
      apply Rle_trans with (4 * d * Rabs (fdiv (Arith:=XR) v d)); [apply Rmult_le_compat_r; assumption|].
      nra. }
    split; apply G; assumption.
  - assert (O : rel 0 (fz (Arith:=F64) 1) (fz (Arith:=XR) 1)) by exact one_rel.
    split; apply (rel_mono (a + 0)); try lia; apply rel_mul; try lia; assumption.
Qed.

(** ** Velocities *)
Lemma min_pos x y : 0 <= x -> 0 <= y -> 0 <= npmin (A:=XR) x y <= x.
Proof.
  intros Hx Hy. unfold npmin, fmin. cbn [fnan RA fltb]. unfold Rltb. destruct (Rlt_dec y x); lra.
Qed.
Lemma rel_min a b x y r s : rel a x r -> rel b y s -> 0 <= r -> 0 <= s -> rel a (npmin (A:=F64) x y) (npmin (A:=XR) r s).
Proof.
  intros Hx Hy Pr Ps. split.
  - unfold npmin, fmin. rewrite (rel_nan Hx), (rel_nan Hy), (rel_lt Hy Hx). cbn [fnan RA].
    destruct (fltb (Arith:=XR) s r); [apply Hy|apply Hx].
  - pose proof (min_pos r s Pr Ps). rewrite Rabs_pos_eq by lra. destruct Hx as [_ Hx]. rewrite Rabs_pos_eq in Hx by exact Pr. lra.
Qed.

Lemma velocity_rel b dryF umF deF qwF qxF qyF dry um de qw qx qy : (0 <= b <= 250)%Z ->
  rel b dryF dry -> bpow radix2 (-40) <= dry -> rel 100 umF um -> 0 <= um -> rel b deF de ->
  rel b qwF qw -> rel b qxF qx -> rel b qyF qy -> (0 < qw -> Rabs qx <= 4 * qw /\ Rabs qy <= 4 * qw) ->
  let vF := velocity_cell (A:=F64) dryF umF deF qwF qxF qyF in let v := velocity_cell (A:=XR) dry um de qw qx qy in
  rel 100 (fst (fst vF)) (fst (fst v)) /\ rel 103 (snd (fst vF)) (snd (fst v)) /\ rel 103 (snd vF) (snd v) /\
  0 <= fst (fst v) /\ Rabs (snd (fst v)) <= 8 * fst (fst v) /\ Rabs (snd v) <= 8 * fst (fst v).
Proof.
  intros Hb Hdry Ld Hum Pum Hde Hqw Hqx Hqy Hq. unfold velocity_cell.
  rewrite (rel_lt Hdry Hde), (rel_lt zero_rel Hqw). rewrite !(rz 0) by lia. cbn [fltb RA]. unfold Rltb.
  assert (Z : rel 100 (fz (Arith:=F64) 0) 0 /\ rel 103 (fz (Arith:=F64) 0) 0) by (split; apply rel_z0; lia).
  destruct (Rlt_dec dry de) as [D|D]; cbn [andb fst snd]; [|rewrite Rabs_R0; repeat split; try apply Z; lra].
  destruct (Rlt_dec 0 qw) as [Q|Q]; cbn [andb fst snd]; [|rewrite Rabs_R0; repeat split; try apply Z; lra].
  destruct (Hq Q) as [Qx Qy]. pose proof (bpow_gt_0 radix2 (-40)) as P40.
  assert (R1 : rel (b + 40) (fdiv (Arith:=F64) qwF deF) (fdiv (Arith:=XR) qw de)).
  { apply (rel_div Hqw Hde); [lia|lra|]. rewrite bpow_plus. unfold Rdiv. rewrite Rabs_mult.
    apply Rmult_le_compat; [apply Rabs_pos|apply Rabs_pos|apply Hqw|]. rewrite Rabs_pos_eq by (apply Rlt_le, Rinv_0_lt_compat; lra).
    change (bpow radix2 40) with (bpow radix2 (- (-40))). rewrite bpow_opp. apply Rinv_le_contravar; [apply bpow_gt_0|lra]. }
  assert (P1 : 0 <= fdiv (Arith:=XR) qw de).
  { cbn [fdiv RA]. rewrite <- rnd_0. apply rnd_mono. unfold Rdiv. apply Rmult_le_pos; [lra|]. apply Rlt_le, Rinv_0_lt_compat. lra. }
  pose proof (rel_min _ _ _ _ _ _ Hum R1 Pum P1) as U. pose proof (min_pos um _ Pum P1) as [U0 U1].
  set (u := npmin (A:=XR) um (fdiv (Arith:=XR) qw de)) in *. set (uF := npmin (A:=F64) umF (fdiv (Arith:=F64) qwF deF)) in *.
  assert (Eu : repr u) by (apply (stands_repr uF), U).
  assert (G : forall z q, rel b z q -> Rabs q <= 4 * qw ->
    rel 103 (fdiv (Arith:=F64) (fmul (Arith:=F64) uF z) qwF) (fdiv (Arith:=XR) (fmul (Arith:=XR) u q) qw) /\
    Rabs (fdiv (Arith:=XR) (fmul (Arith:=XR) u q) qw) <= 8 * u).
  { intros z q Hz Hzq.
    assert (M : rel (100 + b) (fmul (Arith:=F64) uF z) (fmul (Arith:=XR) u q)) by (apply rel_mul; [lia|lia|exact U|exact Hz|lia]).
    assert (B : Rabs (fmul (Arith:=XR) u q / qw) <= 8 * u).
    { unfold Rdiv. rewrite Rabs_mult, (Rabs_pos_eq (/ qw)) by (apply Rlt_le, Rinv_0_lt_compat; exact Q).
      apply (Rmult_le_reg_r qw); [exact Q|]. rewrite Rmult_assoc, Rinv_l, Rmult_1_r by lra.
      cbn [fmul RA]. eapply Rle_trans; [apply rn_twice|]. rewrite Rabs_mult, (Rabs_pos_eq u) by exact U0. nra. }
    split.
    - apply (rel_div M Hqw); [lia|lra|]. eapply Rle_trans; [exact B|]. change 103%Z with (100 + 3)%Z. rewrite bp_8.
      destruct U as [_ U]. rewrite Rabs_pos_eq in U by exact U0. lra.
    - cbn [fdiv RA]. apply rn_boundB; [apply repr_8; exact Eu|exact B]. }
  destruct (G _ _ Hqx Qx) as [G1 G2]. destruct (G _ _ Hqy Qy) as [G3 G4].
  split; [exact U|]. split; [exact G1|]. split; [exact G3|]. split; [exact U0|]. split; [exact G2|exact G4].
Qed.

(** ** Slope of the surface along a step *)
Lemma slope_rel b uxF uyF uwF dxF sF ux uy uw dx s n m : (0 <= b <= 250)%Z ->
  rel b uxF ux -> rel b uyF uy -> rel b uwF uw -> 0 < uw -> Rabs ux <= 8 * uw -> Rabs uy <= 8 * uw ->
  rel 20 dxF dx -> rel 10 sF s -> (Z.abs n <= 2 ^ 14)%Z -> (Z.abs m <= 2 ^ 14)%Z ->
  rel 52 (fdiv (Arith:=F64) (fmul (Arith:=F64) sF (fadd (Arith:=F64) (fmul (Arith:=F64) (fmul (Arith:=F64) uxF (fz (Arith:=F64) n)) dxF)
                                                    (fmul (Arith:=F64) (fmul (Arith:=F64) uyF (fz (Arith:=F64) m)) dxF))) uwF)
         (fdiv (Arith:=XR) (fmul (Arith:=XR) s (fadd (Arith:=XR) (fmul (Arith:=XR) (fmul (Arith:=XR) ux (fz (Arith:=XR) n)) dx)
                                                    (fmul (Arith:=XR) (fmul (Arith:=XR) uy (fz (Arith:=XR) m)) dx))) uw).
Proof.
  intros Hb Hux Huy Huw Pw Bx By Hdx Hs Hn Hm.
  assert (Z : forall k, (Z.abs k <= 2 ^ 14)%Z -> rel 20 (fz (Arith:=F64) k) (fz (Arith:=XR) k) /\ Rabs (fz (Arith:=XR) k) <= 16384).
  { intros k Hk. split; [apply rel_z; cbn in *; lia|]. rewrite rz by (cbn in Hk; lia). rewrite <- abs_IZR. apply IZR_le. exact Hk. }
  assert (G : forall vF v k, rel b vF v -> Rabs v <= 8 * uw -> (Z.abs k <= 2 ^ 14)%Z ->
    rel (b + 20 + 20) (fmul (Arith:=F64) (fmul (Arith:=F64) vF (fz (Arith:=F64) k)) dxF) (fmul (Arith:=XR) (fmul (Arith:=XR) v (fz (Arith:=XR) k)) dx) /\
    Rabs (fmul (Arith:=XR) (fmul (Arith:=XR) v (fz (Arith:=XR) k)) dx) <= bpow radix2 39 * uw).
  { intros vF v k Hv Bv Hk. destruct (Z k Hk) as [K1 K2].
    assert (M1 : rel (b + 20) (fmul (Arith:=F64) vF (fz (Arith:=F64) k)) (fmul (Arith:=XR) v (fz (Arith:=XR) k))) by (apply rel_mul; [lia|lia|exact Hv|exact K1|lia]).
    split; [apply rel_mul; [lia|lia|exact M1|exact Hdx|lia]|].
    assert (T1 : Rabs (fmul (Arith:=XR) v (fz (Arith:=XR) k)) <= 262144 * uw).
    { cbn [fmul RA]. eapply Rle_trans; [apply rn_twice|]. rewrite Rabs_mult. change (rn64 (IZR k)) with (fz (Arith:=XR) k).
      pose proof (Rabs_pos v). pose proof (Rabs_pos (fz (Arith:=XR) k)). nra. }
    set (t := fmul (Arith:=XR) v (fz (Arith:=XR) k)) in *. clearbody t.
    cbn [fmul RA]. eapply Rle_trans; [apply rn_twice|]. rewrite Rabs_mult. destruct Hdx as [_ Hd].
    change (bpow radix2 20) with 1048576 in Hd. change (bpow radix2 39) with 549755813888.
    pose proof (Rabs_pos t). pose proof (Rabs_pos dx). nra. }
  destruct (G _ _ n Hux Bx Hn) as [X1 X2]. destruct (G _ _ m Huy By Hm) as [Y1 Y2].
  pose proof (rel_add (a:=b + 20 + 20) (b:=b + 20 + 20) ltac:(lia) ltac:(lia) X1 Y1) as A1.
  set (xx := fmul (Arith:=XR) (fmul (Arith:=XR) ux (fz (Arith:=XR) n)) dx) in *. set (yy := fmul (Arith:=XR) (fmul (Arith:=XR) uy (fz (Arith:=XR) m)) dx) in *.
  clearbody xx yy.
  assert (A2 : Rabs (fadd (Arith:=XR) xx yy) <= bpow radix2 41 * uw).
  { cbn [fadd RA]. eapply Rle_trans; [apply rn_twice|]. pose proof (Rabs_triang xx yy).
    change (bpow radix2 39) with 549755813888 in *. change (bpow radix2 41) with 2199023255552. lra. }
  set (q := fadd (Arith:=XR) xx yy) in *. clearbody q.
  assert (M : rel (10 + (Z.max (b + 20 + 20) (b + 20 + 20) + 1)) (fmul (Arith:=F64) sF (fadd (Arith:=F64) (fmul (Arith:=F64) (fmul (Arith:=F64) uxF (fz (Arith:=F64) n)) dxF)
       (fmul (Arith:=F64) (fmul (Arith:=F64) uyF (fz (Arith:=F64) m)) dxF))) (fmul (Arith:=XR) s q)) by (apply rel_mul; [lia|lia|exact Hs|exact A1|lia]).
  apply (rel_div M Huw); [lia|lra|].
  unfold Rdiv. rewrite Rabs_mult, (Rabs_pos_eq (/ uw)) by (apply Rlt_le, Rinv_0_lt_compat; exact Pw).
  apply (Rmult_le_reg_r uw); [exact Pw|]. rewrite Rmult_assoc, Rinv_l, Rmult_1_r by lra.
  cbn [fmul RA]. eapply Rle_trans; [apply rn_twice|]. rewrite Rabs_mult. destruct Hs as [_ Hs].
  change (bpow radix2 10) with 1024 in Hs. change (bpow radix2 41) with 2199023255552 in A2. change (bpow radix2 52) with 4503599627370496.
  pose proof (Rabs_pos s). pose proof (Rabs_pos q). nra.
Qed.
