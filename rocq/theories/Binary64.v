(** The operations of SpecFloat are those of Flocq, hence correctly rounded
    (C76). *)
From Coq Require Import ZArith Reals Lra Lia Bool Floats.SpecFloat List.
From Flocq Require Import Core IEEE754.BinarySingleNaN.
From Verif Require Import Base RoundingFlocq Binary64Spec.
Local Open Scope R_scope.

Notation prec := 53%Z.
Notation emax := 1024%Z.
#[local] Instance Hprec : Prec_gt_0 prec := eq_refl _.
#[local] Instance Hmax : Prec_lt_emax prec emax := eq_refl _.
Notation bf := (binary_float prec emax).

Lemma nearest_even_equiv s m l : round_nearest_even m l = choice_mode mode_NE s m l.
Proof. destruct l as [|c]; [reflexivity|]. destruct c; try reflexivity. cbn. unfold Round.cond_incr. destruct (Z.even m); reflexivity. Qed.
Lemma round_aux_equiv sx mx ex lx :
  SpecFloat.binary_round_aux prec emax sx mx ex lx = binary_round_aux prec emax mode_NE sx mx ex lx.
Proof.
  unfold SpecFloat.binary_round_aux, binary_round_aux. destruct (shr_fexp _ _ _) as [m' e']. cbn.
  rewrite (nearest_even_equiv sx). reflexivity.
Qed.
Lemma round_equiv s m e : SpecFloat.binary_round prec emax s m e = binary_round prec emax mode_NE s m e.
Proof.
  unfold SpecFloat.binary_round, binary_round, shl_align_fexp. destruct (shl_align _ _ _). apply round_aux_equiv.
Qed.
Lemma normalize_equiv m e z :
  SpecFloat.binary_normalize prec emax m e z = B2SF (binary_normalize prec emax Hprec Hmax mode_NE m e z).
Proof. destruct m; cbn; [reflexivity| |]; rewrite B2SF_SF2B; apply round_equiv. Qed.

Lemma mul_equiv (x y : bf) : SFmul prec emax (B2SF x) (B2SF y) = B2SF (Bmult mode_NE x y).
Proof.
  destruct x as [sx|sx| |sx mx ex Bx], y as [sy|sy| |sy my ey By]; try reflexivity.
  cbn. rewrite B2SF_SF2B. apply round_aux_equiv.
Qed.
Lemma add_equiv (x y : bf) : SFadd prec emax (B2SF x) (B2SF y) = B2SF (Bplus mode_NE x y).
Proof.
  destruct x as [sx|sx| |sx mx ex Bx], y as [sy|sy| |sy my ey By]; try (cbn; destruct (Bool.eqb _ _); reflexivity); try reflexivity.
  apply normalize_equiv.
Qed.
Lemma sub_equiv (x y : bf) : SFsub prec emax (B2SF x) (B2SF y) = B2SF (Bminus mode_NE x y).
Proof.
  destruct x as [sx|sx| |sx mx ex Bx], y as [sy|sy| |sy my ey By]; try (cbn; destruct (Bool.eqb _ _); reflexivity); try reflexivity.
  cbn. unfold Zminus. rewrite <- cond_Zopp_negb. apply normalize_equiv.
Qed.
Lemma div_equiv (x y : bf) : SFdiv prec emax (B2SF x) (B2SF y) = B2SF (Bdiv mode_NE x y).
Proof.
  destruct x as [sx|sx| |sx mx ex Bx], y as [sy|sy| |sy my ey By]; try reflexivity.
  cbn. rewrite B2SF_SF2B. destruct (SFdiv_core_binary _ _ _ _ _ _) as [[mz ez] lz]. apply round_aux_equiv.
Qed.
Lemma sqrt_equiv (x : bf) : SFsqrt prec emax (B2SF x) = B2SF (Bsqrt mode_NE x).
Proof.
  destruct x as [sx|sx| |sx mx ex Bx]; try (destruct sx; reflexivity); try reflexivity.
  destruct sx; [reflexivity|]. cbn. rewrite B2SF_SF2B. destruct (SFsqrt_core_binary _ _ _ _) as [[mz ez] lz].
  apply round_aux_equiv.
Qed.

(** Numbers of the specification are the finite numbers of Flocq. *)
Lemma bpow2 e : bpow radix2 e = powerRZ 2 e.
Proof. rewrite bpow_powerRZ. reflexivity. Qed.
Lemma stands_iff x r : stands_for x r <-> exists b : bf, x = B2SF b /\ is_finite b = true /\ B2R b = r.
Proof.
  split.
  - intros [Hv H]. exists (SF2B x Hv). rewrite B2SF_SF2B. split; [reflexivity|].
    destruct x as [s|s| |s m e]; try contradiction; cbn.
    + subst r. auto.
    + subst r. split; auto. unfold F2R. cbn. rewrite bpow2. destruct s; reflexivity.
  - intros (b & -> & Hf & <-). split; [apply valid_binary_B2SF|].
    destruct b as [s|s| |s m e B]; cbn in Hf; try discriminate; cbn; [reflexivity|].
    unfold F2R. cbn. rewrite bpow2. destruct s; reflexivity.
Qed.
Lemma stands_B (b : bf) r : is_finite b = true -> B2R b = r -> stands_for (B2SF b) r.
Proof. intros. apply stands_iff. eauto. Qed.
Lemma stands_unique x r s : stands_for x r -> stands_for x s -> r = s.
Proof. intros [_ H] [_ K]. destruct x; try contradiction; congruence. Qed.

Lemma rn64_round r : round radix2 (SpecFloat.fexp prec emax) (round_mode mode_NE) r = rn64 r.
Proof. reflexivity. Qed.

Lemma fits_bool r : fits r <-> Rlt_bool (Rabs (rn64 r)) (bpow radix2 emax) = true.
Proof.
  unfold fits. rewrite bpow2. split; intros H; [apply Rlt_bool_true; exact H|].
  destruct (Rlt_bool_spec (Rabs (rn64 r)) (powerRZ 2 1024)); [assumption|discriminate].
Qed.
Lemma not_fits_bool r : ~ fits r <-> Rlt_bool (Rabs (rn64 r)) (bpow radix2 emax) = false.
Proof. rewrite fits_bool. destruct (Rlt_bool _ _); split; congruence. Qed.

Lemma overflow_sign (s : bool) r : s = Rlt_bool r 0 -> infinite (binary_overflow prec emax mode_NE s) r.
Proof.
  intros ->. unfold infinite, binary_overflow. cbn. destruct (Rlt_dec r 0), (Rlt_bool_spec r 0); try reflexivity; lra.
Qed.

Lemma not_fits_nonzero r : ~ fits r -> r <> 0.
Proof.
  intros H ->. apply H. unfold fits, rn64, rne. rewrite round_0, Rabs_R0 by apply valid_rnd_N.
  apply powerRZ_lt. lra.
Qed.

Lemma sign_nonzero (b : bf) : is_finite b = true -> B2R b <> 0 -> Bsign b = Rlt_bool (B2R b) 0.
Proof.
  destruct b as [s|s| |s m e B]; cbn; try discriminate; intros _ H; [contradiction|].
  destruct s; cbn.
  - symmetry. apply Rlt_bool_true. apply F2R_lt_0. reflexivity.
  - symmetry. apply Rlt_bool_false. apply Rlt_le, F2R_gt_0. reflexivity.
Qed.

Lemma xor_mult r s : r <> 0 -> s <> 0 -> xorb (Rlt_bool r 0) (Rlt_bool s 0) = Rlt_bool (r * s) 0.
Proof.
  intros Hr Hs.
  destruct (Rlt_bool_spec r 0), (Rlt_bool_spec s 0), (Rlt_bool_spec (r * s) 0); cbn; try reflexivity; exfalso; nra.
Qed.
Lemma inv_sign s : s <> 0 -> Rlt_bool (/ s) 0 = Rlt_bool s 0.
Proof.
  intros H. destruct (Rlt_bool_spec s 0) as [K|K].
  - apply Rlt_bool_true. apply Rinv_lt_0_compat. exact K.
  - apply Rlt_bool_false. apply Rlt_le, Rinv_0_lt_compat. lra.
Qed.

Section Ops.
  Context (x y : sfloat) (r s : R) (Hx : stands_for x r) (Hy : stands_for y s).

  Lemma add_ok : (fits (r + s) -> stands_for (fadd (Arith:=F64) x y) (rn64 (r + s))) /\
    (~ fits (r + s) -> infinite (fadd (Arith:=F64) x y) (r + s)).
  Proof.
    apply stands_iff in Hx as (a & -> & Fa & <-). apply stands_iff in Hy as (b & -> & Fb & <-).
    change (fadd (Arith:=F64)) with (SFadd prec emax). rewrite add_equiv.
    pose proof (Bplus_correct prec emax _ _ mode_NE a b Fa Fb) as H. rewrite rn64_round in H. split; intros K.
    - apply fits_bool in K. rewrite K in H. apply stands_B; apply H.
    - pose proof (not_fits_nonzero _ K) as N. apply not_fits_bool in K. rewrite K in H. destruct H as [H Hs].
      rewrite H. apply overflow_sign.
      destruct (Bsign a) eqn:Ea.
      + assert (La : B2R a <= 0). { destruct a as [z|z| |z m e B]; cbn in *; try lra. subst z. apply F2R_le_0. cbn. lia. }
        assert (Lb : B2R b <= 0). { destruct b as [z|z| |z m e B]; cbn in *; try lra. subst z. apply F2R_le_0. cbn. lia. }
        symmetry. apply Rlt_bool_true. lra.
      + assert (La : 0 <= B2R a). { destruct a as [z|z| |z m e B]; cbn in *; try lra. subst z. apply F2R_ge_0. cbn. lia. }
        assert (Lb : 0 <= B2R b). { destruct b as [z|z| |z m e B]; cbn in *; try lra. subst z. apply F2R_ge_0. cbn. lia. }
        symmetry. apply Rlt_bool_false. lra.
  Qed.

  Lemma sub_ok : (fits (r - s) -> stands_for (fsub (Arith:=F64) x y) (rn64 (r - s))) /\
    (~ fits (r - s) -> infinite (fsub (Arith:=F64) x y) (r - s)).
  Proof.
    apply stands_iff in Hx as (a & -> & Fa & <-). apply stands_iff in Hy as (b & -> & Fb & <-).
    change (fsub (Arith:=F64)) with (SFsub prec emax). rewrite sub_equiv.
    pose proof (Bminus_correct prec emax _ _ mode_NE a b Fa Fb) as H. rewrite rn64_round in H. split; intros K.
    - apply fits_bool in K. rewrite K in H. apply stands_B; apply H.
    - apply not_fits_bool in K. rewrite K in H. destruct H as [H Hs]. pose proof K as K0. apply not_fits_bool in K0.
      apply not_fits_nonzero in K0.
      rewrite H. apply overflow_sign.
      destruct (Bsign a) eqn:Ea.
      + assert (La : B2R a <= 0). { destruct a as [z|z| |z m e B]; cbn in *; try lra. subst z. apply F2R_le_0. cbn. lia. }
        assert (Lb : 0 <= B2R b). { destruct b as [z|z| |z m e B]; cbn in *; try lra. destruct z; [discriminate|]. apply F2R_ge_0. cbn. lia. }
        symmetry. apply Rlt_bool_true. lra.
      + assert (La : 0 <= B2R a). { destruct a as [z|z| |z m e B]; cbn in *; try lra. subst z. apply F2R_ge_0. cbn. lia. }
        assert (Lb : B2R b <= 0). { destruct b as [z|z| |z m e B]; cbn in *; try lra. destruct z; [|discriminate]. apply F2R_le_0. cbn. lia. }
        symmetry. apply Rlt_bool_false. lra.
  Qed.

  Lemma mul_ok : (fits (r * s) -> stands_for (fmul (Arith:=F64) x y) (rn64 (r * s))) /\
    (~ fits (r * s) -> infinite (fmul (Arith:=F64) x y) (r * s)).
  Proof.
    apply stands_iff in Hx as (a & -> & Fa & <-). apply stands_iff in Hy as (b & -> & Fb & <-).
    change (fmul (Arith:=F64)) with (SFmul prec emax). rewrite mul_equiv.
    pose proof (Bmult_correct prec emax _ _ mode_NE a b) as H. rewrite rn64_round in H. split; intros K.
    - apply fits_bool in K. rewrite K in H. destruct H as (H1 & H2 & _). rewrite Fa, Fb in H2. apply stands_B; auto.
    - pose proof (not_fits_nonzero _ K) as N. apply not_fits_bool in K. rewrite K in H. rewrite H. apply overflow_sign.
      assert (B2R a <> 0) by (intros E; apply N; rewrite E; lra).
      assert (B2R b <> 0) by (intros E; apply N; rewrite E; lra).
      rewrite !sign_nonzero by assumption. apply xor_mult; assumption.
  Qed.

  Lemma div_ok : s <> 0 -> (fits (r / s) -> stands_for (fdiv (Arith:=F64) x y) (rn64 (r / s))) /\
    (~ fits (r / s) -> infinite (fdiv (Arith:=F64) x y) (r / s)).
  Proof.
    apply stands_iff in Hx as (a & -> & Fa & <-). apply stands_iff in Hy as (b & -> & Fb & <-). intros Z.
    change (fdiv (Arith:=F64)) with (SFdiv prec emax). rewrite div_equiv.
    pose proof (Bdiv_correct prec emax _ _ mode_NE a b Z) as H. rewrite rn64_round in H. split; intros K.
    - apply fits_bool in K. rewrite K in H. destruct H as (H1 & H2 & _). rewrite Fa in H2. apply stands_B; auto.
    - pose proof (not_fits_nonzero _ K) as N. apply not_fits_bool in K. rewrite K in H. rewrite H. apply overflow_sign.
      assert (B2R a <> 0) by (intros E; apply N; rewrite E; unfold Rdiv; lra).
      rewrite !sign_nonzero by assumption. rewrite <- (inv_sign (B2R b)) by assumption. apply xor_mult; [assumption|].
      apply Rinv_neq_0_compat. assumption.
  Qed.

  Lemma compare_ok : fltb (Arith:=F64) x y = Rltb r s /\ fleb (Arith:=F64) x y = Rleb r s /\ feqb (Arith:=F64) x y = Reqb r s.
  Proof.
    apply stands_iff in Hx as (a & -> & Fa & <-). apply stands_iff in Hy as (b & -> & Fb & <-).
    change (fltb (Arith:=F64)) with SFltb. change (fleb (Arith:=F64)) with SFleb. change (feqb (Arith:=F64)) with SFeqb.
    split; [|split].
    - change (SFltb (B2SF a) (B2SF b)) with (Bltb a b). rewrite Bltb_correct by assumption. unfold Rltb.
      destruct (Rlt_dec _ _), (Rlt_bool_spec (B2R a) (B2R b)); try reflexivity; lra.
    - change (SFleb (B2SF a) (B2SF b)) with (Bleb a b). rewrite Bleb_correct by assumption. unfold Rleb.
      destruct (Rle_dec _ _), (Rle_bool_spec (B2R a) (B2R b)); try reflexivity; lra.
    - change (SFeqb (B2SF a) (B2SF b)) with (Beqb a b). rewrite Beqb_correct by assumption. unfold Reqb.
      destruct (Req_EM_T _ _), (Req_bool_spec (B2R a) (B2R b)); try reflexivity; lra.
  Qed.

  Lemma opp_ok : stands_for (fopp (Arith:=F64) x) (- r).
  Proof.
    apply stands_iff in Hx as (a & -> & Fa & <-). change (fopp (Arith:=F64)) with SFopp.
    replace (SFopp (B2SF a)) with (B2SF (Bopp a)) by (destruct a; reflexivity).
    apply stands_B; [rewrite is_finite_Bopp; exact Fa|apply B2R_Bopp].
  Qed.
  Lemma abs_ok : stands_for (fabs (Arith:=F64) x) (Rabs r).
  Proof.
    apply stands_iff in Hx as (a & -> & Fa & <-). change (fabs (Arith:=F64)) with SFabs.
    replace (SFabs (B2SF a)) with (B2SF (Babs a)) by (destruct a; reflexivity).
    apply stands_B; [rewrite is_finite_Babs; exact Fa|apply B2R_Babs].
  Qed.
  Lemma sqrt_ok : 0 <= r -> stands_for (fsqrt (Arith:=F64) x) (rn64 (sqrt r)).
  Proof.
    intros Hr. apply stands_iff in Hx as (a & -> & Fa & <-). change (fsqrt (Arith:=F64)) with (SFsqrt prec emax).
    rewrite sqrt_equiv. destruct (Bsqrt_correct prec emax _ _ mode_NE a) as (H1 & H2 & _). apply stands_B.
    - rewrite H2. destruct a as [z|z| |z m e B]; cbn in *; try discriminate; auto. destruct z; auto.
      exfalso. exact (Rlt_not_le _ _ (F2R_lt_0 radix2 (Float radix2 (Z.neg m) e) eq_refl) Hr).
    - rewrite H1. apply rn64_round.
  Qed.
  Lemma nan_ok : fnan (Arith:=F64) x = false.
  Proof. destruct Hx as [_ H]. destruct x; try contradiction; reflexivity. Qed.
End Ops.

Lemma of_Z_ok n : (fits (IZR n) -> stands_for (fz (Arith:=F64) n) (rn64 (IZR n))) /\
  (~ fits (IZR n) -> infinite (fz (Arith:=F64) n) (IZR n)).
Proof.
  change (fz (Arith:=F64) n) with (SpecFloat.binary_normalize prec emax n 0 false). rewrite normalize_equiv.
  pose proof (binary_normalize_correct prec emax _ _ mode_NE n 0 false) as H. cbv zeta in H.
  rewrite rn64_round in H. replace (F2R (Float radix2 n 0)) with (IZR n) in H by (unfold F2R; change (bpow radix2 (Fexp (Float radix2 n 0))) with 1; rewrite Rmult_1_r; reflexivity).
  split; intros K.
  - apply fits_bool in K. rewrite K in H. apply stands_B; apply H.
  - apply not_fits_bool in K. rewrite K in H. rewrite H. apply overflow_sign. reflexivity.
Qed.

(** ** Whole parts *)
Definition sm (s : bool) (m : positive) : Z := if s then Z.neg m else Z.pos m.
Lemma pow_pos_e z e : (0 <= e)%Z -> IZR z * powerRZ 2 e = IZR (z * 2 ^ e).
Proof. intros H. rewrite mult_IZR. f_equal. rewrite <- bpow2. change 2%Z with (radix_val radix2). rewrite IZR_Zpower by exact H. reflexivity. Qed.
Lemma pow_neg_e z e : (e < 0)%Z -> IZR z * powerRZ 2 e = IZR z / IZR (2 ^ (- e)).
Proof.
  intros H. unfold Rdiv. f_equal. rewrite <- bpow2. change 2%Z with (radix_val radix2). rewrite IZR_Zpower by lia.
  rewrite <- bpow_opp. f_equal. lia.
Qed.

Lemma floor_ok x r : stands_for x r -> ffloor (Arith:=F64) x = Zfloor r.
Proof.
  intros [_ H]. change (ffloor (Arith:=F64)) with sf_floor. destruct x as [s|s| |s m e]; try contradiction; cbn [sf_floor].
  - subst r. change 0 with (IZR 0). rewrite Zfloor_IZR. reflexivity.
  - fold (sm s m) in *. subst r. destruct (Z.leb_spec 0 e).
    + rewrite pow_pos_e by assumption. rewrite Zfloor_IZR. reflexivity.
    + rewrite pow_neg_e by assumption. rewrite Zfloor_div; [reflexivity|]. pose proof (Z.pow_pos_nonneg 2 (- e)). lia.
Qed.

Lemma trunc_ok x r : stands_for x r -> ftrunc (Arith:=F64) x = Ztrunc r.
Proof.
  intros [_ H]. change (ftrunc (Arith:=F64)) with sf_trunc. destruct x as [s|s| |s m e]; try contradiction; cbn [sf_trunc].
  - subst r. change 0 with (IZR 0). rewrite Ztrunc_IZR. reflexivity.
  - assert (E : (if (0 <=? e)%Z then Z.pos m * 2 ^ e else Z.pos m / 2 ^ (- e))%Z = Ztrunc (IZR (Z.pos m) * powerRZ 2 e)).
    { destruct (Z.leb_spec 0 e).
      + rewrite pow_pos_e by assumption. rewrite Ztrunc_IZR. reflexivity.
      + rewrite pow_neg_e by assumption. pose proof (Z.pow_pos_nonneg 2 (- e)). rewrite Ztrunc_div by lia.
        rewrite Z.quot_div_nonneg by lia. reflexivity. }
    rewrite E. subst r. destruct s; [|reflexivity]. rewrite <- Ztrunc_opp. f_equal.
    change (Z.neg m) with (- Z.pos m)%Z. rewrite opp_IZR. ring.
Qed.

Lemma rint_ok x r : stands_for x r -> frint (Arith:=F64) x = ZnearestE r.
Proof.
  intros [_ H]. change (frint (Arith:=F64)) with sf_rint. destruct x as [s|s| |s m e]; try contradiction; cbn [sf_rint].
  - subst r. change 0 with (IZR 0). rewrite (@Zrnd_IZR ZnearestE) by (apply valid_rnd_N). reflexivity.
  - fold (sm s m) in *. subst r. destruct (Z.leb_spec 0 e).
    + rewrite pow_pos_e by assumption. rewrite (@Zrnd_IZR ZnearestE) by (apply valid_rnd_N). reflexivity.
    + rewrite pow_neg_e by assumption. set (d := (2 ^ (- e))%Z). set (z := sm s m).
      assert (Hd : (0 < d)%Z) by (apply Z.pow_pos_nonneg; lia).
      assert (HdR : 0 < IZR d) by (apply IZR_lt; exact Hd).
      pose proof (Z.div_mod z d ltac:(lia)) as E. pose proof (Z.mod_pos_bound z d Hd) as B.
      set (q := (z / d)%Z) in *. set (m1 := (z mod d)%Z) in *.
      assert (F : Zfloor (IZR z / IZR d) = q) by (apply Zfloor_div; lia).
      assert (V : IZR z / IZR d - IZR q = IZR m1 / IZR d).
      { rewrite E, plus_IZR, mult_IZR. field. lra. }
      assert (T : forall c, (c <? d)%Z = true -> IZR c < IZR d) by (intros c Hc; apply IZR_lt; apply Z.ltb_lt; exact Hc).
      unfold Znearest. rewrite F, V.
      assert (CE : (Zceil (IZR z / IZR d) = if (m1 =? 0)%Z then q else q + 1)%Z).
      { destruct (Z.eqb_spec m1 0) as [M|M].
        - replace (IZR z / IZR d) with (IZR q) by (rewrite M in V; lra). apply Zceil_IZR.
        - rewrite Zceil_floor_neq; [rewrite F; reflexivity|]. rewrite F. intros K.
          assert (IZR m1 / IZR d = 0) by lra. assert (IZR m1 = 0) by (apply (Rmult_eq_reg_r (/ IZR d)); [lra|apply Rinv_neq_0_compat; lra]).
          apply eq_IZR in H1. contradiction. }
      rewrite CE.
      destruct (Z.ltb_spec (2 * m1) d) as [C1|C1].
      * rewrite Rcompare_Lt; [reflexivity|]. apply (Rmult_lt_reg_r (IZR d)); [exact HdR|]. unfold Rdiv.
        rewrite Rmult_assoc, Rinv_l by lra. apply IZR_lt in C1. rewrite mult_IZR in C1. lra.
      * destruct (Z.ltb_spec d (2 * m1)) as [C2|C2].
        -- rewrite Rcompare_Gt. { destruct (Z.eqb_spec m1 0); [lia|reflexivity]. }
           apply (Rmult_lt_reg_r (IZR d)); [exact HdR|]. unfold Rdiv.
           rewrite (Rmult_assoc (IZR m1)), Rinv_l by lra. apply IZR_lt in C2. rewrite mult_IZR in C2. lra.
        -- assert (C : (2 * m1 = d)%Z) by lia. rewrite Rcompare_Eq.
           { destruct (Z.eqb_spec m1 0); [lia|]. destruct (Z.even q); reflexivity. }
           rewrite <- C, mult_IZR. field. apply not_0_IZR. lia.
Qed.
