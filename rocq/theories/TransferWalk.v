(** The paths of the water parcels in binary64 (C76). *)
From Coq Require Import ZArith Reals Lra Lia Bool Floats.SpecFloat List.
From Flocq Require Import Core.
From Verif Require Import Base RLemmas RoundingFlocq Shared SharedSpec SharedProofs Params State Water VecLemmas
  Binary64Spec Binary64 Transfer.
Import ListNotations.
Local Open Scope R_scope.

(** ** Weighted choice *)
Section Pick.
  Context {S : Type} {GF : Rng sfloat S} {GR : Rng R S}.
  Context (HG : forall s, stands_for (fst (draw (Rng:=GF) s)) (fst (draw (Rng:=GR) s)) /\ snd (draw (Rng:=GF) s) = snd (draw (Rng:=GR) s))
          (HU : uniform_range GR).

  Lemma cumsum_rel l m : Forall2 (rel 0) l m -> forall c x r, (0 <= c)%Z -> (c + Z.of_nat (length l) <= 1000)%Z -> rel c x r ->
    Forall2 (rel (c + Z.of_nat (length l))) (cumsum_from (A:=F64) x l) (cumsum_from (A:=XR) r m).
  Proof.
    induction 1 as [|x r l m Hx Hl IH]; intros c a b Hc Hn Ha; cbn [cumsum_from]; [constructor|]. cbn [length] in *.
    assert (K : rel (c + 1) (fadd (Arith:=F64) a x) (fadd (Arith:=XR) b r)).
    { replace (c + 1)%Z with (Z.max c 0 + 1)%Z by lia. apply rel_add; [lia|lia|exact Ha|exact Hx]. }
    constructor; [apply (rel_mono (c + 1)); [lia|exact K]|].
    replace (c + Z.of_nat (Datatypes.S (length l)))%Z with (c + 1 + Z.of_nat (length l))%Z by lia.
    apply IH; [lia|lia|exact K].
  Qed.
  Lemma last_rel b l m x r : Forall2 (rel b) l m -> rel b x r -> rel b (last l x) (last m r).
  Proof.
    intros H Hx. induction H as [|y s l m Hy Hl IH]; [exact Hx|]. cbn [last]. destruct Hl; [exact Hy|exact IH].
  Qed.
  Lemma search_rel b l m x r : Forall2 (rel b) l m -> rel b x r -> searchsorted (A:=F64) l x = searchsorted (A:=XR) m r.
  Proof.
    intros H Hx. induction H as [|y s l m Hy Hl IH]; [reflexivity|]. cbn [searchsorted].
    rewrite (rel_lt Hy Hx), IH. reflexivity.
  Qed.
  Lemma F2_length {T U} (f : T -> U -> Prop) l m : Forall2 f l m -> length l = length m.
  Proof. induction 1; cbn; auto. Qed.

  Lemma pick_rel l m s : Forall2 (rel 0) l m -> (Z.of_nat (length l) <= 900)%Z ->
    random_pick (A:=F64) (G:=GF) l s = random_pick (A:=XR) (G:=GR) m s.
  Proof.
    intros H Hn. unfold random_pick, get_random_uniform.
    destruct (HG s) as [H1 H2]. pose proof (HU s) as HU0.
    destruct (draw (Rng:=GF) s) as [u s'], (draw (Rng:=GR) s) as [u' s'']. cbn [fst snd] in *. subst s''.
    pose proof (cumsum_rel l m H 0 _ _ ltac:(lia) ltac:(lia) zero_rel) as C. fold (cumsum (A:=F64) l) (cumsum (A:=XR) m) in C.
    assert (Lt : rel (0 + Z.of_nat (length l)) (last (cumsum (A:=F64) l) (fz (Arith:=F64) 0)) (last (cumsum (A:=XR) m) (fz (Arith:=XR) 0))).
    { apply last_rel; [exact C|]. apply (rel_mono 0); [lia|exact zero_rel]. }
    assert (U : rel 0 u u'). { split; [exact H1|]. rewrite Rabs_pos_eq by lra. change (bpow radix2 0) with 1. lra. }
    assert (V : rel (0 + Z.of_nat (length l) + 0) (fmul (Arith:=F64) (last (cumsum (A:=F64) l) (fz (Arith:=F64) 0)) u)
      (fmul (Arith:=XR) (last (cumsum (A:=XR) m) (fz (Arith:=XR) 0)) u')) by (apply rel_mul; [lia|lia|exact Lt|exact U|lia]).
    rewrite Z.add_0_r in V. rewrite (search_rel _ _ _ _ _ C V).
    rewrite (F2_length _ _ _ H). reflexivity.
  Qed.

  (** ** Entry columns *)
  Lemma fold_list_rel l m : Forall2 (rel 0) l m -> forall c x r, (0 <= c)%Z -> (c + Z.of_nat (length l) <= 1000)%Z -> rel c x r ->
    rel (c + Z.of_nat (length l)) (fold_left (fadd (Arith:=F64)) l x) (fold_left (fadd (Arith:=XR)) m r).
  Proof.
    induction 1 as [|x r l m Hx Hl IH]; intros c a b Hc Hn Ha; cbn [fold_left length] in *.
    - replace (c + Z.of_nat 0)%Z with c by lia. exact Ha.
    - replace (c + Z.of_nat (Datatypes.S (length l)))%Z with (c + 1 + Z.of_nat (length l))%Z by lia.
      apply IH; [lia|lia|]. replace (c + 1)%Z with (Z.max c 0 + 1)%Z by lia. apply rel_add; [lia|lia|exact Ha|exact Hx].
  Qed.
  Lemma fold_ones n : forall r, 1 <= r -> rn64 r = r -> 1 <= fold_left (fadd (Arith:=XR)) (repeat 1 n) r.
  Proof.
    induction n as [|n IH]; intros r Hr Er; cbn [repeat fold_left]; [exact Hr|].
    apply IH; cbn [fadd RA]; [|apply rnd_idem]. apply (Rle_trans _ (rn64 1)); [rewrite rnd_1; lra|apply rnd_mono; lra].
  Qed.
  Lemma ones_R (inlet : list Z) : get_inlet_weights (A:=XR) inlet = repeat 1 (length inlet).
  Proof. unfold get_inlet_weights. rewrite rz by lia. induction inlet; cbn; congruence. Qed.

  Lemma norm_rel inlet : (Z.of_nat (length inlet) <= 900)%Z ->
    Forall2 (rel 0) (norm_weights (A:=F64) (get_inlet_weights (A:=F64) inlet)) (norm_weights (A:=XR) (get_inlet_weights (A:=XR) inlet)).
  Proof.
    intros Hn. set (l := get_inlet_weights (A:=F64) inlet). set (m := get_inlet_weights (A:=XR) inlet).
    assert (H : Forall2 (rel 0) l m).
    { unfold l, m, get_inlet_weights. clear. induction inlet; cbn [map]; constructor; [exact one_rel|exact IHinlet]. }
    assert (Hl : length l = length inlet) by (unfold l, get_inlet_weights; apply map_length).
    assert (T : rel (0 + Z.of_nat (length l)) (fold_left (fadd (Arith:=F64)) l (fz (Arith:=F64) 0)) (fold_left (fadd (Arith:=XR)) m (fz (Arith:=XR) 0))).
    { apply fold_list_rel; [exact H|lia|lia|exact zero_rel]. }
    unfold norm_weights.
    destruct inlet as [|c cs]; [constructor|].
    assert (T1 : 1 <= fold_left (fadd (Arith:=XR)) m (fz (Arith:=XR) 0)).
    { unfold m. rewrite ones_R. cbn [length repeat fold_left].
      assert (E : fadd (Arith:=XR) (fz (Arith:=XR) 0) 1 = 1).
      { rewrite rz by lia. cbn [fadd RA]. replace (0 + 1) with 1 by lra. apply rnd_1. }
      rewrite E. apply fold_ones; [lra|apply rnd_1]. }
    clearbody l m. revert T T1. generalize (fold_left (fadd (Arith:=F64)) l (fz (Arith:=F64) 0)) (fold_left (fadd (Arith:=XR)) m (fz (Arith:=XR) 0)).
    intros t t' T T1. set (b := (0 + Z.of_nat (length l))%Z) in T. clearbody b. clear - H T T1.
    induction H as [|x r l m Hx Hl IH]; cbn [map]; constructor; [|exact IH].
    apply (rel_div1 0 b); [lia|exact Hx|exact T|exact T1].
  Qed.

  Lemma starts_rel inlet n s : (Z.of_nat (length inlet) <= 900)%Z ->
    get_start_indices (A:=F64) (G:=GF) inlet (get_inlet_weights (A:=F64) inlet) n s
    = get_start_indices (A:=XR) (G:=GR) inlet (get_inlet_weights (A:=XR) inlet) n s.
  Proof.
    intros Hn. unfold get_start_indices. pose proof (norm_rel inlet Hn) as H. revert H.
    assert (Hl : length (norm_weights (A:=F64) (get_inlet_weights (A:=F64) inlet)) = length inlet).
    { unfold norm_weights, get_inlet_weights. rewrite !map_length. reflexivity. }
    revert Hl. generalize (norm_weights (A:=F64) (get_inlet_weights (A:=F64) inlet)) (norm_weights (A:=XR) (get_inlet_weights (A:=XR) inlet)).
    intros l m Hl H. revert s. induction (Z.to_nat n) as [|k IH]; intros s; cbn [start_loop]; [reflexivity|].
    rewrite (pick_rel l m s H) by lia. destruct (random_pick (A:=XR) m s) as [[q s']|e]; [|reflexivity].
    destruct (nth_error inlet q); [|reflexivity]. rewrite IH. reflexivity.
  Qed.

  (** ** Steps of the parcels *)
  Context (PF : params sfloat) (PR : params R).
  Context (EL : p_L PF = p_L PR) (EW : p_W PF = p_W PR) (EC : p_CTR PF = p_CTR PR) (E0 : p_L0 PF = p_L0 PR)
    (Es : p_stepmax PF = p_stepmax PR) (Ei : p_inlet PF = p_inlet PR) (En : p_Np_water PF = p_Np_water PR).
  Context (HL : (1 <= p_L PR <= 10000)%Z) (HW : (1 <= p_W PR <= 10000)%Z) (HC : (0 <= p_CTR PR <= 10000)%Z).
  Notation L := (p_L PR).
  Notation W := (p_W PR).

  Definition wrel (wF : Z -> Z -> vec sfloat) (wR : Z -> Z -> vec R) : Prop :=
    forall i j, inb L W i j -> vrel 0 (wF i j) (wR i j).

  Lemma flat_ix_eq n : flat_ix PF n = flat_ix PR n.
  Proof. unfold flat_ix. rewrite EL, EW. reflexivity. Qed.
  Lemma flat_ix_in n m : flat_ix PR n = Ok m -> inb L W (m / W) (m mod W).
  Proof.
    unfold flat_ix. destruct (_ && _)%bool eqn:E; [|discriminate]. intros H. injection H as <-.
    apply andb_prop in E as [E1 E2]. apply Z.leb_le in E1. apply Z.ltb_lt in E2. split.
    - split; [apply Z.div_pos; lia|]. apply Z.div_lt_upper_bound; [lia|]. rewrite (Z.mul_comm W L). exact E2.
    - apply Z.mod_pos_bound. lia.
  Qed.

  Lemma choose_rel wF wR ps s : wrel wF wR ->
    choose_next_directions (A:=F64) (G:=GF) PF wF ps s = choose_next_directions (A:=XR) (G:=GR) PR wR ps s.
  Proof.
    intros Hw. revert s. induction ps as [|p ps IH]; intros s; cbn [choose_next_directions]; [reflexivity|].
    rewrite flat_ix_eq, EW.
    assert (E : (do n <- flat_ix PR (cur p); random_pick (A:=F64) (G:=GF) (map (wF (n / W) (n mod W))%Z D9) s)
              = (do n <- flat_ix PR (cur p); random_pick (A:=XR) (G:=GR) (map (wR (n / W) (n mod W))%Z D9) s)).
    { destruct (flat_ix PR (cur p)) as [n|e] eqn:En'; cbn [rbind]; [|reflexivity]. apply pick_rel; [|cbn; lia].
      apply flat_ix_in in En'. specialize (Hw _ _ En'). unfold D9. cbn [seq map].
      repeat (constructor; [apply Hw; lia|]). constructor. }
    rewrite E. destruct (if (cur p =? 0)%Z then _ else _) as [[d s1]|e]; cbn [rbind]; [|reflexivity].
    rewrite IH. reflexivity.
  Qed.

  Lemma newinds_eq ps : calculate_new_inds PF ps = calculate_new_inds PR ps.
  Proof. unfold calculate_new_inds, calculate_new_ind. rewrite EW. reflexivity. Qed.

  Lemma sqrt_int_rel n : (0 <= n <= 2 ^ 52)%Z ->
    rel 52 (fsqrt (Arith:=F64) (fz (Arith:=F64) n)) (fsqrt (Arith:=XR) (fz (Arith:=XR) n)) /\
    fz (Arith:=XR) n = IZR n /\
    (forall m, (Z.abs m <= 2 ^ 20)%Z -> (m * m <= n)%Z -> Rabs (IZR m) <= fsqrt (Arith:=XR) (fz (Arith:=XR) n)).
  Proof.
    intros Hn.
    assert (E : rn64 (IZR n) = IZR n).
    { unfold rn64, rne. apply round_generic; [apply valid_rnd_N|]. apply generic_format_FLT.
      exists (Float radix2 n 0); cbn; [unfold F2R; cbn; lra|lia|lia]. }
    assert (Z1 : rel 52 (fz (Arith:=F64) n) (IZR n)).
    { rewrite <- E. apply rel_res; [lia| |apply of_Z_ok]. rewrite <- abs_IZR.
      change (bpow radix2 52) with (IZR (2 ^ 52)). apply IZR_le. lia. }
    assert (P0 : 0 <= IZR n) by (apply IZR_le; lia).
    cbn [fz fsqrt RA]. rewrite E. split; [|split; [reflexivity|]].
    - split; [apply sqrt_ok; [apply Z1|exact P0]|]. apply rn_bound; [lia|]. rewrite Rabs_pos_eq by apply sqrt_pos.
      apply Rle_trans with (sqrt (bpow radix2 52 * bpow radix2 52)).
      + apply sqrt_le_1_alt. destruct Z1 as [_ Z1]. rewrite Rabs_pos_eq in Z1 by exact P0.
        assert (1 <= bpow radix2 52) by (change 1 with (bpow radix2 0); apply bpow_le; lia). nra.
      + rewrite sqrt_square by apply bpow_ge_0. lra.
    - intros m Hm Hmn. rewrite <- abs_IZR.
      assert (Em : rn64 (IZR (Z.abs m)) = IZR (Z.abs m)).
      { unfold rn64, rne. apply round_generic; [apply valid_rnd_N|]. apply generic_format_FLT.
        exists (Float radix2 (Z.abs m) 0); cbn; [unfold F2R; cbn; lra|lia|lia]. }
      rewrite <- Em. apply rnd_mono. apply Rsqr_incr_0_var; [|apply sqrt_pos]. unfold Rsqr. rewrite sqrt_sqrt by exact P0.
      rewrite <- mult_IZR. apply IZR_le. nia.
  Qed.

  Lemma ratio_rel n m : (0 < n <= 2 ^ 52)%Z -> (Z.abs m <= 2 ^ 20)%Z -> (m * m <= n)%Z ->
    frint (Arith:=F64) (fmul (Arith:=F64) (fdiv (Arith:=F64) (fz (Arith:=F64) m) (fsqrt (Arith:=F64) (fz (Arith:=F64) n))) (fz (Arith:=F64) 5))
    = frint (Arith:=XR) (fmul (Arith:=XR) (fdiv (Arith:=XR) (fz (Arith:=XR) m) (fsqrt (Arith:=XR) (fz (Arith:=XR) n))) (fz (Arith:=XR) 5)).
  Proof.
    intros Hn Hm Hmn. destruct (sqrt_int_rel n ltac:(lia)) as (H1 & H2 & H3).
    assert (S0 : 0 < fsqrt (Arith:=XR) (fz (Arith:=XR) n)).
    { specialize (H3 1%Z ltac:(cbn; lia) ltac:(lia)). rewrite Rabs_pos_eq in H3 by lra. lra. }
    assert (D : rel 0 (fdiv (Arith:=F64) (fz (Arith:=F64) m) (fsqrt (Arith:=F64) (fz (Arith:=F64) n)))
                  (fdiv (Arith:=XR) (fz (Arith:=XR) m) (fsqrt (Arith:=XR) (fz (Arith:=XR) n)))).
    { apply (rel_div (rel_z m Hm) H1); [lia|lra|]. unfold Rdiv. rewrite Rabs_mult, (Rabs_pos_eq (/ _)) by (apply Rlt_le, Rinv_0_lt_compat; exact S0).
      apply (Rmult_le_reg_r (fsqrt (Arith:=XR) (fz (Arith:=XR) n))); [exact S0|]. rewrite Rmult_assoc, Rinv_l by lra.
      change (bpow radix2 0) with 1. rewrite Rmult_1_l, Rmult_1_r.
      specialize (H3 m Hm Hmn). replace (fz (Arith:=XR) m) with (IZR m); [exact H3|].
      cbn [fz RA]. unfold rn64, rne. rewrite round_generic; [reflexivity|apply valid_rnd_N|]. apply generic_format_FLT.
      exists (Float radix2 m 0); cbn; [unfold F2R; cbn; lra|lia|lia]. }
    apply (rint_ok _ _ (proj1 (rel_mul (a:=0) (b:=20) ltac:(lia) ltac:(lia) D (rel_z 5 ltac:(cbn; lia)) ltac:(lia)))).
  Qed.

  Lemma zero_sqrt n : (0 <= n <= 2 ^ 52)%Z ->
    feqb (Arith:=F64) (fsqrt (Arith:=F64) (fz (Arith:=F64) n)) (fz (Arith:=F64) 0) = feqb (Arith:=XR) (fsqrt (Arith:=XR) (fz (Arith:=XR) n)) (fz (Arith:=XR) 0).
  Proof. intros Hn. destruct (sqrt_int_rel n Hn) as (H1 & _). exact (rel_eq H1 zero_rel). Qed.

  Lemma relocate_rel stale px0 py0 : (0 <= px0 <= L)%Z -> (0 <= py0 <= W)%Z ->
    relocate (A:=F64) PF stale px0 py0 = relocate (A:=XR) PR stale px0 py0.
  Proof.
    intros Hx Hy. unfold relocate. rewrite EC, EL, EW, E0. cbv zeta.
    set (n := ((px0 - 1) * (px0 - 1) + (py0 - p_CTR PR) * (py0 - p_CTR PR))%Z).
    assert (Hn : (0 <= n <= 2 ^ 52)%Z).
    { unfold n. assert (Z.abs (px0 - 1) <= 10000)%Z by lia. assert (Z.abs (py0 - p_CTR PR) <= 10000)%Z by lia. change (2 ^ 52)%Z with 4503599627370496%Z. nia. }
    rewrite (zero_sqrt n Hn).
    destruct (feqb (Arith:=XR) (fsqrt (Arith:=XR) (fz (Arith:=XR) n)) (fz (Arith:=XR) 0)) eqn:E; cbn [negb]; [reflexivity|].
    assert (Hp : (0 < n)%Z).
    { destruct (Z.eq_dec n 0) as [Z|Z]; [|lia]. rewrite Z in E. rewrite rz in E by lia. cbn [fsqrt feqb RA] in E.
      rewrite sqrt_0, rnd_0 in E. unfold Reqb in E. destruct (Req_EM_T 0 0); [discriminate|contradiction]. }
    pose proof (Z.square_nonneg (px0 - 1)) as Q1. pose proof (Z.square_nonneg (py0 - p_CTR PR)) as Q2.
    assert (B1 : (Z.abs (px0 - 1) <= 2 ^ 20 /\ (px0 - 1) * (px0 - 1) <= n)%Z) by (change (2 ^ 20)%Z with 1048576%Z; unfold n; split; [lia|clear E Hn; lia]).
    assert (B2 : (Z.abs (py0 - p_CTR PR) <= 2 ^ 20 /\ (py0 - p_CTR PR) * (py0 - p_CTR PR) <= n)%Z) by (change (2 ^ 20)%Z with 1048576%Z; unfold n; split; [lia|clear E Hn; lia]).
    rewrite (ratio_rel n (px0 - 1)), (ratio_rel n (py0 - p_CTR PR)) by lia. reflexivity.
  Qed.

  (** ** Loops, records and accumulators *)
  Lemma steps_rel k : snd (get_steps (A:=F64) k) = snd (get_steps (A:=XR) k).
  Proof.
    unfold get_steps. cbn [snd]. f_equal. apply zero_sqrt.
    assert (K : (-1 <= iwalk_flat k <= 1)%Z /\ (-1 <= jwalk_flat k <= 1)%Z).
    { unfold iwalk_flat, jwalk_flat. do 9 (destruct k as [|k]; [cbn; lia|]). cbn. destruct k; lia. }
    change (2 ^ 52)%Z with 4503599627370496%Z. nia.
  Qed.

  Definition any {T U} (_ : T) (_ : U) : Prop := True.
  Lemma dirQ_rel ix stp ps : forall q q', both any (update_dirQfield (A:=F64) PF q ix stp ps) (update_dirQfield (A:=XR) PR q' ix stp ps).
  Proof.
    induction ps as [|p ps IH]; intros q q'; cbn [update_dirQfield]; [exact I|].
    pose proof (steps_rel (dir p)) as E. destruct (get_steps (A:=F64) (dir p)) as [[[dF iF] jF] aF].
    destruct (get_steps (A:=XR) (dir p)) as [[[dR iR] jR] aR]. cbn [snd] in E. subst aF.
    destruct aR; [|apply IH]. rewrite flat_ix_eq. destruct (flat_ix PR (ix p)); cbn [rbind]; [apply IH|reflexivity].
  Qed.
  Lemma absQ_rel ix ps : forall q q', both any (update_absQfield (A:=F64) PF q ix ps) (update_absQfield (A:=XR) PR q' ix ps).
  Proof.
    induction ps as [|p ps IH]; intros q q'; cbn [update_absQfield]; [exact I|].
    pose proof (steps_rel (dir p)) as E. destruct (get_steps (A:=F64) (dir p)) as [[[dF iF] jF] aF].
    destruct (get_steps (A:=XR) (dir p)) as [[[dR iR] jR] aR]. cbn [snd] in E. subst aF.
    destruct aR; [|apply IH]. rewrite flat_ix_eq. destruct (flat_ix PR (ix p)); cbn [rbind]; [apply IH|reflexivity].
  Qed.
  Lemma Q_rel q q' ix ps : both any (update_Q (A:=F64) PF q ix ps) (update_Q (A:=XR) PR q' ix ps).
  Proof.
    unfold update_Q. destruct q as [[a b] c], q' as [[a' b'] c'].
    pose proof (dirQ_rel ix jwalk_flat ps a a') as H1.
    destruct (update_dirQfield (A:=F64) PF a ix jwalk_flat ps), (update_dirQfield (A:=XR) PR a' ix jwalk_flat ps); cbn [both rbind] in *; try contradiction; [|exact H1].
    pose proof (dirQ_rel ix iwalk_flat ps b b') as H2.
    destruct (update_dirQfield (A:=F64) PF b ix iwalk_flat ps), (update_dirQfield (A:=XR) PR b' ix iwalk_flat ps); cbn [both rbind] in *; try contradiction; [|exact H2].
    pose proof (absQ_rel ix ps c c') as H3.
    destruct (update_absQfield (A:=F64) PF c ix ps), (update_absQfield (A:=XR) PR c' ix ps); cbn [both rbind] in *; try contradiction; [|exact H3].
    exact I.
  Qed.

  Context (b : Z) (Hb : (0 <= b <= 200)%Z) (stageF : grid sfloat) (stageR : grid R) (hF : sfloat) (hR : R).
  Context (Hst : forall i j, inb L W i j -> rel b (stageF i j) (stageR i j)) (Hh : rel b hF hR).

  Lemma level_rel i j : inb L W i j ->
    fltb (Arith:=F64) (fabs (Arith:=F64) (fsub (Arith:=F64) (stageF i j) hF)) (flit (A:=F64) 1 10)
    = fltb (Arith:=XR) (fabs (Arith:=XR) (fsub (Arith:=XR) (stageR i j) hR)) (flit (A:=XR) 1 10).
  Proof.
    intros H. pose proof (rel_sub (a:=b) (b:=b) ltac:(lia) ltac:(lia) (Hst i j H) Hh) as D.
    assert (A : rel (Z.max b b + 1) (fabs (Arith:=F64) (fsub (Arith:=F64) (stageF i j) hF)) (fabs (Arith:=XR) (fsub (Arith:=XR) (stageR i j) hR))).
    { destruct D as [D1 D2]. split; [exact (abs_ok _ _ D1)|]. cbn [fabs RA]. rewrite Rabs_Rabsolu. exact D2. }
    assert (T : rel 0 (flit (A:=F64) 1 10) (flit (A:=XR) 1 10)).
    { unfold flit. apply (rel_div1 0 20); [lia|exact one_rel|apply rel_z; cbn; lia|]. rewrite rz by lia. lra. }
    exact (rel_lt A T).
  Qed.

  Lemma loops_rel ps : forall stale,
    check_loops_from (A:=F64) PF stageF hF stale ps = check_loops_from (A:=XR) PR stageR hR stale ps.
  Proof.
    induction ps as [|p ps IH]; intros stale; cbn [check_loops_from]; [reflexivity|].
    rewrite EL, EW, E0.
    destruct ((0 <? new p)%Z && _)%bool eqn:E; [|rewrite IH; reflexivity].
    apply andb_prop in E as [E _]. apply Z.ltb_lt in E. unfold custom_unravel.
    destruct (Z.ltb_spec (W * L) (new p)); cbn [rbind]; [reflexivity|].
    rewrite relocate_rel.
    - destruct (relocate (A:=XR) PR stale (new p / W) (new p mod W)) as [[px py]|e]; cbn [rbind]; [|reflexivity].
      destruct (custom_ravel (px, py) (L, W)) as [nind|e]; cbn [rbind]; [|reflexivity].
      destruct (inbb L W (new p / W) (new p mod W)) eqn:Ei'; [|reflexivity].
      rewrite level_rel by (apply inbb_spec; exact Ei'). rewrite IH. reflexivity.
    - split; [apply Z.div_pos; lia|]. apply Z.div_le_upper_bound; lia.
    - pose proof (Z.mod_pos_bound (new p) W ltac:(lia)). lia.
  Qed.
  Lemma check_rel step ps : check_for_loops (A:=F64) PF stageF hF step ps = check_for_loops (A:=XR) PR stageR hR step ps.
  Proof. unfold check_for_loops. rewrite E0, loops_rel. reflexivity. Qed.

  Lemma record_eq ct p : record_step PF ct p = record_step PR ct p.
  Proof. unfold record_step, at_boundary. rewrite flat_ix_eq, EW. reflexivity. Qed.
  Lemma records_eq ct ps : mapM (record_step PF ct) ps = mapM (record_step PR ct) ps.
  Proof. induction ps as [|p ps IH]; [reflexivity|]. cbn [mapM]. rewrite record_eq, IH. reflexivity. Qed.

  (** Same parcels, width of the record and generator. *)
  Definition same_walk (x : list parcel * qfields (F:=sfloat) * Z * S) (y : list parcel * qfields (F:=R) * Z * S) : Prop :=
    fst (fst (fst x)) = fst (fst (fst y)) /\ snd (fst x) = snd (fst y) /\ snd x = snd y.

  Lemma step_rel wF wR ct step x y : wrel wF wR -> same_walk x y ->
    both same_walk (water_step (A:=F64) (G:=GF) PF wF stageF hF ct step x) (water_step (A:=XR) (G:=GR) PR wR stageR hR ct step y).
  Proof.
    destruct x as [[[ps q] w] s], y as [[[ps' q'] w'] s']. intros Hw (A1 & A2 & A3). cbn [fst snd] in *. subst ps' w' s'.
    unfold water_step. cbv zeta. rewrite (choose_rel wF wR ps s Hw).
    destruct (choose_next_directions (A:=XR) PR wR ps s) as [[ps1 s1]|e]; cbn [rbind]; [|reflexivity].
    rewrite newinds_eq. set (ps2 := calculate_new_inds PR ps1).
    pose proof (Q_rel q q' cur ps2) as H1.
    destruct (update_Q (A:=F64) PF q cur ps2) as [q1|e1], (update_Q (A:=XR) PR q' cur ps2) as [q1'|e1']; cbn [both rbind] in *; try contradiction; [|exact H1].
    pose proof (Q_rel q1 q1' new ps2) as H2.
    destruct (update_Q (A:=F64) PF q1 new ps2) as [q2|e2], (update_Q (A:=XR) PR q1' new ps2) as [q2'|e2']; cbn [both rbind] in *; try contradiction; [|exact H2].
    rewrite check_rel. destruct (check_for_loops (A:=XR) PR stageR hR step ps2) as [ps3|e]; cbn [rbind]; [|reflexivity].
    rewrite records_eq. destruct (mapM (record_step PR ct) ps3) as [pbs|e]; cbn [rbind]; [|reflexivity].
    unfold check_size_of_indices_matrix. rewrite Es.
    destruct (step <? _)%Z; [|reflexivity].
    pose proof (Q_rel q2 q2' new (map fst (filter snd pbs))) as H3.
    destruct (update_Q (A:=F64) PF q2 new _) as [q3|e3], (update_Q (A:=XR) PR q2' new _) as [q3'|e3']; cbn [both rbind] in *; try contradiction; [|exact H3].
    unfold same_walk. cbn [fst snd]. auto.
  Qed.

  Lemma loop_rel wF wR ct fuel : wrel wF wR -> forall step x y, same_walk x y ->
    both same_walk (water_loop (A:=F64) (G:=GF) PF wF stageF hF ct fuel step x) (water_loop (A:=XR) (G:=GR) PR wR stageR hR ct fuel step y).
  Proof.
    intros Hw. induction fuel as [|n IH]; intros step x y H; cbn [water_loop]; [exact H|].
    pose proof H as (E1 & _). rewrite E1. destruct (any_active _); [|exact H].
    pose proof (step_rel wF wR ct (step + 1) x y Hw H) as K.
    destruct (water_step (A:=F64) PF wF stageF hF ct (step + 1) x), (water_step (A:=XR) PR wR stageR hR ct (step + 1) y); cbn [both rbind] in *; try contradiction; [|exact K].
    apply IH. exact K.
  Qed.

  (** ** Weights on the grid *)
  Context (n : Z).
  Context (Hd : rel b (p_dry_depth PF) (p_dry_depth PR)) (Hg : rel 0 (p_gamma PF) (p_gamma PR)) (Pg : 0 <= p_gamma PR <= 1)
    (Hn : small_power n) (Ht : stands_for (p_theta_water PF) (p_theta_water PR)) (Etheta : p_theta_water PR = IZR n).

  Definition grel (f : grid sfloat) (g : grid R) : Prop := forall i j, inb L W i j -> rel b (f i j) (g i j).
  Definition gpos (g : grid R) : Prop := forall i j, inb L W i j -> 0 <= g i j.

  Lemma nearest_inb {T} (g : grid T) (Q : T -> Prop) i j : (forall i j, inb L W i j -> Q (g i j)) -> Q (nearest L W g i j).
  Proof. intros H. unfold nearest. apply H. unfold clamp, inb. lia. Qed.
  Lemma window_rel f g d d' i j : grel f g -> inb L W i j -> vrel b (window (custom_pad d L W f) i j) (window (custom_pad d' L W g) i j).
  Proof.
    intros H Hi k Hk. rewrite !pad_window by assumption. unfold nearest. apply H. unfold clamp, inb. lia.
  Qed.
  Lemma window_pos g d i j : gpos g -> inb L W i j -> vpos (window (custom_pad d L W g) i j).
  Proof. intros H Hi k Hk. rewrite pad_window by assumption. apply (nearest_inb g (fun x => 0 <= x)). exact H. Qed.

  Lemma weight_cell_rel depF depR mwF mwR ct qxF qxR qyF qyR i j :
    grel depF depR -> gpos depR -> grel mwF mwR -> gpos mwR -> grel qxF qxR -> grel qyF qyR -> inb L W i j ->
    both (vrel 0) (water_weight_cell (A:=F64) PF depF stageF mwF ct qxF qyF i j)
      (water_weight_cell (A:=XR) PR depR stageR mwR ct qxR qyR i j).
  Proof.
    intros Hdep Pdep Hmw Pmw Hqx Hqy Hi. unfold water_weight_cell. cbv zeta. rewrite !vmemo_id, EL, EW.
    destruct (sfc_rel b _ _ _ _ ltac:(lia) (Hst i j Hi) (window_rel _ _ (fz (Arith:=F64) 0) (fz (Arith:=XR) 0) i j Hst Hi)) as [A1 A2].
    destruct (int_rel b _ _ _ _ ltac:(lia) (Hqx i j Hi) (Hqy i j Hi)) as [B1 B2].
    rewrite Etheta. apply (cell_water_rel _ b); auto.
    - apply window_rel; assumption.
    - apply window_pos; assumption.
    - apply window_rel; assumption.
    - apply window_pos; assumption.
    - rewrite <- Etheta. exact Ht.
  Qed.

  Lemma first_rel {T U} (Q : T -> U -> Prop) f g l : (forall i j, In (i, j) l -> both Q (f i j) (g i j)) ->
    first_err f l = first_err g l /\ (first_err g l = None -> forall i j, In (i, j) l -> exists x y, f i j = Ok x /\ g i j = Ok y /\ Q x y).
  Proof.
    induction l as [|[i j] l IH]; intros H; cbn [first_err]; [split; [reflexivity|intros _ i j []]|].
    pose proof (H i j (or_introl eq_refl)) as K. destruct IH as [I1 I2]; [intros; apply H; right; assumption|].
    destruct (f i j) as [x|e] eqn:Ef, (g i j) as [y|e'] eqn:Eg; cbn [both] in K; try contradiction.
    - split; [exact I1|]. intros N i' j' [X|X]; [injection X as <- <-; eauto|auto].
    - subst e'. split; [reflexivity|discriminate].
  Qed.

  Lemma weights_rel depF depR mwF mwR ct qxF qxR qyF qyR :
    grel depF depR -> gpos depR -> grel mwF mwR -> gpos mwR -> grel qxF qxR -> grel qyF qyR ->
    both wrel (get_water_weight_array (A:=F64) PF depF stageF mwF ct qxF qyF)
      (get_water_weight_array (A:=XR) PR depR stageR mwR ct qxR qyR).
  Proof.
    intros Hdep Pdep Hmw Pmw Hqx Hqy. unfold get_water_weight_array. cbv zeta. rewrite EL, EW.
    destruct (first_rel (vrel 0) (gmemo L W (water_weight_cell (A:=F64) PF depF stageF mwF ct qxF qyF))
      (gmemo L W (water_weight_cell (A:=XR) PR depR stageR mwR ct qxR qyR)) (cells L W)) as [F1 F2].
    { intros i j Hij. rewrite !gmemo_id. apply weight_cell_rel; auto. apply cells_In. exact Hij. }
    rewrite F1. match type of F1 with _ = ?t => destruct t end; [exact eq_refl|]. intros i j Hij.
    destruct (F2 eq_refl i j ltac:(apply cells_In; exact Hij)) as (x & y & -> & -> & H). exact H.
  Qed.

  Lemma run_rel (stF : state sfloat S) (stR : state R S) :
    (Z.of_nat (length (p_inlet PR)) <= 900)%Z ->
    s_stage stF = stageF -> s_stage stR = stageR -> s_H_SL stF = hF -> s_H_SL stR = hR ->
    grel (s_depth stF) (s_depth stR) -> gpos (s_depth stR) ->
    grel (s_mod_water_weight stF) (s_mod_water_weight stR) -> gpos (s_mod_water_weight stR) ->
    grel (s_qx stF) (s_qx stR) -> grel (s_qy stF) (s_qy stR) ->
    s_cell_type stF = s_cell_type stR -> s_width stF = s_width stR -> s_rng stF = s_rng stR ->
    both same_walk (run_water_iteration (A:=F64) (G:=GF) PF stF) (run_water_iteration (A:=XR) (G:=GR) PR stR).
  Proof.
    intros Hi X1 X2 X3 X4 Hdep Pdep Hmw Pmw Hqx Hqy Ect Ewd Erng. unfold run_water_iteration. cbv zeta.
    rewrite X1, X2, X3, X4, Ei, En, Erng, Ect, Ewd, Es, (starts_rel (p_inlet PR) _ _ Hi).
    destruct (get_start_indices (A:=XR) (p_inlet PR) _ (p_Np_water PR) (s_rng stR)) as [[starts s]|e]; cbn [rbind]; [|reflexivity].
    destruct (s_width stR <=? 0)%Z; [reflexivity|].
    pose proof (weights_rel (s_depth stF) (s_depth stR) (s_mod_water_weight stF) (s_mod_water_weight stR) (s_cell_type stR)
      (s_qx stF) (s_qx stR) (s_qy stF) (s_qy stR) Hdep Pdep Hmw Pmw Hqx Hqy) as Wt.
    destruct (get_water_weight_array (A:=F64) PF _ _ _ _ _ _) as [wF|eF], (get_water_weight_array (A:=XR) PR _ _ _ _ _ _) as [wR|eR];
      cbn [both rbind] in *; try contradiction; [|exact Wt].
    apply loop_rel; [exact Wt|]. unfold same_walk. cbn [fst snd]. auto.
  Qed.
End Pick.
