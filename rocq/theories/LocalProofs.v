(** Proofs for C75. *)
From Coq Require Import ZArith List Bool Reals Lra Lia.
From Verif Require Import Base RLemmas Shared SharedSpec Params State Water Sed VecLemmas WaterSpec WeightProofs SedSpec
  SedMass Diffusion SurfaceProofs ChanceSpec SedRules SedRulesProofs Iter IterSpec StepSpec StepProofs LocalSpec.
Import ListNotations.
Local Open Scope R_scope.

Lemma rsum_none {T} (f : T -> R) l : (forall x, In x l -> f x = 0) -> rsum (map f l) = 0.
Proof. intros H. rewrite (rsum_ext f (fun _ => 0)) by exact H. apply rsum_const0. Qed.

Lemma here_other i j a c : ~ (i = a /\ j = c) -> here i j a c = 0.
Proof.
  intros H. unfold here. destruct (Z.eqb_spec a i), (Z.eqb_spec c j); cbn; auto. exfalso. apply H. auto.
Qed.

Lemma over_unreached hs (f : event -> R) a c : ~ reached hs a c ->
  over hs (fun e => f e * here (ev_i e) (ev_j e) a c) = 0.
Proof.
  intros H. apply rsum_none. intros e He. rewrite here_other, Rmult_0_r; auto.
  intros E. apply H. unfold reached. apply Exists_exists. eauto.
Qed.

Lemma flux_unpassed P starts hs a c : ~ passed starts hs a c -> flux_ledger P starts hs a c = 0.
Proof.
  intros H. unfold flux_ledger. rewrite rsum_none; [rewrite Rplus_0_l; apply rsum_none|].
  - intros e He. rewrite !here_other; [lra| |]; intros E; apply H; right; [right|left]; apply Exists_exists; eauto.
  - intros s Hs. rewrite here_other; [lra|]. intros [E1 E2]. apply H. left. subst. auto.
Qed.

Section Local.
  Context {S : Type} (P : params R).
  Notation L := (p_L P).
  Notation W := (p_W P).

  Lemma neighbourb_near i j a b : neighbourb i j a b = true -> near i j a b.
  Proof.
    unfold neighbourb, near. intros H. apply andb_prop in H as [H _]. apply andb_prop in H as [H1 H2].
    apply Z.leb_le in H1, H2. auto.
  Qed.

  Lemma pass_quiet (st : state R S) eta eta' i j : inb L W i j ->
    (forall a b, near i j a b -> s_qs st a b = 0) -> diffusion_pass P st eta eta' -> eta' i j = eta i j.
  Proof.
    intros Hi Hq H. destruct (H i j) as [H1 H2].
    assert (Hc : s_qs st i j = 0) by (apply Hq; unfold near; lia).
    assert (D : diffusible P st i j \/ ~ diffusible P st i j).
    { unfold diffusible. destruct (Z.eq_dec (s_cell_type st i j) LAND), (Z.eq_dec i 0); [right|right|right|left]; tauto. }
    destruct D as [D|D]; [|exact (H2 Hi D)]. rewrite (H1 D). unfold border_loss, received. rewrite Hc.
    rewrite (gsum_ext _ _ _ (fun _ _ => 0)).
    - unfold gsum. rewrite rsum_none by auto. lra.
    - intros a b _. rewrite andb_true_r. destruct (neighbourb i j a b) eqn:E; [|reflexivity].
      unfold exchange. rewrite Hc, (Hq a b (neighbourb_near _ _ _ _ E)). lra.
  Qed.

  Lemma passes_quiet (st : state R S) n eta eta' i j : inb L W i j ->
    (forall a b, near i j a b -> s_qs st a b = 0) -> diffusion_passes P st n eta eta' -> eta' i j = eta i j.
  Proof.
    intros Hi Hq H. induction H as [|n eta eta1 eta' H1 H2 IH]; [reflexivity|].
    rewrite IH. exact (pass_quiet st eta eta1 i j Hi Hq H1).
  Qed.

  (** One pass as weights of the surroundings. *)
  Definition wt (st : state R S) i j (k : nat) : R :=
    if Nat.eqb k 4 then 0 else p_diffusion_multiplier P *
      (if inbb L W (nb_row i k) (nb_col j k) then s_qs st i j + s_qs st (nb_row i k) (nb_col j k) else s_qs st i j).
  Definition lev (eta : grid R) i j (k : nat) : R :=
    if inbb L W (nb_row i k) (nb_col j k) then eta (nb_row i k) (nb_col j k) else 0.

  Lemma weight_sum (st : state R S) i j : weight_around P st i j = sum9 (wt st i j).
  Proof.
    unfold weight_around. rewrite outside_ind.
    rewrite (gsum_ext _ _ _ (fun a b => if neighbourb i j a b && (fun _ _ => true) a b then s_qs st i j + s_qs st a b else 0))
      by (intros; rewrite andb_true_r; reflexivity).
    rewrite (gsum_nb L W i j (fun _ _ => true) (fun a b => s_qs st i j + s_qs st a b)).
    unfold sum9, wt, ind. cbn [Nat.eqb negb andb].
    repeat match goal with |- context [inbb L W ?a ?b] => destruct (inbb L W a b) end; cbn [andb]; ring.
  Qed.

  Lemma pass_sum (st : state R S) eta i j :
    received P st (fun _ _ => true) eta i j - border_loss P st eta i j
    = sum9 (fun k => wt st i j k * (lev eta i j k - eta i j)).
  Proof.
    rewrite received_sum9. unfold border_loss. rewrite outside_ind. unfold sum9, wt, lev, ind, exchange. cbn [Nat.eqb].
    repeat match goal with |- context [inbb L W ?a ?b] => destruct (inbb L W a b) end; ring.
  Qed.

  Lemma sum9_const v x : sum9 (fun k => v k * x) = sum9 v * x.
  Proof. unfold sum9. ring. Qed.

  Lemma between (v l : nat -> R) lo hi x : (forall k, (k < 9)%nat -> 0 <= v k) ->
    (forall k, (k < 9)%nat -> v k <> 0 -> lo <= l k <= hi) -> lo <= x <= hi -> sum9 v <= 1 ->
    lo <= x + sum9 (fun k => v k * (l k - x)) <= hi.
  Proof.
    intros Hv Hl Hx H1. pose proof (sum9_nonneg v Hv) as H0.
    assert (sum9 (fun k => v k * (lo - x)) <= sum9 (fun k => v k * (l k - x))).
    { apply sum9_le. intros k Hk. destruct (Req_dec (v k) 0) as [E|E]; [rewrite E; lra|].
      apply Rmult_le_compat_l; [auto|]. destruct (Hl k Hk E). lra. }
    assert (sum9 (fun k => v k * (l k - x)) <= sum9 (fun k => v k * (hi - x))).
    { apply sum9_le. intros k Hk. destruct (Req_dec (v k) 0) as [E|E]; [rewrite E; lra|].
      apply Rmult_le_compat_l; [auto|]. destruct (Hl k Hk E). lra. }
    rewrite sum9_const in *. nra.
  Qed.

  Lemma wt_nonneg (st : state R S) i j k : 0 <= p_diffusion_multiplier P ->
    (forall a b, inb L W a b -> 0 <= s_qs st a b) -> inb L W i j -> 0 <= wt st i j k.
  Proof.
    intros Hm Hq Hi. unfold wt. destruct (Nat.eqb k 4); [lra|]. apply Rmult_le_pos; [exact Hm|].
    pose proof (Hq _ _ Hi). destruct (inbb L W _ _) eqn:E; [|assumption].
    apply inbb_spec in E. pose proof (Hq _ _ E). lra.
  Qed.

  Lemma nb_near i j k : (k < 9)%nat -> near i j (nb_row i k) (nb_col j k).
  Proof.
    intros Hk. unfold near, nb_row, nb_col. apply lt9 in Hk. decompose [or] Hk; subst k; cbn; lia.
  Qed.

  Lemma pass_between (st : state R S) eta eta' i j lo hi : 0 <= p_diffusion_multiplier P ->
    (forall a b, inb L W a b -> 0 <= s_qs st a b) -> inb L W i j -> gentle P st i j ->
    (forall a b, near i j a b -> inb L W a b -> lo <= eta a b <= hi) -> (inner P i j \/ lo <= 0 <= hi) ->
    diffusion_pass P st eta eta' -> lo <= eta' i j <= hi.
  Proof.
    intros Hm Hq Hi Hg Hn H0 H. destruct (H i j) as [H1 H2].
    assert (Hc : lo <= eta i j <= hi) by (apply Hn; [unfold near; lia|exact Hi]).
    assert (D : diffusible P st i j \/ ~ diffusible P st i j).
    { unfold diffusible. destruct (Z.eq_dec (s_cell_type st i j) LAND), (Z.eq_dec i 0); [right|right|right|left]; tauto. }
    destruct D as [D|D]; [|rewrite (H2 Hi D); exact Hc]. rewrite (H1 D).
    unfold Rminus. rewrite Rplus_assoc. fold (received P st (fun _ _ => true) eta i j - border_loss P st eta i j).
    rewrite pass_sum. apply between; auto.
    - intros k Hk. apply wt_nonneg; auto.
    - intros k Hk _. unfold lev. destruct (inbb L W _ _) eqn:E.
      + apply Hn; [apply nb_near; exact Hk|apply inbb_spec; exact E].
      + destruct H0 as [H0|H0]; [|exact H0]. exfalso. destruct H0 as [Ha Hb]. pose proof (nb_near i j k Hk) as [K1 K2].
        assert (inbb L W (nb_row i k) (nb_col j k) = true); [|congruence]. apply inbb_spec. unfold inb. lia.
    - unfold gentle in Hg. rewrite weight_sum in Hg. exact Hg.
  Qed.

  Lemma passes_between (st : state R S) n eta eta' lo hi : 0 <= p_diffusion_multiplier P ->
    (forall a b, inb L W a b -> 0 <= s_qs st a b) -> (forall a b, diffusible P st a b -> gentle P st a b) ->
    lo <= 0 <= hi -> diffusion_passes P st n eta eta' -> (forall a b, inb L W a b -> lo <= eta a b <= hi) ->
    forall i j, inb L W i j -> lo <= eta' i j <= hi.
  Proof.
    intros Hm Hq Hg H0 H. induction H as [|n eta eta1 eta' H1 H2 IH]; [auto|].
    intros Hb. apply IH. intros a b Hab.
    assert (D : diffusible P st a b \/ ~ diffusible P st a b).
    { unfold diffusible. destruct (Z.eq_dec (s_cell_type st a b) LAND), (Z.eq_dec a 0); [right|right|right|left]; tauto. }
    destruct D as [D|D].
    - apply (pass_between st eta eta1 a b lo hi); auto.
    - destruct (H1 a b) as [_ K]. rewrite (K Hab D). auto.
  Qed.

  (** A level bed: only the border drifts. *)
  Lemma flat_pass (st : state R S) eta eta' h i j : (forall a b, near i j a b -> inb L W a b -> eta a b = h) ->
    diffusible P st i j -> diffusion_pass P st eta eta' ->
    eta' i j = h - p_diffusion_multiplier P * s_qs st i j * h * IZR (outside_count P i j).
  Proof.
    intros Hh D H. destruct (H i j) as [H1 _]. rewrite (H1 D).
    rewrite (Hh i j) by (unfold near; first [lia|apply D]). unfold border_loss, received.
    rewrite (gsum_ext _ _ _ (fun _ _ => 0)).
    - unfold gsum. rewrite rsum_none by auto. rewrite (Hh i j) by (unfold near; first [lia|apply D]). lra.
    - intros a b Hab. rewrite andb_true_r. destruct (neighbourb i j a b) eqn:E; [|reflexivity].
      unfold exchange. rewrite (Hh a b (neighbourb_near _ _ _ _ E) Hab), (Hh i j) by (unfold near; first [lia|apply D]). lra.
  Qed.

  Lemma turns_eta {G : Rng R S} n it (st st' : state R S) : water_turns P n it st st' -> s_eta st' = s_eta st.
  Proof.
    intros H. induction H as [|n it st st1 st' H1 H2 IH]; [reflexivity|]. rewrite IH.
    exact (proj1 (wt_frame _ _ _ _ H1)).
  Qed.
End Local.

Section Step.
  Context {S : Type} {G : Rng R S} (P : params R).

  Lemma undisturbed_step (st st' : state R S) : time_step P st st' ->
    exists sw s0 s1 s2 sd sand_in mud_in sand mud,
      water_turns P (Z.to_nat (p_itermax P)) 0 (set_eta0 (s_eta st) st) sw /\ cleared sw s0 /\
      carried_by P Sand s0 s1 sand_in sand /\ smeared P s1 s2 /\ carried_by P Mud s2 sd mud_in mud /\
      s_rng st' = s_rng sd /\
      forall i j, inb (p_L P) (p_W P) i j -> undisturbed sand_in sand mud i j ->
        (~ inlet_cell P i j -> subsided P st (subsides P st) i j (s_eta st' i j)) /\
        s_active_layer st' i j = s_active_layer st i j /\
        (~ inlet_cell P i j -> ~ subsides P st -> s_sand_frac st' i j = s_sand_frac st i j).
  Proof.
    intros [(sw & s0 & s1 & s2 & sd & bed & T1 & T2 & T3 & T4 & T5 & T6 & _ & T8 & T9) _ TF].
    destruct T3 as (sin & sh & b0 & b1 & V1 & u1 & O1 & X1 & J1 & C1 & N1).
    destruct T5 as (mi & mh & b2 & b3 & V2 & u2 & O2 & X2 & J2 & C2 & N2).
    destruct T9 as (R1 & _ & _ & _ & _ & _ & _ & _ & DS & DM).
    exists sw, s0, s1, s2, sd, sin, mi, sh, mh.
    split; [exact T1|]. split; [exact T2|]. split; [exists b0, b1, V1, u1; auto|]. split; [exact T4|].
    split; [exists b2, b3, V2, u2; auto|]. split; [exact R1|].
    intros i j Hi [U1 U2].
    destruct T2 as (_ & _ & Te & _ & _ & _ & _ & Tz).
    destruct O1 as (Oe & _ & _ & _ & _ & Oq & Os & Om & _).
    destruct C1 as (Ce & _ & _ & _ & _ & Cq & Cs & Cm & _).
    destruct O2 as (Oe2 & _ & _ & _ & _ & _ & Os2 & Om2 & _).
    destruct C2 as (Ce2 & _ & _ & _ & _ & _ & Cs2 & Cm2 & _).
    destruct T4 as (_ & _ & _ & _ & _ & _ & _ & Sd & Md & Dp).
    assert (U0 : ~ reached sh i j).
    { intros K. apply (U1 i j); [unfold near; lia|]. right. right. exact K. }
    assert (Q : forall a b, near i j a b -> s_qs s1 a b = 0).
    { intros a b Hab. rewrite Cq. destruct (ledgers P Sand s0 _ _ _ _ _ _ _ J1 a b) as (_ & K & _). rewrite K, Oq.
      rewrite flux_unpassed by auto. destruct (Tz a b) as [-> _]. lra. }
    assert (E : s_eta sd i j = s_eta st i j).
    { rewrite Ce2. destruct (ledgers P Mud s2 _ _ _ _ _ _ _ J2 i j) as (-> & _). unfold bed_ledger.
      rewrite over_unreached by auto. rewrite Oe2, Rplus_0_r.
      rewrite (passes_quiet P s1 _ _ _ i j Hi Q Dp). rewrite Ce.
      destruct (ledgers P Sand s0 _ _ _ _ _ _ _ J1 i j) as (-> & _). unfold bed_ledger.
      rewrite over_unreached by auto. rewrite Oe, Rplus_0_r, Te. rewrite (turns_eta P _ _ _ _ T1). reflexivity. }
    assert (Z1 : s_Vp_dep_sand st' i j = 0).
    { rewrite DS, Cs2. destruct (ledgers P Mud s2 _ _ _ _ _ _ _ J2 i j) as (_ & _ & _ & ->). rewrite Os2, Sd, Cs.
      destruct (ledgers P Sand s0 _ _ _ _ _ _ _ J1 i j) as (_ & _ & -> & _). unfold deposit_ledger.
      rewrite over_unreached by auto. rewrite Os. destruct (Tz i j) as (_ & -> & _). lra. }
    assert (Z2 : s_Vp_dep_mud st' i j = 0).
    { rewrite DM, Cm2. destruct (ledgers P Mud s2 _ _ _ _ _ _ _ J2 i j) as (_ & -> & _). rewrite Om2, Md, Cm.
      destruct (ledgers P Sand s0 _ _ _ _ _ _ _ J1 i j) as (_ & _ & _ & ->). unfold deposit_ledger.
      rewrite over_unreached by auto. rewrite Om. destruct (Tz i j) as (_ & _ & ->). lra. }
    assert (ND : ~ deposited (1 / 1000000) st' i j) by (unfold deposited; rewrite Z1, Z2; lra).
    destruct (TF i j Hi) as [_ F]. destruct (F ND) as (Fa & Fr & _).
    assert (B : ~ inlet_cell P i j -> subsided P st (subsides P st) i j (s_eta st' i j)).
    { intros NI. rewrite (T8 i j NI). destruct (T6 i j) as [B1 B2]. rewrite E in B1, B2. split; assumption. }
    split; [exact B|]. split; [exact Fa|].
    intros NI NS. apply Fr. destruct (B NI) as [_ B2]. rewrite (B2 NS). lra.
  Qed.
End Step.
