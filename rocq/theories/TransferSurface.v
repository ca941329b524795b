(** The free surface, the flow field and whole iterations in binary64 (C76). *)
From Coq Require Import ZArith Reals Lra Lia Bool Floats.SpecFloat List FunctionalExtensionality.
From Flocq Require Import Core.
From Verif Require Import Base RLemmas RoundingFlocq Shared SharedSpec SharedProofs Params State Water VecLemmas WaterSpec WeightProofs
  RunProofs Binary64Spec Binary64 Transfer TransferPicks TransferWalk TransferOps TransferFlow.
Import ListNotations.
Local Open Scope R_scope.

Lemma mod_rel x r : moderate x r -> rel 100 x r.
Proof.
  intros [H1 H2]. split; [exact H1|]. eapply Rle_trans; [exact H2|].
  change (bpow radix2 100) with (IZR (2 ^ 100)). change 10%R with (IZR 10).
  rewrite pow_IZR. apply IZR_le. vm_compute. discriminate.
Qed.
Lemma frac_rel x r : stands_for x r -> 0 <= r <= 1 -> rel 0 x r.
Proof. intros H Hr. split; [exact H|]. rewrite Rabs_pos_eq by lra. change (bpow radix2 0) with 1. lra. Qed.

Lemma start_len {S} {G : Rng R S} inlet nw n : forall s l s',
  start_loop (A:=XR) inlet nw n s = Ok (l, s') -> length l = n.
Proof.
  induction n as [|n IH]; intros s l s'; cbn [start_loop].
  - intros E. injection E as <- <-. reflexivity.
  - destruct (random_pick (A:=XR) nw s) as [[k s1]|]; [|discriminate]. destruct (nth_error inlet k); [|discriminate].
    destruct (start_loop (A:=XR) inlet nw n s1) as [[l1 s2]|] eqn:E; [|discriminate]. intros E1. injection E1 as <- <-.
    cbn [length]. f_equal. eauto.
Qed.

Lemma lit_half : rel 0 (flit (A:=F64) 1 2) (flit (A:=XR) 1 2).
Proof. unfold flit. apply (rel_div1 0 20); [lia|exact one_rel|apply rel_z; cbn; lia|]. rewrite rz by lia. lra. Qed.
Lemma lit_tenth : rel 0 (flit (A:=F64) 1 10) (flit (A:=XR) 1 10).
Proof. unfold flit. apply (rel_div1 0 20); [lia|exact one_rel|apply rel_z; cbn; lia|]. rewrite rz by lia. lra. Qed.

Lemma stands_int n : (Z.abs n <= 2 ^ 52)%Z -> fz (Arith:=XR) n = IZR n.
Proof.
  intros H. cbn [fz RA]. unfold rn64, rne. apply round_generic; [apply valid_rnd_N|]. apply generic_format_FLT.
  exists (Float radix2 n 0); cbn; [unfold F2R; cbn; lra|lia|lia].
Qed.

(** The state of the fields between iterations: bounds of 2^b. *)
Section States.
  Context {S : Type}.
  Record wst (PR : params R) (b : Z) (stF : state sfloat S) (stR : state R S) : Prop := {
    ws_types : s_cell_type stF = s_cell_type stR; ws_width : s_width stF = s_width stR;
    ws_rng : s_rng stF = s_rng stR; ws_time : s_time_iter stF = s_time_iter stR;
    ws_level : rel 100 (s_H_SL stF) (s_H_SL stR);
    ws_eta : forall i j, inb (p_L PR) (p_W PR) i j -> rel 100 (s_eta stF i j) (s_eta stR i j);
    ws_stage : forall i j, inb (p_L PR) (p_W PR) i j -> rel b (s_stage stF i j) (s_stage stR i j);
    ws_depth : forall i j, inb (p_L PR) (p_W PR) i j -> rel b (s_depth stF i j) (s_depth stR i j);
    ws_depth_pos : forall i j, inb (p_L PR) (p_W PR) i j -> 0 <= s_depth stR i j;
    ws_weight : forall i j, inb (p_L PR) (p_W PR) i j -> rel 100 (s_mod_water_weight stF i j) (s_mod_water_weight stR i j);
    ws_weight_pos : forall i j, inb (p_L PR) (p_W PR) i j -> 0 <= s_mod_water_weight stR i j;
    ws_qx : forall i j, inb (p_L PR) (p_W PR) i j -> rel b (s_qx stF i j) (s_qx stR i j);
    ws_qy : forall i j, inb (p_L PR) (p_W PR) i j -> rel b (s_qy stF i j) (s_qy stR i j);
    ws_qw : forall i j, inb (p_L PR) (p_W PR) i j -> rel b (s_qw stF i j) (s_qw stR i j);
    ws_ux : forall i j, inb (p_L PR) (p_W PR) i j -> rel b (s_ux stF i j) (s_ux stR i j);
    ws_uy : forall i j, inb (p_L PR) (p_W PR) i j -> rel b (s_uy stF i j) (s_uy stR i j);
    ws_uw : forall i j, inb (p_L PR) (p_W PR) i j -> rel b (s_uw stF i j) (s_uw stR i j);
    ws_speed : forall i j, inb (p_L PR) (p_W PR) i j ->
      0 <= s_uw stR i j /\ Rabs (s_ux stR i j) <= 8 * s_uw stR i j /\ Rabs (s_uy stR i j) <= 8 * s_uw stR i j
  }.
End States.

(** The discharge of a cell of the domain, before the inlet is set. *)
Section FlowCell.
  Context {F S : Type} {A : Arith F}.
  Definition omega_at (P : params F) (it : Z) : F := if (it =? 0)%Z then p_omega_flow P else p_omega_flow_iter P.
  Definition relaxed (P : params F) (it t : Z) (n o : F) : F :=
    if (0 <? t)%Z then fadd (fmul n (omega_at P it)) (fmul o (fsub (fz 1) (omega_at P it))) else n.
  Definition qx_at (P : params F) (it : Z) (st : state F S) i j : F :=
    relaxed P it (s_time_iter st) (fst (qn_scaled (s_qxn st i j) (s_qyn st i j) (s_qwn st i j))) (s_qx st i j).
  Definition qy_at (P : params F) (it : Z) (st : state F S) i j : F :=
    relaxed P it (s_time_iter st) (snd (qn_scaled (s_qxn st i j) (s_qyn st i j) (s_qwn st i j))) (s_qy st i j).
  Lemma flow_field_at P it (st : state F S) :
    s_qx (update_flow_field P it st) = (fun i j => if ((i =? 0)%Z && in_inlet P j)%bool then p_qw0 P else qx_at P it st i j) /\
    s_qy (update_flow_field P it st) = (fun i j => if ((i =? 0)%Z && in_inlet P j)%bool then fz 0 else qy_at P it st i j) /\
    s_qw (update_flow_field P it st) = (fun i j => if ((i =? 0)%Z && in_inlet P j)%bool then p_qw0 P else hypot (qx_at P it st i j) (qy_at P it st i j)).
  Proof. unfold update_flow_field. rewrite !gmemo_id. split; [reflexivity|split; reflexivity]. Qed.
  Lemma velocity_field_at P (st : state F S) i j :
    (s_uw (update_velocity_field P st) i j, s_ux (update_velocity_field P st) i j, s_uy (update_velocity_field P st) i j)
    = velocity_cell (p_dry_depth P) (p_u_max P) (s_depth st i j) (s_qw st i j) (s_qx st i j) (s_qy st i j).
  Proof. unfold update_velocity_field. rewrite !gmemo_id. cbn. destruct (velocity_cell _ _ _ _ _ _) as [[u v] w]. reflexivity. Qed.
End FlowCell.

Section Surface.
  Context {S : Type} {GF : Rng sfloat S} {GR : Rng R S}.
  Context (HG : same_draws GF GR) (HU : uniform_range GR).
  Context (PF : params sfloat) (PR : params R) (HP : same_constants PF PR).
  Notation L := (p_L PR).
  Notation W := (p_W PR).
  Let EL := sc_L _ _ HP.
  Let EW := sc_W _ _ HP.
  Let HL := sc_rows _ _ HP.
  Let HW := sc_cols _ _ HP.

  (** ** The parcels *)
  Lemma run_bounds b (stF : state sfloat S) (stR : state R S) : (121 <= b <= 200)%Z -> wst PR b stF stR ->
    both (fun x y => same_run PR (Z.to_nat (p_Np_water PR)) (1 + Z.to_nat (p_stepmax PR)) (2 ^ 44) x y)
      (run_water_iteration (A:=F64) (G:=GF) PF stF) (run_water_iteration (A:=XR) (G:=GR) PR stR).
  Proof.
    intros Hb M. unfold run_water_iteration. cbv zeta.
    pose proof (sc_inlet_size _ _ HP) as Hi. pose proof (sc_steps _ _ HP) as Hs. pose proof (sc_parcels _ _ HP) as Hp.
    rewrite (sc_inlet _ _ HP), (sc_Np _ _ HP), (sc_stepmax _ _ HP), (ws_rng _ _ _ _ M), (ws_types _ _ _ _ M), (ws_width _ _ _ _ M), (starts_rel HG HU (p_inlet PR)) by lia.
    destruct (get_start_indices (A:=XR) (p_inlet PR) _ (p_Np_water PR) (s_rng stR)) as [[starts s]|e] eqn:Est; cbn [rbind]; [|reflexivity].
    unfold get_start_indices in Est. apply start_len in Est.
    destruct (s_width stR <=? 0)%Z; [reflexivity|].
    assert (Th : exists n, small_power n /\ p_theta_water PR = IZR n).
    { destruct (sc_theta_range _ _ HP) as [E|[E|E]]; [exists 0%Z|exists 1%Z|exists 2%Z]; split; auto; unfold small_power; auto. }
    destruct Th as (n & Hn & Eth).
    assert (Wt : both (wrel PR)
      (get_water_weight_array (A:=F64) PF (s_depth stF) (s_stage stF) (s_mod_water_weight stF) (s_cell_type stR) (s_qx stF) (s_qy stF))
      (get_water_weight_array (A:=XR) PR (s_depth stR) (s_stage stR) (s_mod_water_weight stR) (s_cell_type stR) (s_qx stR) (s_qy stR))).
    { apply (weights_rel PF PR EL EW HL HW b ltac:(lia) (s_stage stF) (s_stage stR)) with (n := n); try exact Hn; try exact Eth.
      - apply M.
      - apply (rel_mono 100); [lia|]. apply mod_rel, HP.
      - apply frac_rel; apply HP.
      - apply HP.
      - apply HP.
      - exact (ws_depth _ _ _ _ M).
      - exact (ws_depth_pos _ _ _ _ M).
      - intros i j H. apply (rel_mono 100); [lia|]. apply M, H.
      - exact (ws_weight_pos _ _ _ _ M).
      - exact (ws_qx _ _ _ _ M).
      - exact (ws_qy _ _ _ _ M). }
    destruct (get_water_weight_array (A:=F64) PF _ _ _ _ _ _) as [wF|eF], (get_water_weight_array (A:=XR) PR _ _ _ _ _ _) as [wR|eR];
      cbn [both rbind] in *; try contradiction; [|exact Wt].
    assert (B44 : (1 + 3 * Z.of_nat (Z.to_nat (p_Np_water PR)) * Z.of_nat (Z.to_nat (p_stepmax PR)) <= 2 ^ 44)%Z).
    { assert (0 <= Z.of_nat (Z.to_nat (p_Np_water PR)) <= 1000000)%Z by lia. assert (0 <= Z.of_nat (Z.to_nat (p_stepmax PR)) <= 1000000)%Z by lia.
      change (2 ^ 44)%Z with 17592186044416%Z. nia. }
    match goal with |- both ?Q _ _ => set (T := Q) end.
    pose proof (loop_run HG HU PF PR HP b ltac:(lia) (s_stage stF) (s_stage stR) (s_H_SL stF) (s_H_SL stR) (ws_stage _ _ _ _ M)
      (rel_mono 100 b _ _ ltac:(lia) (ws_level _ _ _ _ M)) wF wR (s_cell_type stR) (Z.to_nat (p_Np_water PR)) (Z.to_nat (p_stepmax PR)) Wt 0 1 1
      (map (fun n => mkParcel n [n] true 4 0 false) starts,
        (fancy_add (A:=F64) (zero_flat (A:=F64)) starts (fz (Arith:=F64) 1), fancy_add (A:=F64) (zero_flat (A:=F64)) starts (fz (Arith:=F64) 0), fancy_add (A:=F64) (zero_flat (A:=F64)) starts (half_flux (A:=F64) PF)), s_width stR, s)
      (map (fun n => mkParcel n [n] true 4 0 false) starts,
        (fancy_add (A:=XR) (zero_flat (A:=XR)) starts (fz (Arith:=XR) 1), fancy_add (A:=XR) (zero_flat (A:=XR)) starts (fz (Arith:=XR) 0), fancy_add (A:=XR) (zero_flat (A:=XR)) starts (half_flux (A:=XR) PR)), s_width stR, s)
      ltac:(lia) ltac:(lia)) as K.
    match type of K with ?A -> _ => assert (Hyp : A) end.
    { unfold same_run, same_walk. cbn [fst snd]. split; [auto|]. split; [rewrite map_length; exact Est|]. split.
      - unfold wl. rewrite map_map. cbn. clear. induction starts; cbn; constructor; auto.
      - assert (F : forall x r c, (0 <= c <= 900)%Z -> rel c x r -> frel PR 1 c (fancy_add (A:=F64) (zero_flat (A:=F64)) starts x) (fancy_add (A:=XR) (zero_flat (A:=XR)) starts r)).
        { intros x r c Hc H k _. unfold fancy_add, zero_flat. rewrite !(rz 0) by lia.
          destruct (existsb _ starts); [|apply rel_cb, rel_z0; lia].
          change 1%Z with (0 + 1)%Z. apply relB_add; [lia|lia|lia|exact Hc| |apply rel_cb; exact H].
          destruct (rel_z0 0 ltac:(lia)) as [Z1 _]. split; [exact Z1|]. rewrite Rabs_R0. apply cb_pos. lia. }
        unfold qrel. cbn [fst snd]. split; [apply F; [lia|exact one_rel]|]. split; [apply F; [lia|exact zero_rel]|]. apply F; [lia|]. apply half_flux_rel. exact HP. }
    specialize (K Hyp). clear Hyp. revert K.
    destruct (water_loop (A:=F64) PF _ _ _ _ _ _ _) as [x|], (water_loop (A:=XR) PR _ _ _ _ _ _ _) as [y|]; cbn [both]; auto.
    intros (K1 & K2 & K3 & K4). unfold T, same_run. split; [exact K1|]. split; [exact K2|]. split; [exact K3|].
    eapply qrel_mono; [|exact K4]. lia.
  Qed.

  (** ** Levels along the paths *)
  Definition vt_rel (M : Z) (x : grid sfloat * grid sfloat) (y : grid R * grid R) : Prop := forall i j, inb L W i j ->
    exists n, (0 <= n <= M)%Z /\ stands_for (fst x i j) (IZR n) /\ fst y i j = IZR n /\ relB (cb n 121) (snd x i j) (snd y i j).

  Section Path.
    Context (b : Z) (Hb : (121 <= b <= 200)%Z) (stF : state sfloat S) (stR : state R S).
    Context (M : wst PR b stF stR).

    Lemma vt_step n v t rv rt x r : (0 <= n)%Z -> (n + 1 <= 2 ^ 52)%Z ->
      stands_for v (IZR n) -> rv = IZR n -> relB (cb n 121) t rt -> relB (cb 1 121) x r ->
      stands_for (fadd (Arith:=F64) v (fz (Arith:=F64) 1)) (IZR (n + 1)) /\ fadd (Arith:=XR) rv (fz (Arith:=XR) 1) = IZR (n + 1) /\
      relB (cb (n + 1) 121) (fadd (Arith:=F64) t x) (fadd (Arith:=XR) rt r).
    Proof.
      intros Hn Hn1 Hv -> Ht Hx.
      assert (E : fadd (Arith:=XR) (IZR n) (fz (Arith:=XR) 1) = IZR (n + 1)).
      { rewrite (rz 1) by lia. cbn [fadd RA]. rewrite <- plus_IZR. apply stands_int. lia. }
      split; [|split; [exact E|apply relB_add; lia || assumption]].
      rewrite <- E. apply (relB_add n 1 0); [lia|lia|exact Hn1|lia| |apply rel_cb, one_rel].
      split; [exact Hv|]. rewrite Rabs_pos_eq by (apply IZR_le; lia). unfold cb. cbn [bpow]. lra.
    Qed.

    Lemma back_rel rest : forall k m ocean dF dR ip jp HF HR vF tF vR tR,
      Forall (fun ij => inb L W (fst ij) (snd ij)) rest -> inb L W ip jp -> (1 <= k)%Z -> (k + Z.of_nat (length rest) <= 2 ^ 21)%Z ->
      (0 <= m)%Z -> (m + Z.of_nat (length rest) <= 2 ^ 52)%Z -> rel 100 dF dR -> relB (cb k 100) (HF ip jp) (HR ip jp) ->
      vt_rel m (vF, tF) (vR, tR) ->
      vt_rel (m + Z.of_nat (length rest))
        (walk_back (A:=F64) (p_u0 PF) (p_h0 PF) (p_S0 PF) (p_dx PF) (s_uw stF) (s_ux stF) (s_uy stF) (s_depth stF) ocean dF ip jp rest HF vF tF)
        (walk_back (A:=XR) (p_u0 PR) (p_h0 PR) (p_S0 PR) (p_dx PR) (s_uw stR) (s_ux stR) (s_uy stR) (s_depth stR) ocean dR ip jp rest HR vR tR).
    Proof.
      induction rest as [|[i j] rest IH]; intros k m ocean dF dR ip jp HF HR vF tF vR tR Hin Hij Hk Hkl Hm Hml Hd HH Hvt; cbn [walk_back length] in *.
      { replace (m + Z.of_nat 0)%Z with m by lia. exact Hvt. }
      inversion Hin as [|? ? Hc Hrest]; subst. cbn [fst snd] in Hc. cbv zeta.
      rewrite Nat2Z.inj_succ in *.
      pose proof (ws_uw _ _ _ _ M i j Hc) as Uw. pose proof (ws_speed _ _ _ _ M i j Hc) as (U0 & Ux & Uy).
      assert (Sh : (fltb (Arith:=F64) (fmul (Arith:=F64) (p_u0 PF) (flit (A:=F64) 1 2)) (s_uw stF i j) || fltb (Arith:=F64) (s_depth stF i j) (fmul (Arith:=F64) (flit (A:=F64) 1 10) (p_h0 PF)))%bool
               = (fltb (Arith:=XR) (fmul (Arith:=XR) (p_u0 PR) (flit (A:=XR) 1 2)) (s_uw stR i j) || fltb (Arith:=XR) (s_depth stR i j) (fmul (Arith:=XR) (flit (A:=XR) 1 10) (p_h0 PR)))%bool).
      { f_equal.
        - refine (rel_lt (a:=100) (b:=b) _ Uw). replace 100%Z with (100 + 0)%Z by lia. apply rel_mul; [lia|lia|apply mod_rel, HP|exact lit_half|lia].
        - refine (rel_lt (a:=b) (b:=100) (ws_depth _ _ _ _ M i j Hc) _). replace 100%Z with (0 + 100)%Z by lia. apply rel_mul; [lia|lia|exact lit_tenth|apply mod_rel, HP|lia]. }
      rewrite Sh. clear Sh. rewrite (rel_eq Uw zero_rel).
      match goal with |- context [walk_back (A:=F64) _ _ _ _ _ _ _ _ ?o ?d i j rest _ _ _] => set (oc := o); set (d1 := d) end.
      match goal with |- context [walk_back (A:=XR) _ _ _ _ _ _ _ _ _ ?d i j rest _ _ _] => set (d2 := d) end.
      assert (D : rel 100 d1 d2).
      { unfold d1, d2. destruct ((negb (i =? ip)%Z || negb (j =? jp)%Z) && negb ocean)%bool; [|exact Hd].
        destruct (feqb (Arith:=XR) (s_uw stR i j) (fz (Arith:=XR) 0)) eqn:Eq; [apply (rel_mono 0); [lia|exact zero_rel]|].
        apply (rel_mono 52); [lia|]. unfold inb in Hc, Hij. 
        apply (slope_rel b); [lia|apply M; exact Hc|apply M; exact Hc|exact Uw| |exact Ux|exact Uy|apply (dx_rel PF PR HP)| |change (2 ^ 14)%Z with 16384%Z; lia|change (2 ^ 14)%Z with 16384%Z; lia].
        - rewrite rz in Eq by lia. cbn [feqb RA] in Eq. unfold Reqb in Eq. destruct (Req_EM_T (s_uw stR i j) 0); [discriminate|lra].
        - split; [apply HP|]. eapply Rle_trans; [apply (sc_S0_range _ _ HP)|]. change (bpow radix2 10) with 1024. lra. }
      clearbody d1 d2 oc.
      assert (N : relB (cb (k + 1) 100) (fadd (Arith:=F64) (HF ip jp) d1) (fadd (Arith:=XR) (HR ip jp) d2)).
      { apply relB_add; [lia|lia| |lia|exact HH|apply rel_cb; exact D]. change (2 ^ 52)%Z with 4503599627370496%Z. change (2 ^ 21)%Z with 2097152%Z in Hkl. lia. }
      replace (m + Z.succ (Z.of_nat (length rest)))%Z with (m + 1 + Z.of_nat (length rest))%Z in * by lia.
      apply (IH (k + 1)%Z); try assumption; try lia.
      - unfold gset. rewrite !Z.eqb_refl. exact N.
      - intros a c Hac. unfold gset. cbn [fst snd]. specialize (Hvt a c Hac). cbn [fst snd] in Hvt. destruct Hvt as (n & Hn & V1 & V2 & V3).
        destruct ((a =? i)%Z && (c =? j)%Z)%bool eqn:Eac.
        + apply andb_prop in Eac as [Ea Ec]. apply Z.eqb_eq in Ea, Ec. subst a c. rewrite !Z.eqb_refl. cbn [andb].
          exists (n + 1)%Z. split; [lia|].
          apply (vt_step n _ _ _ _ (fadd (Arith:=F64) (HF ip jp) d1) (fadd (Arith:=XR) (HR ip jp) d2)); try assumption; try lia.
          apply (relB_mono (cb (k + 1) 100)); [|exact N]. unfold cb at 2. rewrite Rmult_1_l.
          change 121%Z with (100 + 21)%Z. apply cb_pow; lia.
        + exists n. split; [lia|]. auto.
    Qed.

    Lemma unravel_eq n : unravel_in PF n = unravel_in PR n.
    Proof. unfold unravel_in. rewrite EL, EW. reflexivity. Qed.
    Lemma unravels_eq l : mapM (unravel_in PF) l = mapM (unravel_in PR) l.
    Proof. induction l as [|n l IH]; [reflexivity|]. cbn [mapM]. rewrite unravel_eq, IH. reflexivity. Qed.
    Lemma unravels_in l : forall xys, mapM (unravel_in PR) l = Ok xys -> Forall (fun ij => inb L W (fst ij) (snd ij)) xys /\ length xys = length l.
    Proof.
      induction l as [|n l IH]; intros xys; cbn [mapM]; [intros H; injection H as <-; split; [constructor|reflexivity]|].
      unfold unravel_in at 1. destruct (custom_unravel n (L, W)) as [[i j]|]; cbn [rbind]; [|discriminate].
      destruct (inbb L W i j) eqn:E; cbn [rbind]; [|discriminate].
      destruct (mapM (unravel_in PR) l) as [ys|]; cbn [rbind]; [|discriminate]. intros H. injection H as <-.
      destruct (IH _ eq_refl) as [I1 I2]. split; [constructor; [apply inbb_spec; exact E|exact I1]|cbn; rewrite I2; reflexivity].
    Qed.
    Lemma filter_len {T} (f : T -> bool) l : (length (filter f l) <= length l)%nat.
    Proof. induction l as [|x l IH]; cbn; [lia|]. destruct (f x); cbn; lia. Qed.

    Lemma accumulate_rel ps : forall m xF xR, (0 <= m)%Z -> (m + 1000001 * Z.of_nat (length ps) <= 2 ^ 52)%Z ->
      Forall (fun n => Z.of_nat n <= 1000001)%Z (wl ps) -> vt_rel m xF xR ->
      both (vt_rel (m + 1000001 * Z.of_nat (length ps))) (accumulate_free_surface_walks (A:=F64) PF stF ps xF) (accumulate_free_surface_walks (A:=XR) PR stR ps xR).
    Proof.
      induction ps as [|p ps IH]; intros m xF xR Hm Hl Hw Hvt; cbn [accumulate_free_surface_walks length] in *.
      { cbn [both]. replace (m + 1000001 * Z.of_nat 0)%Z with m by lia. exact Hvt. }
      cbn [wl map] in Hw. inversion Hw as [|? ? Hp Hps]; subst. rewrite Nat2Z.inj_succ in *.
      assert (One : both (vt_rel (m + 1000001)) (accumulate_one (A:=F64) PF stF p xF) (accumulate_one (A:=XR) PR stR p xR)).
      { unfold accumulate_one. rewrite unravels_eq, (ws_types _ _ _ _ M).
        destruct (mapM (unravel_in PR) _) as [xys|e] eqn:Em; cbn [rbind]; [|reflexivity].
        apply unravels_in in Em as [I1 I2]. pose proof (filter_len (fun n => 0 <? n)%Z (walk p)) as Fl. rewrite <- I2 in Fl.
        assert (Mono : forall q x y, (0 <= q <= m + 1000001)%Z -> vt_rel q x y -> vt_rel (m + 1000001) x y).
        { intros q x y Hq H i j Hi. destruct (H i j Hi) as (n & Hn & H1). exists n. split; [lia|exact H1]. }
        destruct xys as [|[xl yl] rest]; [reflexivity|]. inversion I1 as [|? ? C1 C2]; subst. cbn [fst snd length] in *.
        destruct (_ && _)%bool; cbn [both]; [|apply (Mono m); [lia|exact Hvt]].
        destruct xF as [vF tF], xR as [vR tR]. cbn [fst snd].
        assert (Hr : (Z.of_nat (length rest) <= 1000000)%Z) by lia.
        apply (Mono (m + Z.of_nat (length rest))%Z); [lia|].
        apply (back_rel rest 1%Z); try assumption; try lia.
        - apply (rel_mono 0); [lia|exact zero_rel].
        - unfold gset. rewrite !Z.eqb_refl. cbn [andb]. apply rel_cb. apply M. }
      destruct (accumulate_one (A:=F64) PF stF p xF) as [[vF tF]|eF], (accumulate_one (A:=XR) PR stR p xR) as [[vR tR]|eR];
        cbn [both rbind] in *; try contradiction; [|exact One].
      rewrite !gmemo_id. replace (m + 1000001 * Z.succ (Z.of_nat (length ps)))%Z with ((m + 1000001) + 1000001 * Z.of_nat (length ps))%Z in * by lia.
      apply IH; [lia|lia|exact Hps|exact One].
    Qed.

    Lemma hnew_rel m i j v t rv rt : inb L W i j ->
      (exists n, (0 <= n <= m)%Z /\ stands_for v (IZR n) /\ rv = IZR n /\ relB (cb n 121) t rt) -> (m <= 2 ^ 52)%Z ->
      rel (b + 1) (hnew_cell (A:=F64) (s_eta stF i j) (s_depth stF i j) v t (s_H_SL stF)) (hnew_cell (A:=XR) (s_eta stR i j) (s_depth stR i j) rv rt (s_H_SL stR)).
    Proof.
      intros Hij (n & Hn & V1 & -> & V3) Hm. unfold hnew_cell. cbv zeta.
      pose proof (ws_eta _ _ _ _ M i j Hij) as E. pose proof (ws_depth _ _ _ _ M i j Hij) as D. pose proof (ws_level _ _ _ _ M) as Hs.
      assert (Hv : rel 52 v (IZR n)).
      { split; [exact V1|]. rewrite Rabs_pos_eq by (apply IZR_le; lia). change (bpow radix2 52) with (IZR (2 ^ 52)). apply IZR_le. lia. }
      rewrite (rel_lt zero_rel Hv).
      assert (A1 : rel (b + 1) (if fltb (Arith:=XR) (fz (Arith:=XR) 0) (IZR n) then fdiv (Arith:=F64) t v else fadd (Arith:=F64) (s_eta stF i j) (s_depth stF i j))
                    (if fltb (Arith:=XR) (fz (Arith:=XR) 0) (IZR n) then fdiv (Arith:=XR) rt (IZR n) else fadd (Arith:=XR) (s_eta stR i j) (s_depth stR i j))).
      { destruct (fltb (Arith:=XR) (fz (Arith:=XR) 0) (IZR n)) eqn:En.
        - rewrite rz in En by lia. cbn [fltb RA] in En. unfold Rltb in En. destruct (Rlt_dec 0 (IZR n)) as [P|P]; [|discriminate].
          apply lt_IZR in P. apply (rel_mono 121); [lia|].
          assert (Ht : rel (121 + 52) t rt) by (apply (cb_rel n); [lia|lia|exact V3]).
          assert (P1 : 1 <= IZR n) by (apply IZR_le; lia).
          apply (rel_div Ht Hv); [lia|lra|].
          unfold Rdiv. rewrite Rabs_mult, (Rabs_pos_eq (/ IZR n)) by (apply Rlt_le, Rinv_0_lt_compat; lra).
          apply (Rmult_le_reg_r (IZR n)); [lra|]. rewrite Rmult_assoc, Rinv_l, Rmult_1_r by lra. destruct V3 as [_ V3]. unfold cb in V3. lra.
        - replace (b + 1)%Z with (Z.max 100 b + 1)%Z by lia. apply rel_add; [lia|lia|exact E|exact D]. }
      match type of A1 with rel _ ?x ?y => set (h1 := x) in *; set (h2 := y) in * end. clearbody h1 h2.
      rewrite (rel_lt A1 Hs).
      assert (A2 : rel (b + 1) (if fltb (Arith:=XR) h2 (s_H_SL stR) then s_H_SL stF else h1) (if fltb (Arith:=XR) h2 (s_H_SL stR) then s_H_SL stR else h2)).
      { apply (rel_if (rel (b + 1))); [apply (rel_mono 100); [lia|exact Hs]|exact A1]. }
      match type of A2 with rel _ ?x ?y => set (k1 := x) in *; set (k2 := y) in * end. clearbody k1 k2.
      rewrite (rel_lt A2 E). apply (rel_if (rel (b + 1))); [apply (rel_mono 100); [lia|exact E]|exact A2].
    Qed.
  End Path.

  (** ** Smoothing *)
  Notation grelc c f g := (forall i j, inb L W i j -> rel c (f i j) (g i j)).
  Lemma masked_sum c (inv : vec bool) v w ks : (0 <= c <= 900)%Z -> Forall (fun k => k < 9)%nat ks -> vrel c v w ->
    forall m x r, (0 <= m)%Z -> (m + Z.of_nat (length ks) <= 100)%Z -> relB (cb m c) x r ->
    relB (cb (fold_left (fun acc k => if negb (inv k) then acc + 1 else acc)%Z ks m) c)
      (fold_left (fun acc k => fadd (Arith:=F64) acc (vset v inv (fz (Arith:=F64) 0) k)) ks x)
      (fold_left (fun acc k => fadd (Arith:=XR) acc (vset w inv (fz (Arith:=XR) 0) k)) ks r).
  Proof.
    intros Hc Hks Hv. induction Hks as [|k ks Hk Hks IH]; intros m x r Hm Hl Hx; cbn [fold_left length] in *; [exact Hx|].
    rewrite Nat2Z.inj_succ in Hl. unfold vset at 2 4. destruct (inv k); cbn [negb].
    - apply IH; [lia|lia|]. replace m with (m + 0)%Z by lia. apply relB_add; [lia|lia| |exact Hc|exact Hx|].
      + change (2 ^ 52)%Z with 4503599627370496%Z. lia.
      + destruct zero_rel as [Z1 _]. split; [exact Z1|]. rewrite rz by lia. rewrite Rabs_R0. apply cb_pos. lia.
    - apply IH; [lia|lia|]. apply relB_add; [lia|lia| |exact Hc|exact Hx|apply rel_cb, Hv; exact Hk].
      change (2 ^ 52)%Z with 4503599627370496%Z. lia.
  Qed.

  Lemma masked c (inv : vec bool) v w : (0 <= c <= 900)%Z -> vrel c v w ->
    relB (cb (vcount (fun k => negb (inv k))) c) (vsum (A:=F64) (vset v inv (fz (Arith:=F64) 0))) (vsum (A:=XR) (vset w inv (fz (Arith:=XR) 0))).
  Proof.
    intros Hc Hv. unfold vsum, vcount. apply (masked_sum c inv v w D9 Hc D9_lt Hv 0%Z); [lia|cbn; lia|].
    destruct zero_rel as [Z1 _]. split; [exact Z1|]. rewrite rz by lia. rewrite Rabs_R0. apply cb_pos. lia.
  Qed.

  Lemma smooth_cell_rel c ct hF hR i j : (0 <= c <= 800)%Z -> inb L W i j -> grelc c hF hR ->
    rel (c + 1) (smooth_cell (A:=F64) PF (p_Csmooth PF) ct hF i j) (smooth_cell (A:=XR) PR (p_Csmooth PR) ct hR i j).
  Proof.
    intros Hc Hij Hh. unfold smooth_cell. rewrite EL, EW. destruct (ct i j =? -1)%Z; [apply (rel_mono c); [lia|apply Hh; exact Hij]|]. cbv zeta.
    set (inv := fun k => ((window (custom_pad 0%Z L W ct) i j k =? -2)%Z || isctr k)%bool).
    change (fun k => negb ((window (custom_pad 0%Z L W ct) i j k =? -2)%Z || isctr k)) with (fun k => negb (inv k)).
    destruct (0 <? vcount (fun k => negb (inv k)))%Z eqn:Ev; [|apply (rel_mono c); [lia|apply Hh; exact Hij]].
    destruct (count_some _ Ev) as [Cn _].
    assert (Vr : vrel c (window (custom_pad (fz (Arith:=F64) 0) L W hF) i j) (window (custom_pad (fz (Arith:=XR) 0) L W hR) i j)).
    { intros k Hk. rewrite !pad_window by assumption. unfold nearest. apply Hh. unfold clamp, inb. lia. }
    pose proof (masked c inv _ _ ltac:(lia) Vr) as Sm.
    set (sF := vsum (A:=F64) _) in *. set (sR := vsum (A:=XR) _) in *. set (nb := vcount _) in *. clearbody sF sR nb.
    assert (Av : rel c (fdiv (Arith:=F64) sF (fz (Arith:=F64) nb)) (fdiv (Arith:=XR) sR (fz (Arith:=XR) nb))).
    { assert (Hs : rel (c + 4) sF sR) by (apply (cb_rel nb); [cbn; lia|lia|exact Sm]).
      assert (P1 : 1 <= IZR nb) by (apply IZR_le; lia).
      apply (rel_div Hs (rel_z nb ltac:(cbn; lia))); [lia|rewrite rz by lia; lra|]. rewrite rz by lia.
      unfold Rdiv. rewrite Rabs_mult, (Rabs_pos_eq (/ IZR nb)) by (apply Rlt_le, Rinv_0_lt_compat; lra).
      apply (Rmult_le_reg_r (IZR nb)); [lra|]. rewrite Rmult_assoc, Rinv_l, Rmult_1_r by lra. destruct Sm as [_ Sm]. unfold cb in Sm. lra. }
    assert (Cs : rel 0 (p_Csmooth PF) (p_Csmooth PR)) by (apply frac_rel; apply HP).
    apply mix_rel'; [lia|apply Hh; exact Hij|exact Av|exact Cs|]. apply (sub1_rel _ _ Cs). apply HP.
  Qed.

  Lemma smooth_rel ct n : forall c hF hR, (0 <= c)%Z -> (c + Z.of_nat n <= 800)%Z -> grelc c hF hR ->
    grelc (c + Z.of_nat n)%Z (smooth_passes (A:=F64) PF (p_Csmooth PF) ct n hF) (smooth_passes (A:=XR) PR (p_Csmooth PR) ct n hR).
  Proof.
    induction n as [|n IH]; intros c hF hR Hc Hl Hh; cbn [smooth_passes].
    - replace (c + Z.of_nat 0)%Z with c by lia. exact Hh.
    - rewrite Nat2Z.inj_succ in *. replace (c + Z.succ (Z.of_nat n))%Z with (c + 1 + Z.of_nat n)%Z by lia.
      rewrite !gmemo_id. apply IH; [lia|lia|]. intros i j Hij. apply smooth_cell_rel; [lia|exact Hij|exact Hh].
  Qed.

  (** ** Flooding *)
  Lemma shift_eq {T} (d : T) f g n : (forall i j, inb L W i j -> f i j = g i j) -> shift_plane PF d f n = shift_plane PR d g n.
  Proof.
    intros H. apply functional_extensionality; intros i. apply functional_extensionality; intros j. unfold shift_plane. rewrite EL, EW.
    destruct (inbb L W _ _) eqn:E; [|reflexivity]. apply H, inbb_spec, E.
  Qed.
  Lemma fmax_rel c x y r s : rel c x r -> rel c y s -> rel c (fmax (A:=F64) x y) (fmax (A:=XR) r s).
  Proof. intros Hx Hy. unfold fmax. rewrite (rel_lt Hx Hy). apply (rel_if (rel c)); assumption. Qed.
  Lemma fmaxs_rel c l m : Forall2 (rel c) l m -> forall x r, rel c x r -> rel c (fold_left (fmax (A:=F64)) l x) (fold_left (fmax (A:=XR)) m r).
  Proof. induction 1; intros a d Ha; cbn [fold_left]; [exact Ha|]. apply IHForall2. apply fmax_rel; assumption. Qed.
  Lemma map_F2 {T} c (f : T -> sfloat) (g : T -> R) l : (forall x, rel c (f x) (g x)) -> Forall2 (rel c) (map f l) (map g l).
  Proof. intros H. induction l; cbn [map]; constructor; auto. Qed.
  Lemma exists_rel c a x r l m : rel a x r -> Forall2 (rel c) l m ->
    existsb (fun y => fltb (Arith:=F64) x y) l = existsb (fun y => fltb (Arith:=XR) r y) m.
  Proof. intros Hx H. induction H as [|y s l m Hy _ IH]; [reflexivity|]. cbn [existsb]. rewrite (rel_lt Hx Hy), IH. reflexivity. Qed.

  Lemma flood_one_rel c wet stF stR eF eR i j sF sR : (0 <= c <= 800)%Z -> (forall n a d, rel c (stF n a d) (stR n a d)) -> grelc 100 eF eR -> inb L W i j ->
    grelc c sF sR -> grelc c (flood_one (A:=F64) wet stF eF i j sF) (flood_one (A:=XR) wet stR eR i j sR).
  Proof.
    intros Hc Hn He Hij Hs. unfold flood_one. cbv zeta.
    assert (F : Forall2 (rel c) (map (fun n => fmul (Arith:=F64) (if wet n i j then fz (Arith:=F64) 1 else fz (Arith:=F64) 0) (stF n i j)) D8)
                                (map (fun n => fmul (Arith:=XR) (if wet n i j then fz (Arith:=XR) 1 else fz (Arith:=XR) 0) (stR n i j)) D8)).
    { apply map_F2. intros n. replace c with (0 + c)%Z by lia. apply rel_mul; [lia|lia| |apply Hn|lia]. apply (rel_if (rel 0)); [exact one_rel|exact zero_rel]. }
    rewrite (exists_rel c 100 _ _ _ _ (He i j Hij) F). destruct (existsb _ _); [|exact Hs].
    intros a d Had. unfold gset. destruct (_ && _)%bool; [|apply Hs; exact Had].
    revert F. generalize (map (fun n => fmul (Arith:=F64) (if wet n i j then fz (Arith:=F64) 1 else fz (Arith:=F64) 0) (stF n i j)) D8)
      (map (fun n => fmul (Arith:=XR) (if wet n i j then fz (Arith:=XR) 1 else fz (Arith:=XR) 0) (stR n i j)) D8). intros lF lR F.
    destruct F as [|x r l m Hx Hl].
    - cbn [tl hd fold_left]. apply (rel_mono 0); [lia|exact zero_rel].
    - cbn [tl hd]. apply fmaxs_rel; assumption.
  Qed.

  Lemma flooding_rel c dF dR eF eR sF sR : (0 <= c <= 800)%Z -> grelc c dF dR -> grelc 100 eF eR -> grelc c sF sR ->
    grelc c (flooding_correction (A:=F64) PF dF eF sF) (flooding_correction (A:=XR) PR dR eR sR).
  Proof.
    intros Hc Hd He Hs. unfold flooding_correction. cbv zeta. rewrite !gmemo_id, EL, EW.
    assert (Wm : forall i j, inb L W i j -> fltb (Arith:=F64) (p_dry_depth PF) (dF i j) = fltb (Arith:=XR) (p_dry_depth PR) (dR i j)).
    { intros i j Hij. refine (rel_lt (a:=100) (b:=c) _ (Hd i j Hij)). apply mod_rel, HP. }
    assert (Sh : shift_plane PF false (fun i j => fltb (Arith:=F64) (p_dry_depth PF) (dF i j)) = shift_plane PR false (fun i j => fltb (Arith:=XR) (p_dry_depth PR) (dR i j))).
    { apply functional_extensionality; intros n. apply shift_eq. exact Wm. }
    rewrite Sh. clear Sh.
    assert (Fx : forall pl : nat -> grid bool, fix_edges PF pl = fix_edges PR pl) by (intros pl; unfold fix_edges; rewrite EL, EW; reflexivity).
    rewrite Fx. clear Fx. set (wet := fix_edges PR _). clearbody wet.
    assert (Fl : forall l, Forall (fun ij => inb L W (fst ij) (snd ij)) l ->
       filter (fun ij => negb (fltb (Arith:=F64) (p_dry_depth PF) (dF (fst ij) (snd ij))) && existsb (fun n => wet n (fst ij) (snd ij)) D8)%bool l
       = filter (fun ij => negb (fltb (Arith:=XR) (p_dry_depth PR) (dR (fst ij) (snd ij))) && existsb (fun n => wet n (fst ij) (snd ij)) D8)%bool l).
    { intros l Hl. induction Hl as [|x l Hx _ IH]; [reflexivity|]. cbn [filter]. rewrite (Wm _ _ Hx), IH. reflexivity. }
    assert (Cl : Forall (fun ij => inb L W (fst ij) (snd ij)) (cells L W)).
    { apply Forall_forall. intros [i j] H. apply cells_In in H. exact H. }
    rewrite (Fl _ Cl). clear Fl.
    set (shore := filter _ (cells L W)).
    assert (Sl : Forall (fun ij => inb L W (fst ij) (snd ij)) shore).
    { apply Forall_forall. intros x Hx. apply filter_In in Hx as [Hx _]. rewrite Forall_forall in Cl. auto. }
    clearbody shore.
    assert (Nh : forall n a d, rel c (shift_plane PF (fz (Arith:=F64) 0) sF n a d) (shift_plane PR (fz (Arith:=XR) 0) sR n a d)).
    { intros n a d. unfold shift_plane. rewrite EL, EW. destruct (inbb L W _ _) eqn:E; [apply Hs, inbb_spec, E|apply (rel_mono 0); [lia|exact zero_rel]]. }
    revert Nh. generalize (shift_plane PF (fz (Arith:=F64) 0) sF) (shift_plane PR (fz (Arith:=XR) 0) sR). intros nF nR Nh.
    revert sF sR Hs. induction Sl as [|x l Hx _ IH]; intros sF sR Hs; cbn [fold_left]; [exact Hs|].
    apply IH. apply flood_one_rel; assumption.
  Qed.

  (** ** The free surface *)
  Lemma surface_rel b ps (stF : state sfloat S) (stR : state R S) : (121 <= b <= 200)%Z -> wst PR b stF stR ->
    (Z.of_nat (length ps) <= 1000000)%Z -> Forall (fun n => Z.of_nat n <= 1000001)%Z (wl ps) ->
    (forall i j, inb L W i j -> rel 44 (s_qxn stF i j) (s_qxn stR i j) /\ rel 44 (s_qyn stF i j) (s_qyn stR i j) /\ rel 114 (s_qwn stF i j) (s_qwn stR i j)) ->
    both (fun x y => wst PR (b + 12) x y /\
      (forall i j, inb L W i j -> rel b (s_qx x i j) (s_qx y i j) /\ rel b (s_qy x i j) (s_qy y i j) /\
        rel 44 (s_qxn x i j) (s_qxn y i j) /\ rel 44 (s_qyn x i j) (s_qyn y i j) /\ rel 114 (s_qwn x i j) (s_qwn y i j)))
      (compute_free_surface (A:=F64) PF ps stF) (compute_free_surface (A:=XR) PR ps stR).
  Proof.
    intros Hb M Hl Hw Hq. unfold compute_free_surface.
    assert (V0 : vt_rel 0 ((fun _ _ => fz (Arith:=F64) 0), (fun _ _ => fz (Arith:=F64) 0)) ((fun _ _ => fz (Arith:=XR) 0), (fun _ _ => fz (Arith:=XR) 0))).
    { intros i j _. exists 0%Z. cbn [fst snd]. destruct zero_rel as [Z1 _]. rewrite (rz 0) in * by lia.
      split; [lia|]. split; [exact Z1|]. split; [reflexivity|]. split; [exact Z1|]. rewrite Rabs_R0. apply cb_pos. lia. }
    pose proof (accumulate_rel b Hb stF stR M ps 0 _ _ ltac:(lia) ltac:(change (2 ^ 52)%Z with 4503599627370496%Z; lia) Hw V0) as Ac.
    destruct (accumulate_free_surface_walks (A:=F64) PF stF ps _) as [[vF tF]|eF], (accumulate_free_surface_walks (A:=XR) PR stR ps _) as [[vR tR]|eR];
      cbn [both rbind] in *; try contradiction; [|exact Ac].
    cbv zeta. rewrite !gmemo_id.
    assert (Hn : grelc (b + 1)%Z (fun i j => hnew_cell (A:=F64) (s_eta stF i j) (s_depth stF i j) (vF i j) (tF i j) (s_H_SL stF))
                                 (fun i j => hnew_cell (A:=XR) (s_eta stR i j) (s_depth stR i j) (vR i j) (tR i j) (s_H_SL stR))).
    { intros i j Hij. apply (hnew_rel b Hb stF stR M (0 + 1000001 * Z.of_nat (length ps)) i j); [exact Hij|exact (Ac i j Hij)|].
      change (2 ^ 52)%Z with 4503599627370496%Z. lia. }
    cbn [s_depth s_eta s_cell_type s_time_iter s_stage set_sfc_visit set_sfc_sum set_Hnew].
    revert Hn. generalize (fun i j => hnew_cell (A:=F64) (s_eta stF i j) (s_depth stF i j) (vF i j) (tF i j) (s_H_SL stF))
      (fun i j => hnew_cell (A:=XR) (s_eta stR i j) (s_depth stR i j) (vR i j) (tR i j) (s_H_SL stR)). intros hF hR Hn.
    unfold smooth_free_surface. rewrite (ws_types _ _ _ _ M), (ws_time _ _ _ _ M), (sc_Nsmooth _ _ HP).
    pose proof (sc_passes _ _ HP) as Hp.
    pose proof (smooth_rel (s_cell_type stR) (Z.to_nat (p_Nsmooth PR)) (b + 1) hF hR ltac:(lia) ltac:(lia) Hn) as Hs.
    revert Hs. generalize (smooth_passes (A:=F64) PF (p_Csmooth PF) (s_cell_type stR) (Z.to_nat (p_Nsmooth PR)) hF)
      (smooth_passes (A:=XR) PR (p_Csmooth PR) (s_cell_type stR) (Z.to_nat (p_Nsmooth PR)) hR). intros kF kR Hs.
    assert (G : forall c x r, (c <= b + 12)%Z -> rel c x r -> rel (b + 12) x r) by (intros c x r Hc; apply rel_mono; exact Hc).
    match goal with |- context [flooding_correction (A:=F64) PF _ _ ?x] => set (sF := x) end.
    match goal with |- context [flooding_correction (A:=XR) PR _ _ ?x] => set (sR := x) end.
    assert (St : grelc (b + 12)%Z sF sR).
    { intros i j Hij. unfold sF, sR. destruct (0 <? s_time_iter stR)%Z; [|apply (G b); [lia|apply M; exact Hij]]. rewrite ?gmemo_id.
      assert (Om : rel 0 (p_omega_sfc PF) (p_omega_sfc PR)) by (apply frac_rel; apply HP).
      replace (b + 12)%Z with (b + 11 + 1)%Z by lia. apply mix_rel'; [lia| | | |exact Om].
      - apply (rel_mono b); [lia|apply M; exact Hij].
      - apply (rel_mono (b + 1 + Z.of_nat (Z.to_nat (p_Nsmooth PR)))%Z); [lia|apply Hs; exact Hij].
      - apply (sub1_rel _ _ Om). apply HP. }
    clearbody sF sR.
    pose proof (flooding_rel (b + 12) (s_depth stF) (s_depth stR) (s_eta stF) (s_eta stR) sF sR ltac:(lia)
      (fun i j H => G b _ _ ltac:(lia) (ws_depth _ _ _ _ M i j H)) (ws_eta _ _ _ _ M) St) as Fl.
    revert Fl. generalize (flooding_correction (A:=F64) PF (s_depth stF) (s_eta stF) sF) (flooding_correction (A:=XR) PR (s_depth stR) (s_eta stR) sR).
    intros fF fR Fl. cbn [both]. split.
    - constructor; cbn; try (apply M); try exact Fl; intros i j Hij; try (apply M; exact Hij); apply (G b); try lia; apply M; exact Hij.
    - intros i j Hij. cbn. pose proof (ws_qx _ _ _ _ M i j Hij). pose proof (ws_qy _ _ _ _ M i j Hij). destruct (Hq i j Hij) as (Q1 & Q2 & Q3). auto.
  Qed.

  (** ** The flow field *)
  Lemma dry_min : bpow radix2 (-40) <= p_dry_depth PR.
  Proof.
    eapply Rle_trans; [|apply (sc_dry_min _ _ HP)]. change (bpow radix2 (-40)) with (/ IZR (2 ^ 40)). change 10 with (IZR 10). rewrite pow_IZR.
    apply Rinv_le_contravar; [apply IZR_lt; reflexivity|apply IZR_le; vm_compute; discriminate].
  Qed.
  Lemma flow_rel b it (x : state sfloat S) (y : state R S) : (121 <= b <= 200)%Z -> s_time_iter x = s_time_iter y ->
    (forall i j, inb L W i j -> rel b (s_qx x i j) (s_qx y i j) /\ rel b (s_qy x i j) (s_qy y i j) /\
        rel 44 (s_qxn x i j) (s_qxn y i j) /\ rel 44 (s_qyn x i j) (s_qyn y i j) /\ rel 114 (s_qwn x i j) (s_qwn y i j)) ->
    let x' := update_flow_field (A:=F64) PF it x in let y' := update_flow_field (A:=XR) PR it y in
    forall i j, inb L W i j -> rel (b + 2) (s_qx x' i j) (s_qx y' i j) /\ rel (b + 2) (s_qy x' i j) (s_qy y' i j) /\ rel (b + 2) (s_qw x' i j) (s_qw y' i j) /\
      (0 < s_qw y' i j -> Rabs (s_qx y' i j) <= 4 * s_qw y' i j /\ Rabs (s_qy y' i j) <= 4 * s_qw y' i j).
  Proof.
    intros Hb Ht Hq x' y' i j Hij. unfold x', y'. clear x' y'.
    destruct (flow_field_at (A:=F64) PF it x) as (-> & -> & ->). destruct (flow_field_at (A:=XR) PR it y) as (-> & -> & ->).
    assert (Inl : in_inlet PF j = in_inlet PR j) by (unfold in_inlet; rewrite (sc_inlet _ _ HP); reflexivity). rewrite Inl.
    assert (Q0 : rel (b + 2) (p_qw0 PF) (p_qw0 PR)) by (apply (rel_mono 100); [lia|apply mod_rel, HP]).
    destruct ((i =? 0)%Z && in_inlet PR j)%bool.
    { split; [exact Q0|]. split; [apply (rel_mono 0); [lia|exact zero_rel]|]. split; [exact Q0|].
      intros P. rewrite rz by lia. rewrite Rabs_R0, Rabs_pos_eq by lra. lra. }
    destruct (Hq i j Hij) as (O1 & O2 & Q1 & Q2 & Q3).
    destruct (scaled_rel 44 114 _ _ _ _ _ _ ltac:(lia) ltac:(lia) Q1 Q2 Q3) as [S1 S2]. change (Z.max (114 + 3) 44) with 117%Z in S1, S2.
    assert (Om : rel 0 (omega_at PF it) (omega_at PR it) /\ 0 <= omega_at PR it <= 1).
    { unfold omega_at. destruct (it =? 0)%Z; (split; [apply frac_rel|]); apply HP. }
    destruct Om as [Om1 Om2]. destruct (sub1_rel _ _ Om1 Om2) as [Om3 _].
    assert (R : forall n nr o or, rel 117 n nr -> rel b o or -> rel (b + 1) (relaxed (A:=F64) PF it (s_time_iter x) n o) (relaxed (A:=XR) PR it (s_time_iter y) nr or)).
    { intros n nr o or Hn Ho. unfold relaxed. rewrite Ht. destruct (0 <? s_time_iter y)%Z; [|apply (rel_mono 117); [lia|exact Hn]].
      apply mix_rel; [lia|apply (rel_mono 117); [lia|exact Hn]|exact Ho|exact Om1|exact Om3]. }
    assert (X : rel (b + 1) (qx_at (A:=F64) PF it x i j) (qx_at (A:=XR) PR it y i j)) by (apply R; assumption).
    assert (Y : rel (b + 1) (qy_at (A:=F64) PF it x i j) (qy_at (A:=XR) PR it y i j)) by (apply R; assumption).
    destruct (hypot_rel (b + 1) _ _ _ _ ltac:(lia) X Y) as (H1 & H2 & H3).
    split; [apply (rel_mono (b + 1)); [lia|exact X]|]. split; [apply (rel_mono (b + 1)); [lia|exact Y]|].
    split; [replace (b + 2)%Z with (b + 1 + 1)%Z by lia; exact H1|]. intros P. destruct (H3 P) as (K1 & K2 & _). auto.
  Qed.

  Lemma finalize_rel b it (x : state sfloat S) (y : state R S) : (121 <= b <= 200)%Z -> wst PR (b + 12) x y ->
    (forall i j, inb L W i j -> rel b (s_qx x i j) (s_qx y i j) /\ rel b (s_qy x i j) (s_qy y i j) /\
        rel 44 (s_qxn x i j) (s_qxn y i j) /\ rel 44 (s_qyn x i j) (s_qyn y i j) /\ rel 114 (s_qwn x i j) (s_qwn y i j)) ->
    wst PR (b + 13) (finalize_water_iteration (A:=F64) PF it x) (finalize_water_iteration (A:=XR) PR it y).
  Proof.
    intros Hb M Hq. unfold finalize_water_iteration. cbv zeta. rewrite !gmemo_id.
    assert (St : grelc (b + 12)%Z (fun i j => npmax (A:=F64) (s_stage x i j) (s_H_SL x)) (fun i j => npmax (A:=XR) (s_stage y i j) (s_H_SL y))).
    { intros i j Hij. apply rel_max; [apply M; exact Hij|]. apply (rel_mono 100); [lia|apply M]. }
    cbn [s_stage set_stage s_eta].
    assert (De : grelc (b + 13)%Z (fun i j => npmax (A:=F64) (fsub (Arith:=F64) (npmax (A:=F64) (s_stage x i j) (s_H_SL x)) (s_eta x i j)) (fz (Arith:=F64) 0))
                                  (fun i j => npmax (A:=XR) (fsub (Arith:=XR) (npmax (A:=XR) (s_stage y i j) (s_H_SL y)) (s_eta y i j)) (fz (Arith:=XR) 0))).
    { intros i j Hij. apply rel_max; [|apply (rel_mono 0); [lia|exact zero_rel]].
      replace (b + 13)%Z with (Z.max (b + 12) 100 + 1)%Z by lia. apply rel_sub; [lia|lia|apply St; exact Hij|apply M; exact Hij]. }
    assert (Dp : forall i j, 0 <= (fun i j => npmax (A:=XR) (fsub (Arith:=XR) (npmax (A:=XR) (s_stage y i j) (s_H_SL y)) (s_eta y i j)) (fz (Arith:=XR) 0)) i j).
    { intros i j. cbv beta. generalize (fsub (Arith:=XR) (npmax (A:=XR) (s_stage y i j) (s_H_SL y)) (s_eta y i j)). intros r.
      unfold npmax, fmax. cbn [fnan RA]. rewrite rz by lia. cbn [fltb RA]. unfold Rltb. destruct (Rlt_dec r 0); lra. }
    revert De Dp.
    generalize (fun i j => npmax (A:=F64) (fsub (Arith:=F64) (npmax (A:=F64) (s_stage x i j) (s_H_SL x)) (s_eta x i j)) (fz (Arith:=F64) 0))
      (fun i j => npmax (A:=XR) (fsub (Arith:=XR) (npmax (A:=XR) (s_stage y i j) (s_H_SL y)) (s_eta y i j)) (fz (Arith:=XR) 0)). intros dF dR De Dp.
    revert St. generalize (fun i j => npmax (A:=F64) (s_stage x i j) (s_H_SL x)) (fun i j => npmax (A:=XR) (s_stage y i j) (s_H_SL y)). intros gF gR St.
    set (x1 := set_depth dF (set_stage gF x)). set (y1 := set_depth dR (set_stage gR y)).
    pose proof (flow_rel b it x1 y1 Hb (ws_time _ _ _ _ M) Hq) as Fl. cbv zeta in Fl.
    set (x2 := update_flow_field (A:=F64) PF it x1) in *. set (y2 := update_flow_field (A:=XR) PR it y1) in *.
    assert (Ex : (s_cell_type x2, s_width x2, s_rng x2, s_time_iter x2, s_H_SL x2) = (s_cell_type x, s_width x, s_rng x, s_time_iter x, s_H_SL x) /\
                 (s_eta x2, s_stage x2, s_depth x2, s_mod_water_weight x2) = (s_eta x, gF, dF, s_mod_water_weight x)) by (split; reflexivity).
    assert (Ey : (s_cell_type y2, s_width y2, s_rng y2, s_time_iter y2, s_H_SL y2) = (s_cell_type y, s_width y, s_rng y, s_time_iter y, s_H_SL y) /\
                 (s_eta y2, s_stage y2, s_depth y2, s_mod_water_weight y2) = (s_eta y, gR, dR, s_mod_water_weight y)) by (split; reflexivity).
    clearbody x2 y2. destruct Ex as [Ex1 Ex2], Ey as [Ey1 Ey2]. injection Ex1 as X1 X2 X3 X4 X5. injection Ex2 as X6 X7 X8 X9.
    injection Ey1 as Y1 Y2 Y3 Y4 Y5. injection Ey2 as Y6 Y7 Y8 Y9.
    assert (V : forall i j, inb L W i j ->
      let vF := update_velocity_field (A:=F64) PF x2 in let v := update_velocity_field (A:=XR) PR y2 in
      rel 100 (s_uw vF i j) (s_uw v i j) /\ rel 103 (s_ux vF i j) (s_ux v i j) /\ rel 103 (s_uy vF i j) (s_uy v i j) /\
      0 <= s_uw v i j /\ Rabs (s_ux v i j) <= 8 * s_uw v i j /\ Rabs (s_uy v i j) <= 8 * s_uw v i j).
    { intros i j Hij. cbv zeta. destruct (Fl i j Hij) as (F1 & F2 & F3 & F4).
      pose proof (velocity_rel (b + 13) (p_dry_depth PF) (p_u_max PF) (s_depth x2 i j) (s_qw x2 i j) (s_qx x2 i j) (s_qy x2 i j)
        (p_dry_depth PR) (p_u_max PR) (s_depth y2 i j) (s_qw y2 i j) (s_qx y2 i j) (s_qy y2 i j) ltac:(lia)
        (rel_mono 100 (b + 13) _ _ ltac:(lia) (mod_rel _ _ (sc_dry _ _ HP))) dry_min (mod_rel _ _ (sc_u_max _ _ HP)) (sc_u_max_pos _ _ HP)) as V.
      rewrite X8, Y8 in V. specialize (V (De i j Hij) (rel_mono (b + 2) (b + 13) _ _ ltac:(lia) F3) (rel_mono (b + 2) (b + 13) _ _ ltac:(lia) F1) (rel_mono (b + 2) (b + 13) _ _ ltac:(lia) F2) F4).
      cbv zeta in V. pose proof (velocity_field_at (A:=F64) PF x2 i j) as EF. pose proof (velocity_field_at (A:=XR) PR y2 i j) as ER.
      rewrite X8 in EF. rewrite Y8 in ER. rewrite <- EF, <- ER in V. cbn [fst snd] in V. exact V. }
    assert (G : forall c u r, (c <= b + 13)%Z -> rel c u r -> rel (b + 13) u r) by (intros c u r Hc; apply rel_mono; exact Hc).
    cbv zeta in V. constructor.
    - change (s_cell_type x2 = s_cell_type y2). rewrite X1, Y1. apply M.
    - change (s_width x2 = s_width y2). rewrite X2, Y2. apply M.
    - change (s_rng x2 = s_rng y2). rewrite X3, Y3. apply M.
    - change (s_time_iter x2 = s_time_iter y2). rewrite X4, Y4. apply M.
    - change (rel 100 (s_H_SL x2) (s_H_SL y2)). rewrite X5, Y5. apply M.
    - change (grelc 100%Z (s_eta x2) (s_eta y2)). rewrite X6, Y6. apply M.
    - change (grelc (b + 13)%Z (s_stage x2) (s_stage y2)). rewrite X7, Y7. intros i j Hij. apply (G (b + 12)%Z); [lia|apply St; exact Hij].
    - change (grelc (b + 13)%Z (s_depth x2) (s_depth y2)). rewrite X8, Y8. exact De.
    - change (forall i j, inb L W i j -> 0 <= s_depth y2 i j). rewrite Y8. intros i j _. apply Dp.
    - change (grelc 100%Z (s_mod_water_weight x2) (s_mod_water_weight y2)). rewrite X9, Y9. apply M.
    - change (forall i j, inb L W i j -> 0 <= s_mod_water_weight y2 i j). rewrite Y9. apply M.
    - change (grelc (b + 13)%Z (s_qx x2) (s_qx y2)). intros i j Hij. apply (G (b + 2)%Z); [lia|apply Fl; exact Hij].
    - change (grelc (b + 13)%Z (s_qy x2) (s_qy y2)). intros i j Hij. apply (G (b + 2)%Z); [lia|apply Fl; exact Hij].
    - change (grelc (b + 13)%Z (s_qw x2) (s_qw y2)). intros i j Hij. apply (G (b + 2)%Z); [lia|apply Fl; exact Hij].
    - intros i j Hij. apply (G 103%Z); [lia|apply V; exact Hij].
    - intros i j Hij. apply (G 103%Z); [lia|apply V; exact Hij].
    - intros i j Hij. apply (G 100%Z); [lia|apply V; exact Hij].
    - intros i j Hij. apply V; exact Hij.
  Qed.

  (** ** Iterations *)
  Lemma wst_start b (stF : state sfloat S) (stR : state R S) w s qF qR : wst PR b stF stR ->
    wst PR b (set_width w (set_rng s (set_qxn (fst (fst qF)) (set_qyn (snd (fst qF)) (set_qwn (snd qF) stF)))))
             (set_width w (set_rng s (set_qxn (fst (fst qR)) (set_qyn (snd (fst qR)) (set_qwn (snd qR) stR))))).
  Proof. intros M. constructor; cbn; try reflexivity; apply M. Qed.

  Lemma iteration_rel b it (stF : state sfloat S) (stR : state R S) : (121 <= b <= 200)%Z -> wst PR b stF stR ->
    both (wst PR (b + 13)) (water_iteration (A:=F64) (G:=GF) PF it stF) (water_iteration (A:=XR) (G:=GR) PR it stR).
  Proof.
    intros Hb M. unfold water_iteration. pose proof (run_bounds b stF stR Hb M) as Rn.
    destruct (run_water_iteration (A:=F64) PF stF) as [[[[ps [[qxF qyF] qwF]] w] s]|eF], (run_water_iteration (A:=XR) PR stR) as [[[[ps' [[qxR qyR] qwR]] w'] s']|eR];
      cbn [both rbind] in *; try contradiction; [|exact Rn].
    unfold same_run, same_walk, qrel in Rn. cbn [fst snd] in Rn. destruct Rn as ((<- & <- & <-) & Ln & Wl & Q1 & Q2 & Q3).
    rewrite EW. cbv zeta.
    pose proof (wst_start b stF stR w s ((fun i j => qxF (i * W + j)%Z), (fun i j => qyF (i * W + j)%Z), (fun i j => qwF (i * W + j)%Z))
      ((fun i j => qxR (i * W + j)%Z), (fun i j => qyR (i * W + j)%Z), (fun i j => qwR (i * W + j)%Z)) M) as M1. cbn [fst snd] in M1.
    pose proof (sc_steps _ _ HP) as Hs. pose proof (sc_parcels _ _ HP) as Hp.
    assert (Hw : Forall (fun n => Z.of_nat n <= 1000001)%Z (wl ps)).
    { eapply Forall_impl; [|exact Wl]. cbv beta. intros n Hn. lia. }
    assert (Fx : forall i j, inb L W i j -> (0 <= i * W + j < L * W)%Z) by (intros i j [H1 H2]; nia).
    match type of M1 with wst _ _ ?x ?y => pose proof (surface_rel b ps x y Hb M1 ltac:(lia) Hw) as Sf end.
    match type of Sf with ?A -> _ => assert (Hyp : A) end.
    { intros i j Hij. cbn. specialize (Fx i j Hij).
      split; [apply (cb_rel (2 ^ 44) 44 0); [lia|lia|apply Q1; exact Fx]|]. split; [apply (cb_rel (2 ^ 44) 44 0); [lia|lia|apply Q2; exact Fx]|].
      apply (cb_rel (2 ^ 44) 44 70); [lia|lia|apply Q3; exact Fx]. }
    specialize (Sf Hyp). clear Hyp.
    destruct (compute_free_surface (A:=F64) PF ps _) as [x|eF], (compute_free_surface (A:=XR) PR ps _) as [y|eR]; cbn [both rbind] in *; try contradiction; [|exact Sf].
    destruct Sf as [S1 S2]. apply finalize_rel; assumption.
  Qed.

  Lemma iterations_rel n : forall b it (stF : state sfloat S) (stR : state R S), (121 <= b)%Z -> (b + 13 * Z.of_nat n <= 213)%Z -> wst PR b stF stR ->
    both (wst PR (b + 13 * Z.of_nat n)) (water_iterations (A:=F64) (G:=GF) PF n it stF) (water_iterations (A:=XR) (G:=GR) PR n it stR).
  Proof.
    induction n as [|n IH]; intros b it stF stR Hb Hl M; cbn [water_iterations].
    { replace (b + 13 * Z.of_nat 0)%Z with b by lia. exact M. }
    rewrite Nat2Z.inj_succ in *.
    pose proof (iteration_rel b it stF stR ltac:(lia) M) as It.
    destruct (water_iteration (A:=F64) PF it stF) as [x|eF], (water_iteration (A:=XR) PR it stR) as [y|eR]; cbn [both rbind] in *; try contradiction; [|exact It].
    replace (b + 13 * Z.succ (Z.of_nat n))%Z with (b + 13 + 13 * Z.of_nat n)%Z in * by lia. apply IH; [lia|lia|exact It].
  Qed.

  Lemma same_water_wst (stF : state sfloat S) (stR : state R S) : same_water PR stF stR -> wst PR 121 stF stR.
  Proof.
    intros [(H1 & H2 & H3 & H4 & H5 & H6) D Wt V].
    assert (G : forall x r, moderate x r -> rel 121 x r) by (intros x r H; apply (rel_mono 100); [lia|apply mod_rel; exact H]).
    constructor; auto; try (apply mod_rel; exact H1); intros i j Hij; destruct (H6 i j Hij) as (K1 & K2 & K3 & K4 & K5 & K6 & K7 & K8 & K9 & K10); auto using mod_rel.
  Qed.
  Lemma wst_fields b (stF : state sfloat S) (stR : state R S) : wst PR b stF stR -> fields_stand stands_for PR stF stR.
  Proof.
    intros M. split; [apply M|]. split; [apply M|]. split; [apply M|]. split; [apply M|]. split; [apply M|].
    intros i j Hij. repeat split; apply M; exact Hij.
  Qed.

  Lemma route_rel (stF : state sfloat S) (stR : state R S) : same_water PR stF stR ->
    alike (fields_stand stands_for PR) (route_water (A:=F64) (G:=GF) PF stF) (route_water (A:=XR) (G:=GR) PR stR).
  Proof.
    intros M. unfold route_water. rewrite (sc_itermax _ _ HP). pose proof (sc_iterations _ _ HP) as Hi.
    pose proof (iterations_rel (Z.to_nat (p_itermax PR)) 121 0 stF stR ltac:(lia) ltac:(lia) (same_water_wst _ _ M)) as It.
    destruct (water_iterations (A:=F64) PF _ 0 stF) as [x|eF], (water_iterations (A:=XR) PR _ 0 stR) as [y|eR]; cbn [both alike] in *; try contradiction; [|exact It].
    eapply wst_fields. exact It.
  Qed.
End Surface.
