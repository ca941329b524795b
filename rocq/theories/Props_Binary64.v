(** Property C76: the binary64 arithmetic of the model rounds correctly, and the
    routing of water in binary64 is the routing in rounded real numbers. *)
From Coq Require Import ZArith List Bool Reals Lra Lia Floats.SpecFloat.
From Flocq Require Import Core.
From Verif Require Import Base RLemmas RoundingFlocq Shared SharedSpec SharedProofs Params State Water VecLemmas WaterSpec WeightProofs
  RunProofs WaterCor FlowProofs Binary64Spec Binary64 Transfer TransferWalk TransferPicks TransferOps TransferFlow TransferSurface Examples.
Import ListNotations.
Local Open Scope Z_scope.

(** C76. Every finite binary64 number stands for exactly one real number. *)
Theorem C76_one_value :
  forall x, (exists r, stands_for x r) <->
    valid_binary 53 1024 x = true /\ x <> S754_nan /\ forall s, x <> S754_infinity s.
Proof.
  intros x. split.
  - intros [r [H1 H2]]. split; [exact H1|]. destruct x; try contradiction; split; try discriminate; intros; discriminate.
  - intros (H1 & H2 & H3). unfold stands_for. destruct x as [s|s| |s m e]; [eexists; split; [exact H1|reflexivity]|destruct (H3 s eq_refl)|contradiction|eexists; split; [exact H1|reflexivity]].
Qed.
Print Assumptions C76_one_value.
Theorem C76_value_unique : forall x r s, stands_for x r -> stands_for x s -> r = s.
Proof. exact stands_unique. Qed.
Print Assumptions C76_value_unique.

(** C76. The operations give the exact result rounded to nearest, ties to even,
    or the infinity of its sign when that exceeds the format; comparisons and
    roundings to integers are those of the real numbers. *)
Theorem C76_operations :
  forall x y r s, stands_for x r -> stands_for y s ->
  ((fits (r + s) -> stands_for (fadd (Arith:=F64) x y) (rn64 (r + s))) /\
   (~ fits (r + s) -> infinite (fadd (Arith:=F64) x y) (r + s))) /\
  ((fits (r - s) -> stands_for (fsub (Arith:=F64) x y) (rn64 (r - s))) /\
   (~ fits (r - s) -> infinite (fsub (Arith:=F64) x y) (r - s))) /\
  ((fits (r * s) -> stands_for (fmul (Arith:=F64) x y) (rn64 (r * s))) /\
   (~ fits (r * s) -> infinite (fmul (Arith:=F64) x y) (r * s))) /\
  (s <> 0%R -> (fits (r / s) -> stands_for (fdiv (Arith:=F64) x y) (rn64 (r / s))) /\
   (~ fits (r / s) -> infinite (fdiv (Arith:=F64) x y) (r / s))) /\
  (0 <= r -> stands_for (fsqrt (Arith:=F64) x) (rn64 (sqrt r)))%R /\
  stands_for (fopp (Arith:=F64) x) (- r) /\ stands_for (fabs (Arith:=F64) x) (Rabs r) /\
  (fltb (Arith:=F64) x y = true <-> r < s)%R /\ (fleb (Arith:=F64) x y = true <-> r <= s)%R /\
  (feqb (Arith:=F64) x y = true <-> r = s) /\
  ffloor (Arith:=F64) x = Zfloor r /\ ftrunc (Arith:=F64) x = Ztrunc r /\ frint (Arith:=F64) x = ZnearestE r.
Proof.
  intros x y r s Hx Hy. destruct (compare_ok x y r s Hx Hy) as (C1 & C2 & C3).
  split; [exact (add_ok x y r s Hx Hy)|]. split; [exact (sub_ok x y r s Hx Hy)|]. split; [exact (mul_ok x y r s Hx Hy)|].
  split; [exact (div_ok x y r s Hx Hy)|]. split; [exact (sqrt_ok x r Hx)|]. split; [exact (opp_ok x r Hx)|]. split; [exact (abs_ok x r Hx)|].
  rewrite C1, C2, C3. unfold Rltb, Rleb, Reqb.
  split; [destruct (Rlt_dec r s); split; auto; discriminate || contradiction|].
  split; [destruct (Rle_dec r s); split; auto; discriminate || contradiction|].
  split; [destruct (Req_EM_T r s); split; auto; discriminate || contradiction|].
  split; [exact (floor_ok x r Hx)|]. split; [exact (trunc_ok x r Hx)|exact (rint_ok x r Hx)].
Qed.
Print Assumptions C76_operations.
(** 1/10 is rounded; 2^1023 + 2^1023 overflows. *)
Example C76_tenth : exists r, stands_for (flit (A:=F64) 1 10) r /\ r = rn64 (1 / 10) /\ r <> (1 / 10)%R.
Proof.
  eexists. split; [split; [vm_compute; reflexivity|vm_compute (flit (A:=F64) 1 10); reflexivity]|].
  assert (T : stands_for (flit (A:=F64) 1 10) (rn64 (1 / 10))).
  { destruct (rel_z 1 ltac:(cbn; lia)) as [H1 _]. destruct (rel_z 10 ltac:(cbn; lia)) as [H10 _]. rewrite !rz in * by lia.
    apply (div_ok _ _ _ _ H1 H10); [lra|]. apply (rn_fits _ 0); [lia|]. rewrite Rabs_pos_eq by lra. cbn. lra. }
  split.
  - apply (stands_unique (flit (A:=F64) 1 10)); [split; [vm_compute; reflexivity|vm_compute (flit (A:=F64) 1 10); reflexivity]|exact T].
  - rewrite <- bpow2. cbn. lra.
Qed.
Example C76_overflow :
  let x := S754_finite false 4503599627370496 971 in
  stands_for x (IZR 4503599627370496 * powerRZ 2 971) /\ fadd (Arith:=F64) x x = S754_infinity false.
Proof. split; [split; reflexivity|reflexivity]. Qed.

(** ** Routing of water *)
(** C76. In binary64 all parcels of an iteration take exactly the paths that they
    take in real numbers rounded to 53 bits without limit of size: same steps, same
    loops, same relocations, same exceptions. *)
Theorem C76_same_paths :
  forall (S : Type) (GF : Rng sfloat S) (GR : Rng R S) (PF : params sfloat) (PR : params R) (stF : state sfloat S) (stR : state R S),
  same_draws GF GR -> uniform_range GR -> same_model PF PR stF stR ->
  alike same_paths (run_water_iteration (A:=F64) (G:=GF) PF stF) (run_water_iteration (A:=RA rn64) (G:=GR) PR stR).
Proof.
  intros S GF GR PF PR stF stR HG HU M.
  assert (Th : exists n, small_power n /\ p_theta_water PR = IZR n).
  { destruct (sm_theta_range _ _ _ _ M) as [E|[E|E]]; [exists 0|exists 1|exists 2]; split; auto; unfold small_power; auto. }
  destruct Th as (n & Hn & En). pose proof (sm_fields _ _ _ _ M) as Fd.
  assert (R1 : both same_walk (run_water_iteration (A:=F64) (G:=GF) PF stF) (run_water_iteration (A:=XR) (G:=GR) PR stR)).
  { apply (run_rel HG HU PF PR (sm_L _ _ _ _ M) (sm_W _ _ _ _ M) (sm_CTR _ _ _ _ M) (sm_L0 _ _ _ _ M) (sm_stepmax _ _ _ _ M)
      (sm_inlet _ _ _ _ M) (sm_Np _ _ _ _ M) (sm_rows _ _ _ _ M) (sm_cols _ _ _ _ M) (sm_centre _ _ _ _ M) 100 ltac:(lia)
      (s_stage stF) (s_stage stR) (s_H_SL stF) (s_H_SL stR)) with (n := n); try reflexivity; try exact Hn; try exact En.
    - intros i j H. apply mod_rel, Fd, H.
    - apply mod_rel, M.
    - apply mod_rel, M.
    - split; [apply M|]. pose proof (sm_gamma_range _ _ _ _ M). rewrite Rabs_pos_eq by lra. change (bpow radix2 0) with 1%R. lra.
    - apply M.
    - apply M.
    - pose proof (sm_inlet_size _ _ _ _ M). lia.
    - intros i j H. apply mod_rel, Fd, H.
    - intros i j H. apply Fd, H.
    - intros i j H. apply mod_rel, Fd, H.
    - intros i j H. apply Fd, H.
    - intros i j H. apply mod_rel, Fd, H.
    - intros i j H. apply mod_rel, Fd, H.
    - apply M.
    - apply M.
    - apply M. }
  revert R1. change XR with (RA rn64).
  destruct (run_water_iteration (A:=F64) PF stF) as [[[[ps q] w] s]|e], (run_water_iteration (A:=RA rn64) PR stR) as [[[[ps' q'] w'] s']|e']; auto.
Qed.
Print Assumptions C76_same_paths.

(** C76. With a domain ready for routing (C06-C09) and variates of at least
    2^-1000, which every non-zero variate of the generator is, an iteration in
    binary64 ends without exception, and the parcels walk as C08 and C09 say. *)
Theorem C76_iteration_completes :
  forall (S : Type) (GF : Rng sfloat S) (GR : Rng R S) (PF : params sfloat) (PR : params R) (stF : state sfloat S) (stR : state R S),
  same_draws GF GR -> uniform_range GR -> (forall s, powerRZ 2 (-1000) <= fst (draw (Rng:=GR) s))%R ->
  same_model PF PR stF stR -> water_ready PR stR ->
  exists w starts tr ps q width s,
    run_water_iteration (A:=F64) (G:=GF) PF stF = Ok (ps, q, width, s) /\
    get_water_weight_array (A:=RA rn64) PR (s_depth stR) (s_stage stR)
       (s_mod_water_weight stR) (s_cell_type stR) (s_qx stR) (s_qy stR) = Ok w /\
    Z.of_nat (List.length starts) = p_Np_water PF /\ Forall (fun c => In c (p_inlet PF)) starts /\
    steps rn64 PR (s_cell_type stF) w (s_stage stR) (s_H_SL stR) 0 (start_parcels starts) tr ps /\
    Z.of_nat (List.length tr) <= p_stepmax PF /\
    (Z.of_nat (List.length tr) = p_stepmax PF \/ Forall (fun p => cur p = 0) ps) /\
    Z.of_nat (List.length tr) < width.
Proof.
  intros S GF GR PF PR stF stR HG HU Hd M Hr.
  destruct (iteration_walks rn64 PR stR Hr HU) as (w & starts & tr & ps & q & width & s & E1 & E2 & E3 & E4 & E5 & E6 & E7 & E8).
  { intros w Ew. apply binary64_picks; [exact Hd|exact Ew|apply Hr]. }
  pose proof (C76_same_paths S GF GR PF PR stF stR HG HU M) as K. rewrite E2 in K.
  destruct (run_water_iteration (A:=F64) PF stF) as [[[[ps' q'] w'] s']|e]; [|contradiction].
  destruct K as (-> & -> & ->). exists w, starts, tr, ps, q', width, s.
  rewrite (sm_Np _ _ _ _ M), (sm_inlet _ _ _ _ M), (sm_types _ _ _ _ M), (sm_stepmax _ _ _ _ M). auto 12.
Qed.
Print Assumptions C76_iteration_completes.

(** C76. A whole routing of water: all iterations, with the free surface, its
    smoothing and the flooding of dry cells, the depths, discharges and velocities.
    In binary64 it ends with the same exception as in real numbers rounded to 53
    bits without limit of size, or with fields that are finite in every cell of
    the domain and have exactly the rounded values. *)
Theorem C76_water_routed :
  forall (S : Type) (GF : Rng sfloat S) (GR : Rng R S) (PF : params sfloat) (PR : params R) (stF : state sfloat S) (stR : state R S),
  same_draws GF GR -> uniform_range GR -> same_constants PF PR -> same_water PR stF stR ->
  alike (fields_stand stands_for PR) (route_water (A:=F64) (G:=GF) PF stF) (route_water (A:=RA rn64) (G:=GR) PR stR).
Proof. intros S GF GR PF PR stF stR HG HU HP M. exact (route_rel HG HU PF PR HP stF stR M). Qed.
Print Assumptions C76_water_routed.

(** C76. With a domain ready for routing and variates of at least 2^-1000, a
    routing of water in binary64 ends without exception. Afterwards, in every cell
    of the domain, the surface is not below sea level, the depth is the rounded
    difference of surface and bed or zero, and the speed is between zero and the
    greatest speed, and zero where the depth is not above the dry depth. *)
Theorem C76_routing_completes :
  forall (S : Type) (GF : Rng sfloat S) (GR : Rng R S) (PF : params sfloat) (PR : params R) (stF : state sfloat S) (stR : state R S),
  same_draws GF GR -> uniform_range GR -> (forall s, powerRZ 2 (-1000) <= fst (draw (Rng:=GR) s))%R ->
  same_constants PF PR -> same_water PR stF stR -> water_ready PR stR -> 1 <= p_itermax PF ->
  exists st, route_water (A:=F64) (G:=GF) PF stF = Ok st /\
    forall i j, inb (p_L PF) (p_W PF) i j -> exists level surface bed depth speed ux uy : R,
      stands_for (s_H_SL st) level /\ stands_for (s_stage st i j) surface /\ stands_for (s_eta st i j) bed /\
      stands_for (s_depth st i j) depth /\ stands_for (s_uw st i j) speed /\ stands_for (s_ux st i j) ux /\ stands_for (s_uy st i j) uy /\
      (level <= surface)%R /\ depth = Rmax (rn64 (surface - bed)) 0 /\ (0 <= speed <= p_u_max PR)%R /\
      ((depth <= p_dry_depth PR)%R -> speed = 0%R /\ ux = 0%R /\ uy = 0%R).
Proof.
  intros S GF GR PF PR stF stR HG HU Hd HP M Hr Hi.
  assert (Ok1 : exists st', route_water (A:=RA rn64) (G:=GR) PR stR = Ok st').
  { clear M. unfold route_water. generalize 0. revert stR Hr. induction (Z.to_nat (p_itermax PR)) as [|n IH]; intros stR Hr it; cbn [water_iterations]; eauto.
    destruct (water_iteration_ok rn64 PR it stR Hr HU) as (st1 & E1 & Hr1).
    { intros w Ew. apply binary64_picks; [exact Hd|exact Ew|apply Hr]. }
    rewrite E1. cbn [rbind]. apply IH; auto. }
  destruct Ok1 as (st' & E). rewrite (sc_itermax _ _ HP) in Hi. rewrite (sc_L _ _ HP), (sc_W _ _ HP).
  assert (Dr : (0 <= p_dry_depth PR)%R).
  { eapply Rle_trans; [|apply (sc_dry_min _ _ HP)]. apply Rlt_le, Rinv_0_lt_compat. apply pow_lt. lra. }
  destruct (route_water_post rn64 PR stR st' (sc_u_max_pos _ _ HP) Dr Hi E) as (Lv & Sp & _).
  pose proof (C76_water_routed S GF GR PF PR stF stR HG HU HP M) as K. rewrite E in K.
  destruct (route_water (A:=F64) PF stF) as [st|]; [|contradiction]. cbn [alike] in K. destruct K as (K0 & _ & _ & _ & _ & K).
  exists st. split; [reflexivity|]. intros i j Hij. destruct (K i j Hij) as (K1 & K2 & K3 & K4 & K5 & K6 & K7 & K8 & K9 & K10).
  destruct (Lv i j) as [L1 L2]. destruct (Sp i j) as [S1 S2].
  exists (s_H_SL st'), (s_stage st' i j), (s_eta st' i j), (s_depth st' i j), (s_uw st' i j), (s_ux st' i j), (s_uy st' i j).
  repeat (split; [assumption|]). exact S2.
Qed.
Print Assumptions C76_routing_completes.

(** C76. The weights of a cell in binary64 are finite, between 0 and 1, and the
    rounded weights. *)
Theorem C76_weights_rounded :
  forall (S : Type) (PF : params sfloat) (PR : params R) (stF : state sfloat S) (stR : state R S),
  same_model PF PR stF stR ->
  alike (fun wF wR => forall i j k, inb (p_L PR) (p_W PR) i j -> (k < 9)%nat ->
     stands_for (wF i j k) (wR i j k) /\ (Rabs (wR i j k) <= 1)%R)
   (get_water_weight_array (A:=F64) PF (s_depth stF) (s_stage stF) (s_mod_water_weight stF) (s_cell_type stF) (s_qx stF) (s_qy stF))
   (get_water_weight_array (A:=RA rn64) PR (s_depth stR) (s_stage stR) (s_mod_water_weight stR) (s_cell_type stR) (s_qx stR) (s_qy stR)).
Proof.
  intros S PF PR stF stR M.
  assert (Th : exists n, small_power n /\ p_theta_water PR = IZR n).
  { destruct (sm_theta_range _ _ _ _ M) as [E|[E|E]]; [exists 0|exists 1|exists 2]; split; auto; unfold small_power; auto. }
  destruct Th as (n & Hn & En). pose proof (sm_fields _ _ _ _ M) as Fd. rewrite (sm_types _ _ _ _ M).
  assert (R1 : both (wrel PR)
   (get_water_weight_array (A:=F64) PF (s_depth stF) (s_stage stF) (s_mod_water_weight stF) (s_cell_type stR) (s_qx stF) (s_qy stF))
   (get_water_weight_array (A:=XR) PR (s_depth stR) (s_stage stR) (s_mod_water_weight stR) (s_cell_type stR) (s_qx stR) (s_qy stR))).
  { apply (weights_rel PF PR (sm_L _ _ _ _ M) (sm_W _ _ _ _ M) (sm_rows _ _ _ _ M) (sm_cols _ _ _ _ M) 100 ltac:(lia)
      (s_stage stF) (s_stage stR)) with (n := n); try exact Hn; try exact En.
    - intros i j H. apply mod_rel, Fd, H.
    - apply mod_rel, M.
    - split; [apply M|]. pose proof (sm_gamma_range _ _ _ _ M). rewrite Rabs_pos_eq by lra. change (bpow radix2 0) with 1%R. lra.
    - apply M.
    - apply M.
    - intros i j H. apply mod_rel, Fd, H.
    - intros i j H. apply Fd, H.
    - intros i j H. apply mod_rel, Fd, H.
    - intros i j H. apply Fd, H.
    - intros i j H. apply mod_rel, Fd, H.
    - intros i j H. apply mod_rel, Fd, H. }
  revert R1. change XR with (RA rn64).
  destruct (get_water_weight_array (A:=F64) PF _ _ _ _ _ _), (get_water_weight_array (A:=RA rn64) PR _ _ _ _ _ _); auto.
  intros H i j k Hi Hk. exact (H i j Hi k Hk).
Qed.
Print Assumptions C76_weights_rounded.

(** C76. The weighted choice in binary64: with finite non-negative weights, some
    positive, and a variate in [0, 1) it returns an index in range. *)
Theorem C76_pick_in_range :
  forall (S : Type) (GF : Rng sfloat S) (GR : Rng R S) (l : list sfloat) (m : list R) (s : S),
  same_draws GF GR -> uniform_range GR ->
  Forall2 (fun x r => stands_for x r /\ 0 <= r <= 1)%R l m -> (1 <= List.length l <= 900)%nat ->
  exists k s', random_pick (A:=F64) (G:=GF) l s = Ok (k, s') /\ (k < List.length l)%nat /\
    random_pick (A:=RA rn64) (G:=GR) m s = Ok (k, s').
Proof.
  intros S GF GR l m s HG HU H Hl.
  assert (H' : Forall2 (rel 0) l m).
  { clear - H. induction H as [|x r l m [A1 A2] _ IH]; constructor; auto. split; [exact A1|].
    rewrite Rabs_pos_eq by lra. change (bpow radix2 0) with 1%R. lra. }
  rewrite (pick_rel HG HU l m s H') by lia.
  assert (N : forall x, In x m -> (0 <= x)%R). { clear - H. induction H as [|x r l m [A1 A2] _ IH]; intros z []; subst; auto; lra. }
  rewrite (F2_length _ _ _ H') in *.
  destruct (random_pick_ok rn64 m s HU) as (k & s' & E & K & _); [intros ->; cbn in Hl; lia| |].
  - first [exact N|apply Forall_forall; exact N].
  - exists k, s'. split; [exact E|]. split; [exact K|exact E].
Qed.
Print Assumptions C76_pick_in_range.

(** ** The example of C06-C09 *)
(** The generator lcg in real numbers. *)
Definition lcg_real : Rng R Z := {|
  draw := fun s => let s' := (s * 1103515245 + 12345) mod 2147483648 in
                   (rn64 (IZR (s' + 1) / IZR 2147483650), s');
  seed_rng := fun z => z |}.

Lemma big_z n : (Z.abs n <= 2 ^ 40) -> stands_for (fz (Arith:=F64) n) (IZR n).
Proof.
  intros H.
  assert (E : rn64 (IZR n) = IZR n).
  { unfold rn64, rne. apply round_generic; [apply valid_rnd_N|]. apply generic_format_FLT.
    exists (Float radix2 n 0); cbn; [unfold F2R; cbn; lra|lia|lia]. }
  rewrite <- E. apply of_Z_ok. apply (rn_fits _ 40); [lia|]. rewrite <- abs_IZR.
  change (bpow radix2 40) with (IZR (2 ^ 40)). apply IZR_le. exact H.
Qed.

Lemma lcg_quotient s : let s' := (s * 1103515245 + 12345) mod 2147483648 in
  (/ 2147483650 <= IZR (s' + 1) / IZR 2147483650 <= 2147483647 * / 2147483648)%R /\ 0 <= s' < 2147483648.
Proof.
  intros s'. pose proof (Z.mod_pos_bound (s * 1103515245 + 12345) 2147483648 ltac:(lia)) as B. fold s' in B.
  assert (1 <= IZR (s' + 1) <= 2147483648)%R by (split; apply IZR_le; lia). split; [lra|exact B].
Qed.

Example C76_lcg : same_draws lcg lcg_real /\ uniform_range lcg_real /\
  (forall s, powerRZ 2 (-1000) <= fst (draw (Rng:=lcg_real) s))%R.
Proof.
  split; [|split].
  - intros s. cbn [draw lcg lcg_real fst snd]. split; [|reflexivity].
    destruct (lcg_quotient s) as [Q B]. set (s' := (s * 1103515245 + 12345) mod 2147483648) in *. clearbody s'.
    change (SFdiv sf_prec sf_emax (sf_of_Z (s' + 1)) (sf_of_Z 2147483650)) with (fdiv (Arith:=F64) (fz (Arith:=F64) (s' + 1)) (fz (Arith:=F64) 2147483650)).
    apply (div_ok _ _ _ _ (big_z (s' + 1) ltac:(cbn; lia)) (big_z 2147483650 ltac:(cbn; lia))); [lra|].
    apply (rn_fits _ 0); [lia|]. rewrite Rabs_pos_eq by lra. change (bpow radix2 0) with 1%R. lra.
  - intros s. cbn [draw lcg_real fst]. destruct (lcg_quotient s) as [Q B]. set (s' := (s * 1103515245 + 12345) mod 2147483648) in *. clearbody s'.
    split; [rewrite <- rnd_0; apply rnd_mono; lra|].
    assert (E : rn64 (2147483647 * / 2147483648) = (2147483647 * / 2147483648)%R).
    { unfold rn64, rne. apply round_generic; [apply valid_rnd_N|]. apply generic_format_FLT.
      exists (Float radix2 2147483647 (-31)); cbn; [unfold F2R; cbn; lra|lia|lia]. }
    apply Rle_lt_trans with (2147483647 * / 2147483648)%R; [rewrite <- E; apply rnd_mono; lra|lra].
  - intros s. cbn [draw lcg_real fst]. destruct (lcg_quotient s) as [Q B]. set (s' := (s * 1103515245 + 12345) mod 2147483648) in *. clearbody s'.
    rewrite <- bpow2. apply Rle_trans with (bpow radix2 (-32)); [apply bpow_le; lia|].
    rewrite <- (bp_repr (-32)) by lia. apply rnd_mono. cbn. lra.
Qed.

Lemma lit_mod a b : 0 <= a <= 1000000 -> 1 <= b <= 1000000 -> moderate (flit (A:=F64) a b) (flit (A:=RA rn64) a b).
Proof.
  intros Ha Hb. unfold flit.
  assert (1 <= IZR b)%R by (apply IZR_le; lia). assert (0 <= IZR a <= 1000000)%R by (split; apply IZR_le; lia).
  destruct (rel_div1 20 20 _ _ _ _ ltac:(lia) (rel_z a ltac:(cbn; lia)) (rel_z b ltac:(cbn; lia))) as [K1 K2]; [rewrite rz by lia; assumption|].
  split; [exact K1|]. eapply Rle_trans; [exact K2|]. change (bpow radix2 20) with (IZR (2 ^ 20)). change 10%R with (IZR 10).
  rewrite pow_IZR. apply IZR_le. vm_compute. discriminate.
Qed.
Lemma z_mod a : 0 <= a <= 1000000 -> moderate (fz (Arith:=F64) a) (fz (Arith:=RA rn64) a).
Proof.
  intros Ha. destruct (rel_z a ltac:(cbn; lia)) as [K1 K2]. split; [exact K1|].
  eapply Rle_trans; [exact K2|]. change (bpow radix2 20) with (IZR (2 ^ 20)). change 10%R with (IZR 10).
  rewrite pow_IZR. apply IZR_le. vm_compute. discriminate.
Qed.

Example C76_example_model : forall s : Z, same_model (exP (A:=F64)) (exP (A:=RA rn64)) (exst (A:=F64) s) (exst (A:=RA rn64) s).
Proof.
  intros s. change (RA rn64) with XR.
  assert (Z0 : forall a, 0 <= a <= 1000000 -> moderate (fz (Arith:=F64) a) (fz (Arith:=XR) a)) by exact z_mod.
  assert (Gm : rel 0 (flit (A:=F64) 736 10000) (flit (A:=XR) 736 10000) /\ (0 <= flit (A:=XR) 736 10000 <= 1)%R).
  { destruct (lit_mod 736 10000 ltac:(lia) ltac:(lia)) as [K _]. change (RA rn64) with XR in K.
    assert (B : (0 <= flit (A:=XR) 736 10000 <= 1)%R).
    { unfold flit. rewrite !rz by lia. cbn [fdiv RA]. split; [apply Rle_trans with (rn64 0); [rewrite rnd_0; lra|apply rnd_mono; lra]|apply Rle_trans with (rn64 1); [apply rnd_mono; lra|rewrite rnd_1; lra]]. }
    split; [|exact B]. split; [exact K|]. rewrite Rabs_pos_eq by apply B. change (bpow radix2 0) with 1%R. apply B. }
  constructor; cbn [p_L p_W p_CTR p_L0 p_stepmax p_inlet p_Np_water exP p_dry_depth p_gamma p_theta_water
    s_H_SL s_cell_type s_width s_rng exst s_stage s_depth s_mod_water_weight s_qx s_qy length]; try reflexivity; try lia.
  - apply lit_mod; lia.
  - apply Gm.
  - apply Gm.
  - apply Z0. lia.
  - right. left. apply rz. lia.
  - apply Z0. lia.
  - intros i j [Hi Hj]. cbn [p_L p_W exP] in Hi, Hj. split; [|split; [|split; [|split]]].
    + unfold ex_stage. destruct ((i <? 2) && (exct i j =? 1))%bool eqn:E; [|apply Z0; lia].
      apply andb_prop in E as [E _]. apply Z.ltb_lt in E.
      assert (A1 : rel (20 + 20 + 20) (fmul (Arith:=F64) (fmul (Arith:=F64) (fz (Arith:=F64) (1 - i)) (fz (Arith:=F64) 50)) (flit (A:=F64) 15 100000))
         (fmul (Arith:=XR) (fmul (Arith:=XR) (fz (Arith:=XR) (1 - i)) (fz (Arith:=XR) 50)) (flit (A:=XR) 15 100000))).
      { apply rel_mul; [lia|lia| | |lia].
        - apply rel_mul; [lia|lia|apply rel_z; change (2 ^ 20) with 1048576; lia|apply rel_z; change (2 ^ 20) with 1048576; lia|lia].
        - apply (rel_div1 20 20); [lia|apply rel_z; cbn; lia|apply rel_z; cbn; lia|rewrite rz by lia; lra]. }
      destruct A1 as [A1 A2]. split; [exact A1|]. eapply Rle_trans; [exact A2|].
      change (bpow radix2 (20 + 20 + 20)) with (IZR (2 ^ 60)). change 10%R with (IZR 10). rewrite pow_IZR. apply IZR_le. vm_compute. discriminate.
    + unfold ex_depth. destruct (exct i j =? -2); (split; [apply Z0; lia|rewrite rz by lia; lra]).
    + unfold og. split; [apply Z0; lia|rewrite rz by lia; lra].
    + unfold ex_qx. destruct (exct i j =? -2); [apply Z0; lia|]. destruct (exct i j =? 1); apply Z0; lia.
    + unfold zg. apply Z0. lia.
Qed.
Example C76_example_ready : forall s, water_ready (exP (A:=RA rn64)) (exst (A:=RA rn64) (S:=Z) s).
Proof.
  intros s. constructor; cbn [p_L p_W p_L0 p_inlet s_cell_type exP exst p_CTR p_stepmax s_width p_Np_water]; try lia; [exact ex_walk_domain|].
  apply (sm_gamma_range _ _ _ _ (C76_example_model s)).
Qed.

Lemma lit_frac a b : 0 <= a <= b -> 1 <= b <= 1000000 -> (0 <= flit (A:=XR) a b <= 1)%R.
Proof.
  intros Ha Hb. unfold flit. rewrite !rz by lia. cbn [fdiv RA].
  assert (0 <= IZR a)%R by (apply IZR_le; lia). assert (IZR a <= IZR b)%R by (apply IZR_le; lia). assert (1 <= IZR b)%R by (apply IZR_le; lia).
  assert (0 <= IZR a / IZR b <= 1)%R.
  { split; [apply Rmult_le_pos; [assumption|apply Rlt_le, Rinv_0_lt_compat; lra]|].
    apply (Rmult_le_reg_r (IZR b)); [lra|]. unfold Rdiv. rewrite Rmult_assoc, Rinv_l, Rmult_1_r by lra. lra. }
  split; [rewrite <- rnd_0|rewrite <- rnd_1]; apply rnd_mono; apply H2.
Qed.
Lemma lit_floor : (/ 10 ^ 10 <= flit (A:=XR) 1 10)%R.
Proof.
  unfold flit. rewrite !rz by lia. cbn [fdiv RA]. apply Rle_trans with (bpow radix2 (-4)).
  - change (bpow radix2 (-4)) with (/ 16)%R. apply Rinv_le_contravar; [lra|]. simpl. lra.
  - rewrite <- (bp_repr (-4)) by lia. apply rnd_mono. change (bpow radix2 (-4)) with (/ 16)%R. lra.
Qed.
Example C76_example_constants : same_constants (exP (A:=F64)) (exP (A:=RA rn64)).
Proof.
  change (RA rn64) with XR.
  assert (Z0 : forall a, 0 <= a <= 1000000 -> moderate (fz (Arith:=F64) a) (fz (Arith:=XR) a)) by exact z_mod.
  assert (L0 : forall a b, 0 <= a <= 1000000 -> 1 <= b <= 1000000 -> moderate (flit (A:=F64) a b) (flit (A:=XR) a b)) by exact lit_mod.
  constructor; cbn [p_L p_W p_CTR p_L0 p_stepmax p_inlet p_Np_water p_itermax p_Nsmooth exP p_dry_depth p_gamma p_theta_water p_dx p_Qp_water p_S0 p_u0 p_h0 p_qw0 p_u_max
    p_Csmooth p_omega_sfc p_omega_flow p_omega_flow_iter length]; try reflexivity; try lia; try (apply Z0; lia); try (apply L0; lia); try (apply lit_frac; lia).
  - exact lit_floor.
  - right. left. apply rz. lia.
  - rewrite rz by lia. split; [apply Rle_trans with 1%R; [|lra]; apply Rle_trans with (/ 1)%R; [apply Rinv_le_contravar; [lra|]; simpl; lra|lra]|simpl; lra].
  - apply Rle_trans with (bpow radix2 20); [|change (bpow radix2 20) with 1048576%R; simpl; lra].
    apply (rel_div1 20 20 _ _ _ _ ltac:(lia) (rel_z 375 ltac:(cbn; lia)) (rel_z 2 ltac:(cbn; lia))). rewrite rz by lia. lra.
  - pose proof (lit_frac 15 100000 ltac:(lia) ltac:(lia)). rewrite Rabs_pos_eq by apply H. lra.
  - rewrite rz by lia. lra.
  - rewrite rz by lia. lra.
Qed.
Example C76_example_water : forall s : Z, same_water (exP (A:=RA rn64)) (exst (A:=F64) s) (exst (A:=RA rn64) s).
Proof.
  intros s. change (RA rn64) with XR.
  assert (Z0 : forall a, 0 <= a <= 1000000 -> moderate (fz (Arith:=F64) a) (fz (Arith:=XR) a)) by exact z_mod.
  assert (L0 : forall a b, 0 <= a <= 1000000 -> 1 <= b <= 1000000 -> moderate (flit (A:=F64) a b) (flit (A:=XR) a b)) by exact lit_mod.
  pose proof (sm_fields _ _ _ _ (C76_example_model s)) as Fd. change (RA rn64) with XR in Fd.
  assert (U : forall i j, let u := (if exct i j =? -2 then fz (Arith:=XR) 0 else fdiv (Arith:=XR) (ex_qx (A:=XR) i j) (ex_depth (A:=XR) i j)) in
     moderate (if exct i j =? -2 then fz (Arith:=F64) 0 else fdiv (Arith:=F64) (ex_qx (A:=F64) i j) (ex_depth (A:=F64) i j)) u /\ (0 <= u)%R).
  { intros i j. cbv zeta. unfold ex_qx, ex_depth. destruct (exct i j =? -2); [split; [apply Z0; lia|rewrite rz by lia; lra]|].
    destruct (exct i j =? 1).
    - split; [apply (L0 5 5); lia|apply (lit_frac 5 5); lia].
    - split; [apply (L0 1 5); lia|apply (lit_frac 1 5); lia]. }
  cbv zeta in U.
  constructor.
  - split; [apply Z0; lia|]. split; [reflexivity|]. split; [reflexivity|]. split; [reflexivity|]. split; [reflexivity|].
    intros i j Hij. destruct (Fd i j Hij) as (F1 & F2 & F3 & F4 & F5).
    split; [|split; [exact F1|]; split; [apply F2|]; split; [apply F3|]; split; [exact F4|]; split; [exact F5|]; split; [exact F4|]; split; [apply U|]; split; [apply Z0; lia|apply U]].
    cbn [s_eta exst]. destruct F1 as [F1 _], F2 as [[F2 _] _]. cbn [s_stage s_depth exst] in F1, F2.
    assert (A1 : rel 60 (ex_stage (A:=F64) i j) (ex_stage (A:=XR) i j)).
    { split; [exact F1|]. unfold ex_stage. destruct ((i <? 2) && (exct i j =? 1))%bool eqn:E; [|rewrite rz by lia; rewrite Rabs_R0; apply bpow_ge_0].
      apply andb_prop in E as [E _]. apply Z.ltb_lt in E. unfold inb in Hij. cbn [p_L p_W exP] in Hij.
      apply (rel_mul (a:=20 + 20) (b:=20) (x:=fmul (Arith:=F64) (fz (Arith:=F64) (1 - i)) (fz (Arith:=F64) 50)) (y:=flit (A:=F64) 15 100000)); [lia|lia| | |lia].
      - apply rel_mul; [lia|lia|apply rel_z; change (2 ^ 20) with 1048576; lia|apply rel_z; change (2 ^ 20) with 1048576; lia|lia].
      - apply (rel_div1 20 20); [lia|apply rel_z; cbn; lia|apply rel_z; cbn; lia|rewrite rz by lia; lra]. }
    assert (A2 : rel 60 (ex_depth (A:=F64) i j) (ex_depth (A:=XR) i j)).
    { unfold ex_depth. destruct (exct i j =? -2); (apply (rel_mono 20); [lia|apply rel_z; cbn; lia]). }
    destruct (rel_sub (a:=60) (b:=60) ltac:(lia) ltac:(lia) A1 A2) as [B1 B2]. split; [exact B1|]. eapply Rle_trans; [exact B2|].
    change (bpow radix2 (Z.max 60 60 + 1)) with (IZR (2 ^ 61)). change 10%R with (IZR 10). rewrite pow_IZR. apply IZR_le. vm_compute. discriminate.
  - intros i j Hij. apply (Fd i j Hij).
  - intros i j Hij. apply (Fd i j Hij).
  - intros i j _. destruct (U i j) as [_ U1]. cbn [s_uw s_ux s_uy exst].
    split; [exact U1|]. rewrite (Rabs_pos_eq _ U1). split; [lra|]. revert U1. generalize (if exct i j =? -2 then fz (Arith:=XR) 0 else fdiv (Arith:=XR) (ex_qx (A:=XR) i j) (ex_depth (A:=XR) i j)).
    intros u U1. unfold zg. rewrite rz by lia. rewrite Rabs_R0. lra.
Qed.

(** The example is routed twice in binary64, without exception. *)
Example C76_example_routed : forall s, exists st, route_water (A:=F64) (G:=lcg) (exP (A:=F64)) (exst (A:=F64) s) = Ok st.
Proof.
  intros s. destruct C76_lcg as (H1 & H2 & H3).
  destruct (C76_routing_completes Z lcg lcg_real _ _ _ _ H1 H2 H3 C76_example_constants (C76_example_water s) (C76_example_ready s) ltac:(cbn; lia)) as (st & E & _). eauto.
Qed.

(** Outside the moderate range binary64 and the rounded reals part: a surface
    of 2^1023 beside one of -2^1023 gives an infinite slope, whose share is not
    a number, and routing stops with RuntimeError. *)
Definition ex_huge : state sfloat Z :=
  let st := exst (A:=F64) 1 in
  set_stage (fun i j => S754_finite ((3 <=? i)) 4503599627370496 971) st.
Theorem C76_huge_surface_refuted :
  run_water_iteration (A:=F64) (G:=lcg) exP ex_huge = Err RuntimeError.
Proof. vm_compute. reflexivity. Qed.
Print Assumptions C76_huge_surface_refuted.
