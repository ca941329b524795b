(** Property C76 for newly created models: an ordinary configuration gives, in
    binary64, the model it gives in rounded real numbers, ready for routing. *)
From Coq Require Import ZArith List Bool Reals Lra Lia Floats.SpecFloat.
From Flocq Require Import Core.
From Verif Require Import Base RLemmas RoundingFlocq Shared SharedSpec Params State Water WaterSpec Inputs Init ConfigSpec Binary64Spec Binary64 Binary64Init
  Transfer TransferOps TransferSurface TransferInit Examples Props_Init Props_Binary64.
Import ListNotations.
Local Open Scope Z_scope.

(** C76. With the same ordinary configuration and the same seeding of the
    generators, the model is created in binary64 and in rounded real numbers, and
    both hold the same numbers. *)
Theorem C76_new_model :
  forall (S N : Type) (GF : Rng sfloat S) (GR : Rng R S) (GN : NpRng N) (cF : inputs sfloat) (cR : inputs R) (nb : S) (np : N),
  (forall z, seed_rng (Rng:=GF) z = seed_rng (Rng:=GR) z) -> same_inputs cF cR -> ordinary cR ->
  exists x y, construct (A:=F64) (G:=GF) cF nb np = Ok x /\ construct (A:=RA rn64) (G:=GR) cR nb np = Ok y /\ same_start x y.
Proof.
  intros S N GF GR GN cF cR nb np Hg HS HO. destruct (construct_rel GF GR GN cF cR nb np Hg HS HO) as (x & y & E1 & E2 & H & _).
  exists x, y. auto.
Qed.
Print Assumptions C76_new_model.

(** C76. In binary64 a model with an ordinary configuration is created and its
    first routing of water completes, with surfaces not below sea level, depths
    that are the rounded difference of surface and bed or zero, and speeds between
    zero and the greatest speed, zero in dry cells. *)
Theorem C76_first_routing :
  forall (S N : Type) (GF : Rng sfloat S) (GR : Rng R S) (GN : NpRng N) (cF : inputs sfloat) (cR : inputs R) (nb : S) (np : N),
  same_draws GF GR -> (forall z, seed_rng (Rng:=GF) z = seed_rng (Rng:=GR) z) ->
  uniform_range GR -> (forall s, powerRZ 2 (-1000) <= fst (draw (Rng:=GR) s))%R -> same_inputs cF cR -> ordinary cR ->
  exists m np' st greatest dry, construct (A:=F64) (G:=GF) cF nb np = Ok (m, np') /\ route_water (A:=F64) (G:=GF) (m_P m) (m_st m) = Ok st /\
    stands_for (p_u_max (m_P m)) greatest /\ stands_for (p_dry_depth (m_P m)) dry /\
    forall i j, inb (p_L (m_P m)) (p_W (m_P m)) i j -> exists level surface bed depth speed ux uy : R,
      stands_for (s_H_SL st) level /\ stands_for (s_stage st i j) surface /\ stands_for (s_eta st i j) bed /\
      stands_for (s_depth st i j) depth /\ stands_for (s_uw st i j) speed /\ stands_for (s_ux st i j) ux /\ stands_for (s_uy st i j) uy /\
      (level <= surface)%R /\ depth = Rmax (rn64 (surface - bed)) 0 /\ (0 <= speed <= greatest)%R /\
      ((depth <= dry)%R -> speed = 0%R /\ ux = 0%R /\ uy = 0%R).
Proof.
  intros S N GF GR GN cF cR nb np Hd Hg HU Hp HS HO.
  destruct (construct_rel GF GR GN cF cR nb np Hg HS HO) as ([m np'] & y & E1 & E2 & (H1 & H2 & H3) & Hr & Ei). cbn [fst snd] in *.
  destruct (C76_routing_completes S GF GR _ _ _ _ Hd HU Hp H1 H2 Hr) as (st & E & K).
  { rewrite Ei, (si_itermax _ _ HS). pose proof (or_itermax _ HO). lia. }
  exists m, np', st, (p_u_max (m_P (fst y))), (p_dry_depth (m_P (fst y))).
  split; [exact E1|]. split; [exact E|]. split; [apply (sc_u_max _ _ H1)|]. split; [apply (sc_dry _ _ H1)|]. exact K.
Qed.
Print Assumptions C76_first_routing.

(** The example configuration of Props_Init.v, which has the values of default.yml
    on a smaller domain, has the same numbers in both arithmetics and is ordinary. *)
Example C76_example_inputs : same_inputs (exI (A:=F64)) (exI (A:=RA rn64)) /\ ordinary (exI (A:=RA rn64)).
Proof.
  assert (Z : forall a, 0 <= a <= 1000000 -> stands_for (fz (Arith:=F64) a) (fz (Arith:=RA rn64) a)) by (intros a Ha; apply (z_mod a Ha)).
  assert (Q : forall a b, 0 <= a <= 1000000 -> 1 <= b <= 1000000 -> stands_for (flit (A:=F64) a b) (flit (A:=RA rn64) a b)) by (intros a b Ha Hb; apply (lit_mod a b Ha Hb)).
  split.
  - constructor; unfold exI; cbn [i_Length i_Width i_dx i_L0_meters i_S0 i_itermax i_Np_water i_u0 i_N0_meters i_h0 i_hb i_H_SL i_Np_sed i_f_bedload
      i_active_layer_thickness i_C0_percent i_Csmooth i_omega_sfc i_omega_flow i_Nsmooth i_theta_water i_stepmax i_seed same_option];
      try (apply Z; lia); try (apply Q; lia); try reflexivity; exact I.
  - assert (S0 : (0 <= flit (A:=RA rn64) 15 100000 <= / 1024)%R).
    { split; [apply (lit_frac 15 100000); lia|]. unfold flit. rewrite !rz by lia. cbn [fdiv RA].
      change (/ 1024)%R with (bpow radix2 (-10)). rewrite <- (bp_repr (-10)) by lia. apply rnd_mono. change (bpow radix2 (-10)) with (/ 1024)%R. lra. }
    assert (C0 : (/ 16 <= flit (A:=RA rn64) 1 10 <= 1)%R).
    { split; [|apply (lit_frac 1 10); lia]. apply lit_tenth_p. }
    constructor; unfold exI; cbn [i_Length i_Width i_dx i_L0_meters i_S0 i_itermax i_Np_water i_u0 i_N0_meters i_h0 i_hb i_H_SL i_Np_sed i_f_bedload
      i_active_layer_thickness i_C0_percent i_Csmooth i_omega_sfc i_omega_flow i_Nsmooth i_theta_water i_stepmax i_seed]; rewrite ?rz by lia;
      try (intros ? E; discriminate E); try lia; try (rewrite ?p3, ?p5, ?p6; lra); try (apply lit_frac; lia).
    rewrite Rabs_R0, p5. lra.
Qed.

(** The documented default values are ordinary. *)
Example C76_default_ordinary : ordinary documented_defaults.
Proof.
  constructor; cbn; try (intros ? E; discriminate E); try lia; try lra.
  rewrite Rabs_R0. lra.
Qed.

(** So a model of the example configuration is created and routed in binary64. *)
Example C76_example_first_routing : forall nb np, exists m np' st,
  construct (A:=F64) (G:=lcg) (exI (A:=F64)) nb np = Ok (m, np') /\ route_water (A:=F64) (G:=lcg) (m_P m) (m_st m) = Ok st.
Proof.
  intros nb np. destruct C76_lcg as (H1 & H2 & H3). destruct C76_example_inputs as [I1 I2].
  destruct (C76_first_routing Z Z lcg lcg_real count_rng _ _ nb np H1 (fun _ => eq_refl) H2 H3 I1 I2) as (m & np' & st & g & d & E1 & E2 & _). eauto.
Qed.
