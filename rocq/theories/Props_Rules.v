(** Properties C12 and C17 (formulas for the jump of a looping parcel and for
    the speed of the water), C63 (the movement of sediment as written rules). *)
From Coq Require Import ZArith List Bool Reals Lra Lia Floats.SpecFloat.
From Verif Require Import Base RLemmas Shared SharedSpec Params State Water Sed VecLemmas WaterSpec WeightSpec
  SedSpec WaterRules ChanceSpec SedRules SedRulesProofs Examples Props_Water Props_Sed.
Import ListNotations.
Local Open Scope Z_scope.

(** ** C12 *)
(** A parcel that comes back to a cell of its own path is moved five cells
    further from the inlet. *)
Theorem C12_jump : forall (P : params R) ct, walk_domain (p_L P) (p_W P) (p_L0 P) ct (p_inlet P) ->
  forall stage H_SL step ps ps', (p_L0 P < step)%Z ->
  Forall (fun p => next_ok P ct (new p) /\ (revisits P (new p) (walk p) -> new p <> p_W P + p_CTR P)%Z) ps ->
  check_for_loops (A:=RX) P stage H_SL step ps = Ok ps' ->
  Forall2 (fun p p' => forall i j, revisits P (new p) (walk p) -> at_cell (p_L P) (p_W P) (new p) i j ->
    exists px py, jump_target P i j px py /\ new p' = px * p_W P + py) ps ps'.
Proof. exact jumps. Qed.
Print Assumptions C12_jump.
(** From (3, 2) to (4, 1), binary64; the same cell by the formula. *)
Example C12_jump_example :
  match check_for_loops (A:=F64) exP (fun _ _ => sf_of_Z 0) (sf_of_Z 0) 5 [mkParcel 22 [23; 22] true 5 23 false] with
  | Ok [p] => new p = 29
  | _ => False
  end.
Proof. vm_compute. reflexivity. Qed.
Example C12_jump_formula : jump_target (exP (A:=RX)) 3 2 4 1.
Proof.
  unfold jump_target. cbn [p_L p_W p_L0 p_CTR exP]. exists 4, (-2).
  replace (IZR (3 - 1) * IZR (3 - 1) + IZR (2 - 3) * IZR (2 - 3))%R with 5%R by (cbn; lra).
  assert (H : (0 < sqrt 5)%R) by (apply sqrt_lt_R0; lra).
  assert (H5 : (sqrt 5 * sqrt 5 = 5)%R) by (apply sqrt_sqrt; lra).
  assert (E : (5 / sqrt 5 = sqrt 5)%R) by (apply Rmult_eq_reg_r with (sqrt 5); [|lra]; unfold Rdiv; rewrite Rmult_assoc, Rinv_l; lra).
  assert (B : (22 / 10 < sqrt 5 < 2249 / 1000)%R) by (split; nra).
  replace (5 * IZR (3 - 1) / sqrt 5)%R with (2 * sqrt 5)%R by (rewrite <- E at 1; unfold Rdiv; change (3 - 1) with 2; ring).
  replace (5 * IZR (2 - 3) / sqrt 5)%R with (- sqrt 5)%R by (rewrite <- E at 1; unfold Rdiv; change (2 - 3) with (-1); ring).
  split; [|split; [|split; reflexivity]]; split; unfold Rabs; destruct (Rcase_abs _); try lra; intros; reflexivity.
Qed.

(** ** C17 *)
Theorem C17_speed_formula :
  forall (S : Type) (G : Rng R S) (P : params R) (st st' : state R S),
    (0 <= p_dry_depth P)%R -> (1 <= p_itermax P)%Z ->
    route_water (A:=RX) P st = Ok st' -> forall i j, speed_rule P st' i j.
Proof. exact @route_water_speed. Qed.
Print Assumptions C17_speed_formula.
Example C17_speed_example :
  exists st', route_water (A:=RX) (G:=half_rng) (exP (A:=RX)) (exst (A:=RX) tt) = Ok st' /\
    forall i j, speed_rule (exP (A:=RX)) st' i j.
Proof.
  destruct (C16_routing_never_fails unit half_rng _ _ ex_ready half_rng_range half_rng_pos) as (st' & E & _).
  exists st'. split; auto.
  exact (C17_speed_formula unit half_rng (exP (A:=RX)) _ _ ltac:(cbn; lra) ltac:(cbn; lia) E).
Qed.

(** ** C63 *)
(** One grain: parcels go by the rules of SedRules.v, from inlet cells, in the
    documented number; the model's fields at the end are those the rules give. *)
Theorem C63_routers_follow_the_rules :
  forall (S : Type) (G : Rng R S) (P : params R) (g : grain) (st : state R S),
    sed_ready P st -> divisors_ok (fun x => x) P -> uniform_range G -> (forall s, 0 < fst (draw s))%R ->
    forall st' Vs, (0 <= p_Np_sed P)%Z -> (0 <= p_f_bedload P <= 1)%R ->
    route_all_parcels_res (A:=RX) P g st = Ok (st', Vs) ->
    exists starts hs b b' s, at_outset P st b /\ entries (p_inlet P) starts (s_rng st) s /\
      journeys P g st starts b s hs b' Vs (s_rng st') /\ at_close st b' st' /\
      parcel_count P g (List.length starts).
Proof. exact @routers_follow_rules. Qed.
Print Assumptions C63_routers_follow_the_rules.

(** What has become of a cell is the sum of what happened there: the bed, the
    sand flux and the deposits. *)
Theorem C63_ledgers :
  forall (S : Type) (G : Rng R S) (P : params R) (g : grain) (st : state R S) starts b s hs b' Vs s',
    journeys P g st starts b s hs b' Vs s' -> forall a c,
    (b_eta b' a c = b_eta b a c + bed_ledger P hs a c)%R /\
    match g with
    | Sand => (b_qs b' a c = b_qs b a c + flux_ledger P starts hs a c)%R /\
        (b_sand b' a c = b_sand b a c + deposit_ledger hs a c)%R /\ b_mud b' a c = b_mud b a c
    | Mud => (b_mud b' a c = b_mud b a c + deposit_ledger hs a c)%R /\
        b_qs b' a c = b_qs b a c /\ b_sand b' a c = b_sand b a c
    end.
Proof. exact @ledgers. Qed.
Print Assumptions C63_ledgers.

(** A sediment step: flux and deposit records are cleared, sand is routed, the
    bed diffuses (depths are left alone), mud is routed. *)
Theorem C63_sediment_step :
  forall (S : Type) (G : Rng R S) (P : params R) (st st' : state R S),
    sed_ready P st -> divisors_ok (fun x => x) P -> uniform_range G -> (forall s, 0 < fst (draw s))%R ->
    (0 <= p_Np_sed P)%Z -> (0 <= p_f_bedload P <= 1)%R ->
    route_sediment (A:=RX) P st = Ok st' ->
    exists st0 st1 st2, cleared st st0 /\ carried P Sand st0 st1 /\ smeared P st1 st2 /\ carried P Mud st2 st'.
Proof. exact @sediment_step_rules. Qed.
Print Assumptions C63_sediment_step.

(** The example meets the conditions; both grains have two parcels. *)
Example C63_hypotheses :
  sed_ready (exP (A:=RX)) (exst (A:=RX) tt) /\ divisors_ok (fun x => x) (exP (A:=RX)) /\
  uniform_range half_rng /\ (forall s, 0 < fst (draw (Rng:=half_rng) s))%R /\
  (exists st', route_sediment (A:=RX) (G:=half_rng) (exP (A:=RX)) (exst (A:=RX) tt) = Ok st') /\
  forall g, parcel_count (exP (A:=RX)) g 2.
Proof.
  split; [exact ex_sed_ready|]. split; [exact ex_divisors|]. split; [exact half_rng_range|].
  split; [exact half_rng_pos|]. split.
  - destruct (C24_sediment_step_completes unit half_rng _ _ ex_sed_ready ex_divisors half_rng_range half_rng_pos) as (st' & E & _).
    eauto.
  - intros []; unfold parcel_count, parcel_share; cbn; lra.
Qed.
