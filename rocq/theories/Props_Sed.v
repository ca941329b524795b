(** Properties C19-C26 and C55 (sediment routing and diffusion). *)
From Coq Require Import ZArith List Bool Reals Lra Lia Floats.SpecFloat.
From Verif Require Import Base RLemmas Shared SharedSpec SharedProofs Params State Sed
  VecLemmas WaterSpec SedSpec SedProofs SedMass SedEvents SedCor Diffusion Examples.
Import ListNotations.
Local Open Scope Z_scope.

(** ** The example domain meets the conditions *)
Lemma ex_sed_ready : sed_ready (exP (A:=RX)) (exst (A:=RX) tt).
Proof.
  constructor; cbn; try lia; [exact ex_walk_domain|].
  intros i j [Hi Hj] Hl He. exists 7%nat. split; [lia|]. split; [lia|].
  assert (Hi' : i = 0 \/ i = 1 \/ i = 2 \/ i = 3 \/ i = 4 \/ i = 5) by lia.
  assert (Hj' : j = 0 \/ j = 1 \/ j = 2 \/ j = 3 \/ j = 4 \/ j = 5 \/ j = 6) by lia.
  destruct Hi' as [->|[->|[->|[->|[->| ->]]]]]; destruct Hj' as [->|[->|[->|[->|[->|[->| ->]]]]]];
    vm_compute in Hl, He |- *; congruence.
Qed.
Lemma ex_physics : sed_physics (exP (A:=RX)) (exst (A:=RX) tt).
Proof. constructor; cbn; intros; lra. Qed.
Lemma ex_flow : sed_flow (exP (A:=RX)) (exst (A:=RX) tt).
Proof.
  constructor; cbn; intros; unfold ex_qx, ex_depth, exct; zcases; cbn; lra.
Qed.
Lemma ex_divisors : divisors_ok (fun x => x) (exP (A:=RX)).
Proof.
  assert (H : forall x y, (0 < x)%R -> npow x y <> 0%R).
  { intros x y Hx. unfold npow. destruct (Req_EM_T x 0); [lra|]. destruct (Rlt_dec 0 x); [|lra].
    unfold Rpower. pose proof (exp_pos (y * ln x)). lra. }
  constructor; try (apply H); cbn; lra.
Qed.
Lemma ex_picks g : sed_picks (G:=half_rng) (fun x => x) (exP (A:=RX)) g (exst (A:=RX) tt).
Proof. apply sed_picks_exact. exact half_rng_pos. Qed.
Lemma ex_routed g : exists st' Vs hs,
  route_all_parcels_res (A:=RX) (G:=half_rng) (exP (A:=RX)) g (exst (A:=RX) tt) = Ok (st', Vs) /\
  routed (fun x => x) (exP (A:=RX)) g (exst (A:=RX) tt) st' Vs hs.
Proof.
  apply (routing_total (G:=half_rng) (fun x => x) (exP (A:=RX)) g (exst (A:=RX) tt) ex_sed_ready ex_divisors half_rng_range (ex_picks g)).
Qed.

(** ** C19 *)
Theorem C19_weights_rounded :
  forall (rnd : R -> R), Rounding rnd -> forall (S : Type) (P : params R) (g : grain)
    (st : state R S) (b : bed R) (i j : Z), inb (p_L P) (p_W P) i j ->
    match sed_weights (A:=RA rnd) P g st b i j with
    | Ok w => (forall k, (k < 9)%nat -> 0 <= w k)%R /\
        (forall k, (k < 9)%nat -> at_nb (p_L P) (p_W P) (s_cell_type st) i j k = LAND \/ k = 4%nat -> w k = 0%R)
    | Err e => e = RuntimeError /\
        forall k, (k < 9)%nat -> k <> 4%nat -> at_nb (p_L P) (p_W P) (s_cell_type st) i j k = LAND
    end.
Proof. intros. apply sed_weights_ok; auto. Qed.
Print Assumptions C19_weights_rounded.

Theorem C19_weights_distribution :
  forall (S : Type) (P : params R) (g : grain) (st : state R S) (b : bed R) (i j : Z) w,
    inb (p_L P) (p_W P) i j -> sed_weights (A:=RX) P g st b i j = Ok w -> distribution9 w.
Proof.
  intros S P g st b i j w Hin E. split.
  - pose proof (sed_weights_ok (fun x => x) P g st b i j Hin) as H.
    change (RA (fun x => x)) with RX in H. rewrite E in H. apply H.
  - change RX with (RA (fun x => x)) in E. rewrite sed_weights_unfold in E. eapply sed_weight_sum; eauto.
Qed.
Print Assumptions C19_weights_distribution.

(** The weights of the example, binary64, at (1, 3): all to the three cells
    below. *)
Example C19_example :
  let st := exst (A:=F64) 0%Z in
  match sed_weights (A:=F64) exP Sand st (bed_of exP st) 1 3 with
  | Ok w => map (fun k => sf_rint (SFmul sf_prec sf_emax (w k) (sf_of_Z 1000))) (seq 0 9)
  | Err _ => []
  end = [0; 0; 0; 0; 0; 0; 250; 500; 250]%Z.
Proof. vm_compute. reflexivity. Qed.

(** ** C20 *)
(** One parcel: what it brings in is what it leaves on the bed plus what it
    still carries. *)
Theorem C20_parcel_budget :
  forall (S : Type) (G : Rng R S) (P : params R) (g : grain) (st : state R S)
    (steps : nat) (b b' : bed R) (V V' : R) (i j : Z) (s s' : S), (0 < p_dx P)%R ->
    route_one_parcel (A:=RX) P g st steps b V i j s = Ok (b', V', s') ->
    (V = V' + p_dx P * p_dx P * (gsum (p_L P) (p_W P) (b_eta b') - gsum (p_L P) (p_W P) (b_eta b)))%R.
Proof. intros S G P g st. intros. eapply route_one_mass; eauto. Qed.
Print Assumptions C20_parcel_budget.

Theorem C20_bed_volume_budget :
  forall (S : Type) (G : Rng R S) (P : params R) (g : grain) (st st' : state R S) (Vs : list R),
    (0 < p_dx P)%R -> route_all_parcels_res (A:=RX) P g st = Ok (st', Vs) ->
    Z.of_nat (List.length Vs) = Z.max 0 (num_starts (A:=RX) P g) /\
    (p_dx P * p_dx P * (gsum (p_L P) (p_W P) (s_eta st') - gsum (p_L P) (p_W P) (s_eta st))
      = INR (List.length Vs) * p_Vp_sed P - rsum Vs)%R.
Proof. intros S G P g st. intros. eapply route_all_mass; eauto. Qed.
Print Assumptions C20_bed_volume_budget.

(** A whole sediment step: sand and mud parcels plus what diffusion changes. *)
Theorem C20_step_budget :
  forall (S : Type) (G : Rng R S) (P : params R) (st st' : state R S),
    (0 < p_dx P)%R -> route_sediment (A:=RX) P st = Ok st' ->
    exists st1 st2 Vs1 Vs2, sed_parts (fun x => x) P st st1 st2 st' Vs1 Vs2 /\
    (p_dx P * p_dx P * (gsum (p_L P) (p_W P) (s_eta st') - gsum (p_L P) (p_W P) (s_eta st))
      = INR (List.length Vs1 + List.length Vs2) * p_Vp_sed P - rsum Vs1 - rsum Vs2
        + p_dx P * p_dx P * (gsum (p_L P) (p_W P) (s_eta st2) - gsum (p_L P) (p_W P) (s_eta st1)))%R.
Proof.
  intros S G P st st' Hdx H. apply (route_sediment_parts (fun x => x)) in H as (st1 & st2 & Vs1 & Vs2 & H).
  exists st1, st2, Vs1, Vs2. split; auto. eapply whole_mass; eauto.
Qed.
Print Assumptions C20_step_budget.

(** Both routers run to completion on the example. *)
Example C20_hypotheses : (0 < p_dx (exP (A:=RX)))%R /\ forall g, exists st' Vs,
  route_all_parcels_res (A:=RX) (G:=half_rng) (exP (A:=RX)) g (exst (A:=RX) tt) = Ok (st', Vs).
Proof.
  split; [cbn; lra|]. intros g. destruct (ex_routed g) as (st' & Vs & hs & E & _). eauto.
Qed.
Example C20_example : (* binary64, residual volumes of the two sand parcels *)
  match route_all_parcels_res (A:=F64) (G:=lcg) exP Sand (exst (A:=F64) 42%Z) with
  | Ok (_, Vs) => map sf_trunc Vs
  | Err _ => []
  end = [0; 0].
Proof. vm_compute. reflexivity. Qed.

(** ** C21 *)
Theorem C21_changes_limited :
  forall (S : Type) (P : params R) (g : grain) (st st' : state R S) Vs hs,
    sed_physics P st -> sed_flow P st -> lag_ok P g -> routed (fun x => x) P g st st' Vs hs ->
    Forall (limited P st) (concat hs).
Proof.
  intros S P g st st' Vs hs H1 H2 H3 H. destruct (routed_volumes P g st st' Vs hs H1 H2 H3 H) as (_ & H4 & _).
  eapply Forall_impl; [|exact H4]. intros e He. exact (proj1 He).
Qed.
Print Assumptions C21_changes_limited.

Theorem C21_bed_stays_below_water :
  forall (S : Type) (P : params R) (g : grain) (st st' : state R S) Vs hs,
    sed_physics P st -> sed_flow P st -> lag_ok P g -> routed (fun x => x) P g st st' Vs hs ->
    forall i j, inb (p_L P) (p_W P) i j -> (s_eta st' i j <= Rmax (s_eta st i j) (s_stage st i j))%R.
Proof. intros S P g st st' Vs hs H1 H2 H3 H. apply (routed_volumes P g st st' Vs hs H1 H2 H3 H). Qed.
Print Assumptions C21_bed_stays_below_water.

Example C21_hypotheses : sed_physics (exP (A:=RX)) (exst (A:=RX) tt) /\
  sed_flow (exP (A:=RX)) (exst (A:=RX) tt) /\ (forall g, lag_ok (exP (A:=RX)) g) /\
  forall g, exists st' Vs hs, routed (fun x => x) (exP (A:=RX)) g (exst (A:=RX) tt) st' Vs hs.
Proof.
  split; [exact ex_physics|]. split; [exact ex_flow|]. split; [intros []; cbn; lra|].
  intros g. destruct (ex_routed g) as (st' & Vs & hs & _ & H). eauto.
Qed.

(** ** C22 *)
Theorem C22_loads_nonnegative :
  forall (S : Type) (P : params R) (g : grain) (st st' : state R S) Vs hs,
    sed_physics P st -> sed_flow P st -> lag_ok P g -> routed (fun x => x) P g st st' Vs hs ->
    Forall (fun V => 0 <= V)%R Vs /\
    Forall (fun e => 0 <= ev_V e /\ 0 <= ev_V e - ev_dV e)%R (concat hs).
Proof.
  intros S P g st st' Vs hs H1 H2 H3 H. destruct (routed_volumes P g st st' Vs hs H1 H2 H3 H) as (H4 & H5 & _).
  split; auto. eapply Forall_impl; [|exact H5]. intros e He. exact (proj2 He).
Qed.
Print Assumptions C22_loads_nonnegative.

Theorem C22_deposit_records_grow :
  forall (S : Type) (P : params R) (g : grain) (st st' : state R S) Vs hs,
    routed (fun x => x) P g st st' Vs hs ->
    forall i j, (s_Vp_dep_sand st i j <= s_Vp_dep_sand st' i j /\ s_Vp_dep_mud st i j <= s_Vp_dep_mud st' i j)%R.
Proof. exact @routed_deposits. Qed.
Print Assumptions C22_deposit_records_grow.

(** With a sedimentation lag above one every mud parcel that reaches still,
    deep water ends up owing sediment. *)
Theorem C22_lag_above_one_refuted :
  forall (S : Type) (P : params R) (st : state R S) (b : bed R) (V : R) (e : event),
    stop (fun x => x) P Mud st b V e -> (0 < V)%R -> (1 < p_lambda P)%R ->
    (0 < p_beta P)%R -> (0 < p_U_dep_mud P)%R -> (0 <= p_U_ero_mud P)%R ->
    speed e = 0%R -> (0 <= column st e)%R -> (p_lambda P * V <= quarter P st e)%R ->
    (V - ev_dV e < 0)%R.
Proof. exact @mud_overdraws. Qed.
Print Assumptions C22_lag_above_one_refuted.

(** Such walks exist: the example with lag 2 and little parcels, binary64; the
    parcel's load two steps after the inlet. *)
(** [P] with another parcel volume, lag and number of parcels. *)
Definition with_sed {F} (P : params F) (Vp lag : F) (Np : Z) : params F :=
  setp_Vp_sed Vp (setp_lambda lag (setp_Np_sed Np P)).
Definition ex_lag2 {F} {A : Arith F} : params F := with_sed exP (fz 100) (fz 2) 4.
Example C22_lag_above_one_example :
  let st := exst (A:=F64) 42%Z in
  match route_one_parcel (A:=F64) (G:=lcg) ex_lag2 Mud st 2 (bed_of ex_lag2 st) (fz 100) 0 3 42%Z with
  | Ok (_, V, _) => sf_rint V
  | Err _ => 0
  end = -41.
Proof. vm_compute. reflexivity. Qed.

(** ** C23 *)
Theorem C23_fields_consistent :
  forall (rnd : R -> R) (HR : Rounding rnd) (S : Type) (P : params R) (g : grain) (st st' : state R S) Vs hs,
    routed rnd P g st st' Vs hs ->
    sed_frame st st' /\
    (forall i j, touched hs i j -> s_depth st' i j = Rmax 0 (rnd (s_stage st i j - s_eta st' i j)%R)) /\
    (forall i j, ~ touched hs i j -> s_eta st' i j = s_eta st i j /\ s_depth st' i j = s_depth st i j /\
       s_uw st' i j = s_uw st i j /\ s_ux st' i j = s_ux st i j /\ s_uy st' i j = s_uy st i j).
Proof. exact @routed_fields. Qed.
Print Assumptions C23_fields_consistent.

Theorem C23_speed_and_depth_bounds :
  forall (rnd : R -> R) (HR : Rounding rnd) (S : Type) (P : params R) (g : grain) (st st' : state R S) Vs hs,
    sed_flow P st -> (forall i j, inb (p_L P) (p_W P) i j -> 0 <= s_depth st i j)%R ->
    routed rnd P g st st' Vs hs ->
    sed_flow P st' /\ (forall i j, inb (p_L P) (p_W P) i j -> 0 <= s_depth st' i j)%R /\
    forall e, In e (concat hs) -> forall i j, inb (p_L P) (p_W P) i j ->
      (0 <= b_uw (ev_b' e) i j <= p_u_max P /\ 0 <= b_depth (ev_b' e) i j)%R /\
      b_depth (ev_b' e) (ev_i e) (ev_j e)
        = Rmax 0 (rnd (s_stage st (ev_i e) (ev_j e) - b_eta (ev_b' e) (ev_i e) (ev_j e))%R).
Proof. exact @routed_flow. Qed.
Print Assumptions C23_speed_and_depth_bounds.

Example C23_hypotheses : sed_flow (exP (A:=RX)) (exst (A:=RX) tt) /\
  (forall i j, 0 <= s_depth (exst (A:=RX) tt) i j)%R.
Proof.
  split; [exact ex_flow|]. intros i j. cbn. unfold ex_depth. destruct (_ =? _); cbn; lra.
Qed.

(** ** C24 *)
(** Routing never fails. *)
Theorem C24_routing_completes :
  forall (rnd : R -> R), Rounding rnd -> forall (S : Type) (G : Rng R S) (P : params R) (g : grain) (st : state R S),
    sed_ready P st -> divisors_ok rnd P -> uniform_range G -> sed_picks rnd P g st ->
    exists st' Vs hs, route_all_parcels_res (A:=RA rnd) P g st = Ok (st', Vs) /\ routed rnd P g st st' Vs hs.
Proof. intros rnd HR S G P g st. apply routing_total; auto. Qed.
Print Assumptions C24_routing_completes.

Theorem C24_sediment_step_completes :
  forall (S : Type) (G : Rng R S) (P : params R) (st : state R S),
    sed_ready P st -> divisors_ok (fun x => x) P -> uniform_range G -> (forall s, 0 < fst (draw s))%R ->
    exists st', route_sediment (A:=RX) P st = Ok st' /\ sed_frame st st'.
Proof.
  intros S G P st H1 HD H2 H3. apply (route_sediment_total (fun x => x)); auto; apply sed_picks_exact; auto.
Qed.
Print Assumptions C24_sediment_step_completes.

Theorem C24_walks :
  forall (rnd : R -> R) (HR : Rounding rnd) (S : Type) (P : params R) (g : grain) (st st' : state R S) Vs hs,
    sed_ready P st -> routed rnd P g st st' Vs hs ->
    Z.of_nat (List.length hs) = Z.max 0 (num_starts (A:=RA rnd) P g) /\
    Forall (fun es => (1 <= Z.of_nat (List.length es) <= p_stepmax P)%Z /\
      (exists c, In c (p_inlet P) /\ hd_error (map (fun e => (ev_i0 e, ev_j0 e)) es) = Some (0%Z, c)) /\
      Forall (legal_step P st) es /\
      exists pre e, es = pre ++ [e] /\
        Forall (fun e => s_cell_type st (ev_i e) (ev_j e) <> EDGE) pre /\
        (s_cell_type st (ev_i e) (ev_j e) = EDGE \/ Z.of_nat (List.length es) = p_stepmax P)) hs.
Proof. exact @routed_legal. Qed.
Print Assumptions C24_walks.

(** A parcel leaves through the first row only from a cell with nothing open
    below it, where the flow points straight in. *)
Theorem C24_escape :
  forall (S : Type) (P : params R) (g : grain) (st st' : state R S) Vs hs,
    sed_ready P st -> (0 <= p_dry_depth P)%R -> routed (fun x => x) P g st st' Vs hs ->
    Forall (fun e => escapes e -> ev_i0 e = 0%Z /\ (straight_in st e -> blocked_below P st e)) (concat hs).
Proof. exact @routed_escape. Qed.
Print Assumptions C24_escape.

(** An erosion threshold of zero (accepted as a parameter) makes routing stop
    with a division by zero: binary64, mud. *)
Theorem C24_zero_threshold_fails :
  match route_all_parcels_res (A:=F64) (G:=lcg) (setp_U_ero_mud (sf_of_Z 0) exP) Mud (exst (A:=F64) 42%Z) with
  | Ok _ => None
  | Err e => Some e
  end = Some ZeroDivisionError.
Proof. vm_compute. reflexivity. Qed.
Print Assumptions C24_zero_threshold_fails.

Example C24_hypotheses : sed_ready (exP (A:=RX)) (exst (A:=RX) tt) /\
  divisors_ok (fun x => x) (exP (A:=RX)) /\
  sed_picks (G:=half_rng) (fun x => x) (exP (A:=RX)) Sand (exst (A:=RX) tt) /\
  (0 <= p_dry_depth (exP (A:=RX)))%R.
Proof. split; [exact ex_sed_ready|]. split; [exact ex_divisors|]. split; [exact (ex_picks Sand)|]. cbn. lra. Qed.

(** ** C25 *)
Theorem C25_parcel_split :
  forall (P : params R), (0 <= p_Np_sed P)%Z -> (0 <= p_f_bedload P <= 1)%R ->
    (p_Np_sed P - 1 <= num_starts (A:=RX) P Sand + num_starts (A:=RX) P Mud <= p_Np_sed P)%Z /\
    (0 <= num_starts (A:=RX) P Sand)%Z /\ (0 <= num_starts (A:=RX) P Mud)%Z /\
    ((num_starts (A:=RX) P Sand + num_starts (A:=RX) P Mud = p_Np_sed P)%Z <->
       exists z, IZR z = (IZR (p_Np_sed P) * p_f_bedload P)%R).
Proof. exact num_starts_split. Qed.
Print Assumptions C25_parcel_split.

(** The example splits evenly; five parcels would be split 2 + 2. *)
Example C25_example : num_starts (A:=F64) exP Sand = 2 /\ num_starts (A:=F64) exP Mud = 2.
Proof. vm_compute. auto. Qed.
Definition ex_np5 {F} {A : Arith F} : params F := with_sed exP (fz 100) (fz 1) 5.
Example C25_one_short :
  num_starts (A:=F64) ex_np5 Sand = 2 /\ num_starts (A:=F64) ex_np5 Mud = 2 /\ p_Np_sed (ex_np5 (A:=F64)) = 5.
Proof. vm_compute. auto. Qed.

(** ** C26 *)
Theorem C26_fixed_cells :
  forall (rnd : R -> R), Rounding rnd -> forall (S : Type) (P : params R) (st : state R S) (i j : Z),
    (forall a b, rnd (s_eta st a b) = s_eta st a b) ->
    s_cell_type st i j = LAND \/ i = 0%Z ->
    s_eta (topo_diffusion (A:=RA rnd) P st) i j = s_eta st i j.
Proof. intros. apply diffuse_fixed; auto. Qed.
Print Assumptions C26_fixed_cells.

Theorem C26_no_flux_no_change :
  forall (S : Type) (P : params R) (st : state R S), (forall a b, s_qs st a b = 0)%R ->
    forall i j, s_eta (topo_diffusion (A:=RX) P st) i j = s_eta st i j.
Proof. intros. apply diffuse_zero; auto. Qed.
Print Assumptions C26_no_flux_no_change.

(** One pass: a cell gains what it receives from its neighbours in the grid,
    less a loss at the border; exchanges are equal and opposite. *)
Theorem C26_cell_budget :
  forall (S : Type) (P : params R) (st : state R S) (i j : Z), diffusible P st i j ->
    (s_eta (diffuse_once (A:=RX) P st) i j
      = s_eta st i j + received P st (fun _ _ => true) (s_eta st) i j - border_loss P st (s_eta st) i j)%R /\
    forall a b, exchange P st (s_eta st) i j a b = (- exchange P st (s_eta st) a b i j)%R.
Proof.
  intros S P st i j (H1 & H2 & H3). split.
  - change RX with (RA (fun x => x)). rewrite diffuse_once_eta, crossflux_exact; [lra|].
    unfold diffusibleb. apply inbb_spec in H1. rewrite H1.
    rewrite (proj2 (Z.eqb_neq _ _) H2), (proj2 (Z.eqb_neq _ _) H3). reflexivity.
  - intros a b. unfold exchange. lra.
Qed.
Print Assumptions C26_cell_budget.

(** One pass over any region of diffusible cells. *)
Theorem C26_region_budget :
  forall (S : Type) (P : params R) (st : state R S) (Rg : Z -> Z -> bool),
    (forall i j, inb (p_L P) (p_W P) i j -> Rg i j = true -> diffusibleb P st i j = true) ->
    (gsum (p_L P) (p_W P) (fun i j => if Rg i j then s_eta (diffuse_once (A:=RX) P st) i j else 0)
      - gsum (p_L P) (p_W P) (fun i j => if Rg i j then s_eta st i j else 0)
    = gsum (p_L P) (p_W P) (fun i j => if Rg i j
        then received P st (fun a b => negb (Rg a b)) (s_eta st) i j - border_loss P st (s_eta st) i j else 0))%R.
Proof. exact @region_budget. Qed.
Print Assumptions C26_region_budget.

(** Diffusion is such passes, one after the other, and changes nothing but the
    bed (and the record of the last pass). *)
Theorem C26_passes :
  forall (F : Type) (A : Arith F) (S : Type) (P : params F) (st : state F S),
    topo_diffusion (A:=A) P st = Nat.iter (Z.to_nat (p_N_crossdiff P)) (diffuse_once (A:=A) P) st /\
    let st' := topo_diffusion (A:=A) P st in
    sed_frame st st' /\ s_qs st' = s_qs st /\ s_depth st' = s_depth st /\ s_uw st' = s_uw st /\
    s_ux st' = s_ux st /\ s_uy st' = s_uy st /\ s_rng st' = s_rng st /\
    s_Vp_dep_sand st' = s_Vp_dep_sand st /\ s_Vp_dep_mud st' = s_Vp_dep_mud st.
Proof.
  intros F A S P st. split; [|apply diffuse_frame].
  unfold topo_diffusion. induction (Z.to_nat (p_N_crossdiff P)) as [|n IH]; [reflexivity|].
  rewrite diffuse_passes_S, IH. reflexivity.
Qed.
Print Assumptions C26_passes.

(** Total volume is not conserved: binary64, example with a flux of 1/8
    everywhere and one raised cell next to land.  Sums in sixteenths. *)
Definition ex_bump : state sfloat Z :=
  set_qs (fun _ _ => flit 1 8) (set_eta (fun i j => if (i =? 2) && (j =? 1) then fz 1 else fz 0) (exst (A:=F64) 0%Z)).
Example C26_not_conserved :
  let total st := fold_left (fun acc c => fadd acc (s_eta st (fst c) (snd c))) (cells 6 7) (fz 0) in
  SFltb (total (diffuse_once (A:=F64) exP ex_bump)) (total ex_bump) = true.
Proof. vm_compute. reflexivity. Qed.
(** The same bump in the middle of the basin keeps its volume under
    [C26_region_budget]: the region of all diffusible cells. *)
Example C26_hypotheses : diffusibleb (exP (A:=RX)) (exst (A:=RX) tt) 3 3 = true /\
  outside_count (exP (A:=RX)) 3 3 = 0 /\ outside_count (exP (A:=RX)) 5 6 = 5.
Proof. vm_compute. auto. Qed.

(** ** C55 *)
Theorem C55_sand_rules :
  forall (S : Type) (P : params R) (st st' : state R S) Vs hs,
    routed (fun x => x) P Sand st st' Vs hs ->
    Forall (fun e => sand_rule P st e (ev_dV e) /\ bed_changed P e /\ deposit_recorded Sand e) (concat hs).
Proof.
  intros S P st st' Vs hs H. eapply Forall_impl; [|exact (routed_rules P Sand st st' Vs hs H)].
  cbn beta iota. intros e (He1 & He2 & He3). auto.
Qed.
Print Assumptions C55_sand_rules.

Theorem C55_mud_rules :
  forall (S : Type) (P : params R) (st st' : state R S) Vs hs,
    routed (fun x => x) P Mud st st' Vs hs ->
    Forall (fun e => mud_rule P st e (ev_dV e) /\ bed_changed P e /\ deposit_recorded Mud e) (concat hs).
Proof.
  intros S P st st' Vs hs H. eapply Forall_impl; [|exact (routed_rules P Mud st st' Vs hs H)].
  cbn beta iota. intros e (He1 & He2 & He3). auto.
Qed.
Print Assumptions C55_mud_rules.

Example C55_hypotheses : forall g, exists st' Vs hs,
  routed (fun x => x) (exP (A:=RX)) g (exst (A:=RX) tt) st' Vs hs /\ List.length hs = 2%nat.
Proof.
  intros g. destruct (ex_routed g) as (st' & Vs & hs & E & H). exists st', Vs, hs. split; auto.
  destruct (routed_legal (fun x => x) (exP (A:=RX)) g _ _ _ _ ex_sed_ready H) as [Hl _].
  destruct (num_starts_split (exP (A:=RX))) as (_ & H1 & H2 & H3); [cbn; lia|cbn; lra|].
  assert (Hs : num_starts (A:=RA (fun x => x)) (exP (A:=RX)) Sand = 2 /\ num_starts (A:=RA (fun x => x)) (exP (A:=RX)) Mud = 2).
  { unfold num_starts. cbn -[Flocq.Core.Raux.Ztrunc].
    replace (4 * (1 / 2))%R with (IZR 2) by lra. replace (4 * (1 - 1 / 2))%R with (IZR 2) by lra.
    rewrite !Flocq.Core.Raux.Ztrunc_IZR. auto. }
  destruct g; lia.
Qed.
