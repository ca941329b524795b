(** Property C78 (the zero of elevations). *)
From Coq Require Import ZArith List Bool Reals Lra Lia.
From Verif Require Import Base RLemmas VecLemmas Shared SharedSpec SharedProofs Params State Water WaterSpec WeightProofs WalkProofs RunProofs
  Sed SedSpec Iter IterSpec IterProofs Inputs Init InitSpec InitProofs StepSpec StepProofs MirrorProofs
  DatumSpec DatumProofs DatumSed Examples Props_Sed Props_Iter Props_Init.
Import ListNotations.
Local Open Scope Z_scope.

(** Any state can be measured from another zero. *)
Theorem C78_raised_states_exist :
  forall (S : Type) (c : R) (P : params R) (st : state R S), raised c P st (raise c st).
Proof. intros S c P st. exact (raise_raised c P st). Qed.
Print Assumptions C78_raised_states_exist.

(** ** Water *)
(** The paths of the water parcels of an iteration do not depend on the zero
    of elevations (the same variates are drawn, the same cells visited, the
    same discharge left), whatever the sign of elevations. *)
Theorem C78_same_water_paths :
  forall (S : Type) (G : Rng R S) (c : R) (P : params R) (st st' : state R S),
    1 <= p_W P -> raised c P st st' ->
    run_water_iteration (A:=RX) P st' = run_water_iteration (A:=RX) P st.
Proof. intros S G c P st st' HW H. exact (run_up c P HW st st' H). Qed.
Print Assumptions C78_same_water_paths.

(** A whole routing of water, all iterations with their smoothing, flooding
    and velocity updates, commutes with the choice of zero as long as no level
    is below zero. *)
Theorem C78_water_routing :
  forall (S : Type) (G : Rng R S) (c : R) (P : params R) (st st' : state R S),
    2 <= p_L P -> 2 <= p_W P -> averages P -> raised c P st st' -> levels_above_zero c P st ->
    alike (fun x x' => raised c P x x' /\ levels_above_zero c P x)
      (route_water (A:=RX) P st) (route_water (A:=RX) P st').
Proof. intros S G c P st st' HL HW Hav. exact (route_water_up c P HL HW Hav st st'). Qed.
Print Assumptions C78_water_routing.

(** ** Sediment *)
(** Routing all parcels of sand or all parcels of mud commutes with the
    choice of zero, for levels of any sign; the parcels lose the same volumes
    on the way. *)
Theorem C78_sand_and_mud :
  forall (S : Type) (G : Rng R S) (c : R) (P : params R) (g : grain) (st st' : state R S),
    1 <= p_L P -> 1 <= p_W P -> raised c P st st' ->
    alike (fun x x' => raised c P (fst x) (fst x') /\ snd x' = snd x)
      (route_all_parcels_res (A:=RX) P g st) (route_all_parcels_res (A:=RX) P g st').
Proof. intros S G c P g st st' HL HW. exact (route_all_up c P HL HW g st st'). Qed.
Print Assumptions C78_sand_and_mud.

(** Cross-slope diffusion depends on the zero at the rim of the grid: what a
    cell exchanges with its neighbours is the same, less the exchange with a
    neighbour outside the grid, which counts as being at elevation zero. *)
Theorem C78_diffusion_exact :
  forall (S : Type) (c : R) (P : params R) (st st' : state R S) i j,
    raised c P st st' -> inb (p_L P) (p_W P) i j ->
    crossflux (A:=RX) P st' (s_eta st') i j =
      (crossflux (A:=RX) P st (s_eta st) i j -
       if ((s_cell_type st i j =? -2) || (i =? 0))%Z then 0
       else p_diffusion_multiplier P * s_qs st i j * IZR (missing_neighbours (p_L P) (p_W P) i j) * c)%R.
Proof.
  intros S c P st st' i j H Hi. exact (crossflux_up c P st st' _ _ i j H (up_eta _ _ _ _ H) Hi).
Qed.
Print Assumptions C78_diffusion_exact.
Theorem C78_diffusion_inside :
  forall (S : Type) (c : R) (P : params R) (st st' : state R S) i j,
    raised c P st st' -> 0 < i < p_L P - 1 -> 0 < j < p_W P - 1 ->
    crossflux (A:=RX) P st' (s_eta st') i j = crossflux (A:=RX) P st (s_eta st) i j.
Proof.
  intros S c P st st' i j H Hi Hj. rewrite (C78_diffusion_exact S c P st st' i j H) by (split; lia).
  rewrite missing_inside by lia. destruct (_ || _); [|rewrite Rmult_0_r]; lra.
Qed.
Print Assumptions C78_diffusion_inside.
(** So a level bed does not stay level where sand passed the rim: with the
    bed everywhere at elevation z the cell is pulled towards zero. *)
Theorem C78_level_bed_moves_at_rim :
  forall (S : Type) (P : params R) (st : state R S) (z : R) i j,
    (forall i j, inb (p_L P) (p_W P) i j -> s_eta st i j = z) ->
    inb (p_L P) (p_W P) i j -> s_cell_type st i j <> -2 -> 0 < i ->
    crossflux (A:=RX) P st (s_eta st) i j =
      (- (p_diffusion_multiplier P * s_qs st i j * IZR (missing_neighbours (p_L P) (p_W P) i j) * z))%R.
Proof.
  intros S P st z i j Hz Hi Hc H0.
  set (st0 := raise (- z) st).
  assert (Hr : raised z P st0 st).
  { constructor; unfold same, higher; intros; unfold st0; cbn; try reflexivity; lra. }
  pose proof (C78_diffusion_exact S z P st0 st i j Hr Hi) as E. rewrite E. clear E.
  change (s_cell_type st0 i j) with (s_cell_type st i j). change (s_qs st0 i j) with (s_qs st i j).
  assert (E1 : (s_cell_type st i j =? -2) = false) by (apply Z.eqb_neq; exact Hc).
  assert (E2 : (i =? 0) = false) by (apply Z.eqb_neq; lia). rewrite E1, E2. cbn [orb].
  assert (Ez : forall i j, inb (p_L P) (p_W P) i j -> s_eta st0 i j = 0%R).
  { intros a b Hab. unfold st0. cbn. rewrite (Hz a b Hab). lra. }
  assert (E0 : crossflux (A:=RX) P st0 (s_eta st0) i j = 0%R).
  { unfold crossflux. change (s_cell_type st0 i j) with (s_cell_type st i j). rewrite E1, E2. cbn [orb]. cbv zeta.
    rewrite (Ez i j Hi). change RX with XA.
    assert (Z0 : forall kernel f, (forall a b, inb (p_L P) (p_W P) a b -> f a b = 0%R) -> convolve (A:=XA) P kernel f i j = 0%R).
    { intros kernel f Hf. unfold convolve. apply (vsum_0 (fun x => x)). intros k Hk.
      destruct (inbb (p_L P) (p_W P) (i + jwalk_flat k) (j + iwalk_flat k)) eqn:En; ra; [|ring].
      apply inbb_spec in En. rewrite (Hf _ _ En). ring. }
    rewrite (Z0 kernel1 _ Ez), (Z0 kernel2 (fun x y => fmul (Arith:=XA) (s_qs st0 x y) (s_eta st0 x y))).
    - ra. ring.
    - intros a b Hab. ra. rewrite (Ez a b Hab). ring. }
  change XA with RX. rewrite E0. lra.
Qed.
Print Assumptions C78_level_bed_moves_at_rim.

(** ** Runs *)
(** n updates of the model commute with the choice of zero: fields, clocks,
    variates, records and checkpoints.  Conditions: the weights are those of
    averages, the sea does not fall, no level is below zero at the start, and
    nothing diffuses across the rim of the grid. *)
Theorem C78_run :
  forall (S : Type) (G : Rng R S) (c : R) (P : params R) (n : nat) (st st' : state R S),
    2 <= p_L P -> 2 <= p_W P -> averages P -> sea_not_falling P ->
    raised c P st st' -> levels_above_zero c P st -> rim_at_rest_for P n st ->
    alike (fun x x' => raised c P (fst x) (fst x') /\ Forall2 (raised_output c P) (snd x) (snd x'))
      (updates (A:=RX) P n st) (updates (A:=RX) P n st').
Proof. intros S G c P n st st' HL HW Hav Hs. exact (updates_up c P HL HW Hav n Hs st st'). Qed.
Print Assumptions C78_run.
(** In particular for every run without diffusion (alpha = 0). *)
Theorem C78_run_without_diffusion :
  forall (S : Type) (G : Rng R S) (c : R) (P : params R) (n : nat) (st st' : state R S),
    2 <= p_L P -> 2 <= p_W P -> averages P -> sea_not_falling P ->
    p_N_crossdiff P <= 0 \/ p_diffusion_multiplier P = 0%R ->
    raised c P st st' -> levels_above_zero c P st ->
    alike (fun x x' => raised c P (fst x) (fst x') /\ Forall2 (raised_output c P) (snd x) (snd x'))
      (updates (A:=RX) P n st) (updates (A:=RX) P n st').
Proof.
  intros S G c P n st st' HL HW Hav Hs Hd Hr Hz. apply C78_run; auto. exact (rim_off P n Hd st).
Qed.
Print Assumptions C78_run_without_diffusion.

(** The example model without diffusion meets the conditions, can be updated
    as often as wanted, and so can the same model ten metres higher. *)
Definition ex_no_diffusion : params R := setp_N_crossdiff 0 (exP (A:=RX)).
Example C78_hypotheses : forall n, exists st1 o1 st2 o2,
  2 <= p_L ex_no_diffusion /\ 2 <= p_W ex_no_diffusion /\ averages ex_no_diffusion /\ sea_not_falling ex_no_diffusion /\
  raised 10 ex_no_diffusion (exst (A:=RX) tt) (raise 10 (exst (A:=RX) tt)) /\
  levels_above_zero 10 ex_no_diffusion (exst (A:=RX) tt) /\
  updates (A:=RX) (G:=half_rng) ex_no_diffusion n (exst (A:=RX) tt) = Ok (st1, o1) /\
  updates (A:=RX) (G:=half_rng) ex_no_diffusion n (raise 10 (exst (A:=RX) tt)) = Ok (st2, o2) /\
  s_eta st2 3 3 = (s_eta st1 3%Z 3%Z + 10)%R.
Proof.
  intros n.
  assert (Hready : model_ready ex_no_diffusion (exst (A:=RX) tt)).
  { pose proof ex_model_ready as (H1 & H2 & H3). split; [destruct H1; constructor; assumption|]. split; [destruct H2; constructor; assumption|destruct H3; constructor; assumption]. }
  destruct (updates_total (G:=half_rng) ex_no_diffusion n (exst (A:=RX) tt) Hready half_rng_range half_rng_pos)
    as (st1 & o1 & E & _).
  assert (Ha : averages ex_no_diffusion) by (split; cbn; lra).
  assert (Hs : sea_not_falling ex_no_diffusion) by (unfold sea_not_falling; cbn; lra).
  assert (Hz : levels_above_zero 10 ex_no_diffusion (exst (A:=RX) tt)).
  { split; [split; cbn; lra|]. intros i j [Hi Hj]. change (p_L ex_no_diffusion) with 6 in Hi.
    change (s_stage (exst (A:=RX) tt) i j) with (ex_stage (A:=RX) i j). unfold ex_stage. change RX with XA.
    destruct ((i <? 2) && _) eqn:Ei; [|ra; lra]. apply andb_prop in Ei as [Ei _]. apply Z.ltb_lt in Ei.
    assert (0 <= IZR (1 - i))%R by (apply IZR_le; lia). ra. unfold flit. ra. split; nra. }
  pose proof (C78_run_without_diffusion unit half_rng 10 ex_no_diffusion n _ _ ltac:(cbn; lia) ltac:(cbn; lia) Ha Hs
    (or_introl (Z.le_refl 0)) (raise_raised 10 _ (exst (A:=RX) tt)) Hz) as Q.
  change RX with XA in *. rewrite E in Q. destruct (updates (A:=XA) (G:=half_rng) ex_no_diffusion n (raise 10 (exst (A:=XA) tt))) as [[st2 o2]|] eqn:E2; [|contradiction].
  destruct Q as [Q _]. exists st1, o1, st2, o2.
  repeat (split; [first [assumption|cbn; lia|exact (raise_raised 10 _ _)|exact E]|]).
  split; [reflexivity|]. apply (up_eta _ _ _ _ Q). split; cbn; lia.
Qed.

(** ** Where the zero matters *)
(** The flooding of a dry cell at the shore compares levels with zero: a cell
    whose wet neighbours are all below zero is flooded to zero, not to their
    level.  Here all water stands at 1 above the zero, and at 9 below it. *)
Definition pool_depth : grid R := fun i j => if (i =? 3) && (j =? 3) then 1%R else 0%R.
Definition pool_bed (z : R) : grid R := fun i j => if (i =? 3) && (j =? 2) then (z - 2)%R else z.
Theorem C78_flooding_below_zero_refuted :
  flooding_correction (A:=RX) (exP (A:=RX)) pool_depth (pool_bed 1) (fun _ _ => 1%R) 3 2 = 1%R /\
  flooding_correction (A:=RX) (exP (A:=RX)) pool_depth (pool_bed (-9)) (fun _ _ => (-9)%R) 3 2 = 0%R.
Proof.
  change RX with XA.
  assert (Hw : forall a b, is_wet (exP (A:=RX)) pool_depth a b = ((a =? 3) && (b =? 3))).
  { intros a b. unfold is_wet, pool_depth. change (p_dry_depth (exP (A:=RX))) with (1 / 10)%R.
    destruct (Z.eqb_spec a 3) as [->|Ha]; cbn [andb].
    - destruct (Z.eqb_spec b 3) as [->|Hb]; [destruct (Rlt_dec _ _); [reflexivity|lra]|].
      destruct (Rlt_dec _ _); [lra|]. apply andb_false_r.
    - destruct (Rlt_dec _ _); [lra|]. apply andb_false_r. }
  split; rewrite flooding_formula by (cbn; try split; lia);
    unfold flooded, highest, offered, wet_at; rewrite ?Hw; cbn -[Rlt_dec Rmax IZR pool_bed]; unfold pool_bed; cbn [Z.eqb Pos.eqb andb].
  - replace (Rmax _ _) with 1%R by (rewrite ?(Rmax_left 0 0), ?(Rmax_right 0 1), ?(Rmax_left 1 0), ?(Rmax_right 0 1) by lra; reflexivity).
    repeat (destruct (Rlt_dec _ _); try lra); reflexivity.
  - replace (Rmax _ _) with 0%R by (rewrite ?(Rmax_left 0 0), ?(Rmax_right (-9) 0), ?(Rmax_left 0 0) by lra; reflexivity).
    repeat (destruct (Rlt_dec _ _); try lra); reflexivity.
Qed.
Print Assumptions C78_flooding_below_zero_refuted.

(** ** New models *)
(** The configured sea level sets the sea and nothing else: bed and water
    surface of a new model are the same for every sea level. *)
Theorem C78_configured_sea_level_moves_only_the_sea :
  forall (S N : Type) (G : Rng R S) (GN : NpRng N) (x : R) (c : inputs R) (nb : S) (np : N),
    alike (fun r r' => m_P (fst r') = m_P (fst r) /\ m_in (fst r') = seti_H_SL x (m_in (fst r)) /\
                       m_st (fst r') = set_H_SL x (m_st (fst r)) /\ snd r' = snd r)
      (construct (A:=RX) c nb np) (construct (A:=RX) (seti_H_SL x c) nb np).
Proof.
  intros S N G GN x c nb np.
  assert (Hp : process_input_to_model (A:=RX) (seti_H_SL x c) = rmap (seti_H_SL x) (process_input_to_model (A:=RX) c)).
  { unfold process_input_to_model.
    assert (Hb : forall (r : result (inputs R)) k k', (forall d, k' (seti_H_SL x d) = rmap (seti_H_SL x) (k d)) ->
      rbind (rmap (seti_H_SL x) r) k' = rmap (seti_H_SL x) (rbind r k)).
    { intros [d|] k k' Hk; [apply Hk|reflexivity]. }
    replace (set_Length (A:=RX) (i_Length (seti_H_SL x c)) (seti_H_SL x c)) with (rmap (seti_H_SL x) (set_Length (A:=RX) (i_Length c) c)).
    2: { unfold set_Length. cbn -[fleb fltb RX Z.ltb Z.leb]. destruct (_ : bool); reflexivity. }
    apply Hb. intros d.
    replace (set_Width (A:=RX) (i_Width (seti_H_SL x d)) (seti_H_SL x d)) with (rmap (seti_H_SL x) (set_Width (A:=RX) (i_Width d) d)).
    2: { unfold set_Width. cbn -[fleb fltb RX Z.ltb Z.leb]. destruct (_ : bool); reflexivity. }
    apply Hb. clear d. intros d.
    replace (set_dx (A:=RX) (i_dx (seti_H_SL x d)) (seti_H_SL x d)) with (rmap (seti_H_SL x) (set_dx (A:=RX) (i_dx d) d)).
    2: { unfold set_dx. cbn -[fleb fltb RX Z.ltb Z.leb]. destruct (_ : bool); reflexivity. }
    apply Hb. clear d. intros d.
    replace (set_L0_meters (A:=RX) (i_L0_meters (seti_H_SL x d)) (seti_H_SL x d)) with (rmap (seti_H_SL x) (set_L0_meters (A:=RX) (i_L0_meters d) d)).
    2: { unfold set_L0_meters. cbn -[fleb fltb RX Z.ltb Z.leb]. destruct (_ : bool); reflexivity. }
    apply Hb. clear d. intros d.
    replace (set_itermax (F:=R) (i_itermax (seti_H_SL x d)) (seti_H_SL x d)) with (rmap (seti_H_SL x) (set_itermax (F:=R) (i_itermax d) d)).
    2: { unfold set_itermax. cbn -[fleb fltb RX Z.ltb Z.leb]. destruct (_ : bool); reflexivity. }
    apply Hb. clear d. intros d.
    replace (set_Np_water (F:=R) (i_Np_water (seti_H_SL x d)) (seti_H_SL x d)) with (rmap (seti_H_SL x) (set_Np_water (F:=R) (i_Np_water d) d)).
    2: { unfold set_Np_water. cbn -[fleb fltb RX Z.ltb Z.leb]. destruct (_ : bool); reflexivity. }
    apply Hb. clear d. intros d.
    replace (set_N0_meters (A:=RX) (i_N0_meters (seti_H_SL x d)) (seti_H_SL x d)) with (rmap (seti_H_SL x) (set_N0_meters (A:=RX) (i_N0_meters d) d)).
    2: { unfold set_N0_meters. cbn -[fleb fltb RX Z.ltb Z.leb]. destruct (_ : bool); reflexivity. }
    apply Hb. clear d. intros d.
    replace (set_Np_sed (F:=R) (i_Np_sed (seti_H_SL x d)) (seti_H_SL x d)) with (rmap (seti_H_SL x) (set_Np_sed (F:=R) (i_Np_sed d) d)).
    2: { unfold set_Np_sed. cbn -[fleb fltb RX Z.ltb Z.leb]. destruct (_ : bool); reflexivity. }
    apply Hb. clear d. intros d.
    replace (set_f_bedload (A:=RX) (i_f_bedload (seti_H_SL x d)) (seti_H_SL x d)) with (rmap (seti_H_SL x) (set_f_bedload (A:=RX) (i_f_bedload d) d)).
    2: { unfold set_f_bedload. cbn -[fleb fltb RX Z.ltb Z.leb]. destruct (_ : bool); reflexivity. }
    apply Hb. clear d. intros d.
    replace (set_active_layer_thickness (A:=RX) (i_active_layer_thickness (seti_H_SL x d)) (seti_H_SL x d)) with (rmap (seti_H_SL x) (set_active_layer_thickness (A:=RX) (i_active_layer_thickness d) d)).
    2: { unfold set_active_layer_thickness. cbn -[fleb fltb RX Z.ltb Z.leb]. destruct (i_active_layer_thickness _); [|reflexivity]. destruct (_ : bool); reflexivity. }
    apply Hb. clear d. intros d.
    replace (set_C0_percent (A:=RX) (i_C0_percent (seti_H_SL x d)) (seti_H_SL x d)) with (rmap (seti_H_SL x) (set_C0_percent (A:=RX) (i_C0_percent d) d)).
    2: { unfold set_C0_percent. cbn -[fleb fltb RX Z.ltb Z.leb]. destruct (_ : bool); reflexivity. }
    apply Hb. clear d. intros d.
    replace (set_Csmooth (A:=RX) (i_Csmooth (seti_H_SL x d)) (seti_H_SL x d)) with (rmap (seti_H_SL x) (set_Csmooth (A:=RX) (i_Csmooth d) d)).
    2: { unfold set_Csmooth. cbn -[fleb fltb RX Z.ltb Z.leb]. destruct (_ : bool); reflexivity. }
    apply Hb. clear d. intros d.
    reflexivity. }
  unfold construct. rewrite Hp. destruct (process_input_to_model (A:=RX) c) as [d|]; cbn [rbind rmap]; [|reflexivity].
  unfold determine_random_seed. change (i_seed (seti_H_SL x d)) with (i_seed d).
  assert (Hd : forall (d : inputs R) (s : S) (np' : N),
    alike (fun r r' => m_P (fst r') = m_P (fst r) /\ m_in (fst r') = seti_H_SL x (m_in (fst r)) /\
                       m_st (fst r') = set_H_SL x (m_st (fst r)) /\ snd r' = snd r)
      (do P <- create_boundary_conditions (A:=RX) d (create_other_variables (A:=RX) d);
       do (P, st) <- create_domain (A:=RX) d P s;
       Ok (mkModel d (init_subsidence (A:=RX) d (init_sediment_routers P)) st false, np'))
      (do P <- create_boundary_conditions (A:=RX) (seti_H_SL x d) (create_other_variables (A:=RX) (seti_H_SL x d));
       do (P, st) <- create_domain (A:=RX) (seti_H_SL x d) P s;
       Ok (mkModel (seti_H_SL x d) (init_subsidence (A:=RX) (seti_H_SL x d) (init_sediment_routers P)) st false, np'))).
  { clear. intros d s np'.
    change (create_boundary_conditions (A:=RX) (seti_H_SL x d) (create_other_variables (A:=RX) (seti_H_SL x d)))
      with (create_boundary_conditions (A:=RX) d (create_other_variables (A:=RX) d)).
    destruct (create_boundary_conditions _ _) as [P|]; cbn [rbind]; [|reflexivity].
    unfold create_domain. destruct (_ <? 0); cbn [rbind alike]; [reflexivity|]. repeat split. }
  destruct (i_seed d) as [z|].
  - exact (Hd d (seed_rng z) np).
  - destruct (randint np) as [z np']. exact (Hd (seti_seed (Some z) d) (seed_rng z) np').
Qed.
Print Assumptions C78_configured_sea_level_moves_only_the_sea.

(** With sea level at or above zero all levels of a new model are, so that the
    conditions hold for elevations counted from any lower zero. *)
Theorem C78_new_model_levels :
  forall (S N : Type) (G : Rng R S) (GN : NpRng N) (c : inputs R) (nb : S) (np np' : N) (m : model S) (z : R),
    (0 <= i_S0 c)%R -> (0 <= i_H_SL c)%R -> (0 <= z)%R ->
    construct (A:=RX) c nb np = Ok (m, np') -> levels_above_zero z (m_P m) (m_st m).
Proof.
  intros S N G GN c nb np np' m z HS Hs Hz E.
  pose proof (C43_initial_fields S N G GN c nb np np' m E) as Hi.
  pose proof (construct_outcome c nb np) as Ho. change RX with (RA (fun x => x)) in E. rewrite E in Ho.
  destruct Ho as (Ha & _).
  assert (Hdx : (0 < i_dx c)%R) by (destruct Ha; tauto).
  destruct (in_clock _ _ _ Hi) as (_ & _ & _ & Hh & _). split; [rewrite Hh; lra|].
  intros i j Hij. rewrite (in_stage _ _ _ Hi i j Hij). destruct (Z.ltb_spec i (p_L0 (m_P m))); [|lra].
  assert (0 <= IZR (p_L0 (m_P m) - 1 - i))%R by (apply IZR_le; lia).
  assert (0 <= IZR (p_L0 (m_P m) - 1 - i) * i_dx c * i_S0 c)%R by (repeat apply Rmult_le_pos; lra). lra.
Qed.
Print Assumptions C78_new_model_levels.
Example C78_new_model_hypotheses : (0 <= i_S0 (exI (A:=RX)))%R /\ (0 <= i_H_SL (exI (A:=RX)))%R /\ exists m np',
  construct (A:=RX) (G:=half_rng) (GN:=count_rng) (exI (A:=RX)) tt 0 = Ok (m, np').
Proof.
  split; [cbn; lra|]. split; [cbn; lra|].
  destruct (runnable_ready (G:=half_rng) (exI (A:=RX)) tt 0 exI_runnable) as (m & np' & E & _). exists m, np'. exact E.
Qed.
