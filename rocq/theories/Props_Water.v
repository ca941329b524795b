(** Properties C06-C18 (water routing). *)
From Coq Require Import ZArith List Bool Reals Lra Lia Permutation Floats.SpecFloat.
From Verif Require Import Base RLemmas RoundingFlocq Shared SharedSpec Params State Water
  VecLemmas WaterSpec WeightProofs WalkProofs RunProofs SurfaceProofs FlowProofs Examples WaterCor.
Import ListNotations.
Local Open Scope Z_scope.

(** ** C06 *)
Theorem C06_weights_distribution :
  forall (P : params R) (depth stage mw : grid R) (ct : grid Z) (qx qy : grid R) (i j : Z),
    inb (p_L P) (p_W P) i j -> (0 <= p_gamma P <= 1)%R ->
    (forall a b, 0 <= depth a b)%R -> (forall a b, 0 <= mw a b)%R -> ct i j <> LAND ->
    exists w, water_weight_cell (A:=RX) P depth stage mw ct qx qy i j = Ok w /\
      distribution9 w /\
      (forall k, (k < 9)%nat -> at_nb (p_L P) (p_W P) ct i j k = LAND -> w k = 0%R).
Proof. exact cell_distribution. Qed.
Print Assumptions C06_weights_distribution.

(** Under any rounding: never an error, non-negative, nothing onto land. *)
Theorem C06_weights_rounded :
  forall (rnd : R -> R), Rounding rnd ->
  forall (P : params R) (depth stage mw : grid R) (ct : grid Z) (qx qy : grid R) (i j : Z),
    inb (p_L P) (p_W P) i j -> (0 <= p_gamma P <= 1)%R ->
    (forall a b, 0 <= depth a b)%R -> (forall a b, 0 <= mw a b)%R -> ct i j <> LAND ->
    exists w, water_weight_cell (A:=RA rnd) P depth stage mw ct qx qy i j = Ok w /\
      (forall k, (k < 9)%nat -> 0 <= w k)%R /\
      (forall k, (k < 9)%nat -> at_nb (p_L P) (p_W P) ct i j k = LAND -> w k = 0%R).
Proof. exact cell_robust. Qed.
Print Assumptions C06_weights_rounded.

Theorem C06_land_cell_zero :
  forall (rnd : R -> R), Rounding rnd ->
  forall (P : params R) (depth stage mw : grid R) (ct : grid Z) (qx qy : grid R) (i j : Z),
    inb (p_L P) (p_W P) i j -> (0 <= p_gamma P <= 1)%R -> ct i j = LAND ->
    exists w, water_weight_cell (A:=RA rnd) P depth stage mw ct qx qy i j = Ok w /\
      (forall k, (k < 9)%nat -> 0 <= w k)%R /\
      (forall k, (k < 9)%nat -> at_nb (p_L P) (p_W P) ct i j k = LAND -> w k = 0%R) /\
      ((forall k, (k < 9)%nat -> (at_nb (p_L P) (p_W P) depth i j k < p_dry_depth P)%R
          \/ at_nb (p_L P) (p_W P) ct i j k = LAND) -> forall k, (k < 9)%nat -> w k = 0%R).
Proof. exact @water_cell_land. Qed.
Print Assumptions C06_land_cell_zero.

(** The whole array is computed without error, cell by cell. *)
Theorem C06_array :
  forall (rnd : R -> R), Rounding rnd ->
  forall (P : params R) (depth stage mw : grid R) (ct : grid Z) (qx qy : grid R),
    (0 <= p_gamma P <= 1)%R ->
    exists w, get_water_weight_array (A:=RA rnd) P depth stage mw ct qx qy = Ok w /\
      forall i j, inb (p_L P) (p_W P) i j ->
        water_weight_cell (A:=RA rnd) P depth stage mw ct qx qy i j = Ok (w i j).
Proof. exact @water_array_ok. Qed.
Print Assumptions C06_array.

(** gamma = 2 (binary64): a negative weight at cell (0, 3), and an error at
    cell (1, 3). *)
Theorem C06_gamma_above_one_refuted :
  let st := ex_tilt in
  let cell i j := water_weight_cell (A:=F64) ex_gamma2 (s_depth st) (s_stage st)
       (s_mod_water_weight st) (s_cell_type st) (s_qx st) (s_qy st) i j in
  match cell 0%Z 3%Z with Ok w => SFltb (w 7%nat) (sf_of_Z 0) | Err _ => false end = true /\
  match cell 1%Z 3%Z with Err RuntimeError => true | _ => false end = true.
Proof. split; vm_compute; reflexivity. Qed.
Print Assumptions C06_gamma_above_one_refuted.

(** Binary64 weights at (1, 3) of the example domain: a quarter, a half and a
    quarter to the three cells below. *)
Example C06_example :
  let st := exst (A:=F64) 0%Z in
  match water_weight_cell (A:=F64) exP (s_depth st) (s_stage st)
       (s_mod_water_weight st) (s_cell_type st) (s_qx st) (s_qy st) 1 3 with
  | Ok w => map (fun k => sf_rint (SFmul sf_prec sf_emax (w k) (sf_of_Z 1000))) (seq 0 9)
  | Err _ => []
  end = [0; 0; 0; 0; 0; 0; 250; 500; 250]%Z.
Proof. vm_compute. reflexivity. Qed.
Example C06_hypotheses : (0 <= p_gamma (exP (A:=RX)) <= 1)%R /\ inb 6 7 1 3 /\ exct 1 3 <> LAND.
Proof. split; [cbn; lra|]. split; [unfold inb; lia|]. discriminate. Qed.

(** ** C07 *)
Theorem C07_dry_and_centre_excluded :
  forall (rnd : R -> R), Rounding rnd ->
  forall (P : params R) (depth stage mw : grid R) (ct : grid Z) (qx qy : grid R) (i j : Z) w,
    inb (p_L P) (p_W P) i j -> (0 <= p_gamma P <= 1)%R -> ct i j <> LAND ->
    water_weight_cell (A:=RA rnd) P depth stage mw ct qx qy i j = Ok w ->
    (exists k, (k < 9)%nat /\ k <> 4%nat /\ (p_dry_depth P <= at_nb (p_L P) (p_W P) depth i j k)%R
       /\ at_nb (p_L P) (p_W P) ct i j k <> LAND /\ (i = 0%Z -> (3 <= k)%nat)) ->
    w 4%nat = 0%R /\
    forall k, (k < 9)%nat -> (at_nb (p_L P) (p_W P) depth i j k < p_dry_depth P)%R -> w k = 0%R.
Proof. exact cell_wet. Qed.
Print Assumptions C07_dry_and_centre_excluded.

(** Cell (1, 3) of the example has the wet cell (2, 3) below it. *)
Example C07_hypotheses :
  let P := exP (A:=RX) in
  exists k, (k < 9)%nat /\ k <> 4%nat /\ (p_dry_depth P <= at_nb 6 7 (ex_depth (A:=RX)) 1 3 k)%R
       /\ at_nb 6 7 exct 1 3 k <> LAND /\ (1%Z = 0%Z -> (3 <= k)%nat).
Proof.
  exists 7%nat. split; [lia|]. split; [lia|]. split; [|split; [discriminate|lia]].
  change (at_nb 6 7 (ex_depth (A:=RX)) 1 3 7) with 5%R. cbn. lra.
Qed.

(** ** C08 *)
Theorem C08_step_stays_inside :
  forall (rnd : R -> R), Rounding rnd -> forall (S : Type) (G : Rng R S)
    (P : params R) (st : state R S) w (p : parcel) i j s,
    let L := p_L P in let W := p_W P in let ct := s_cell_type st in
    water_ready P st -> uniform_range G ->
    get_water_weight_array (A:=RA rnd) P (s_depth st) (s_stage st)
      (s_mod_water_weight st) ct (s_qx st) (s_qy st) = Ok w ->
    positive_picks rnd P st w ->
    at_cell L W (cur p) i j -> ct i j <> LAND -> ct i j <> EDGE ->
    exists p' s', choose_next_directions (A:=RA rnd) P w [p] s = Ok ([p'], s') /\
      let n' := calculate_new_ind P (cur p) (dir p') in
      ((exists a b, at_cell L W n' a b /\ ct a b <> LAND /\
          (Z.abs (a - i) <= 1 /\ Z.abs (b - j) <= 1)%Z /\ (a, b) <> (i, j)) \/
       (dir p' = 4%nat /\ n' = 0%Z /\
          forall k, (k < 9)%nat -> k <> 4%nat -> (i = 0%Z -> (3 <= k)%nat) ->
            at_nb L W ct i j k = LAND \/ (at_nb L W (s_depth st) i j k < p_dry_depth P)%R) \/
       (i = 0%Z /\ (dir p' < 3)%nat /\
          exists b, (n' = - W + b /\ 0 <= b < W /\ Z.abs (b - j) <= 1)%Z)).
Proof. intros. eapply one_step_inside; eauto. Qed.
Print Assumptions C08_step_stays_inside.

(** Over a whole iteration, all parcels. *)
Theorem C08_all_paths_inside :
  forall (rnd : R -> R), Rounding rnd -> forall (P : params R) ct w stage H_SL step ps tr ps',
    steps rnd P ct w stage H_SL step ps tr ps' ->
    Forall2 (fun p p' => exists l, walk p' = l ++ walk p /\
       Forall (fun n => n = 0%Z \/ (exists i j, at_cell (p_L P) (p_W P) n i j /\ ct i j <> LAND)
                 \/ (- p_W P <= n < 0)%Z) l) ps ps'.
Proof. exact paths_inside. Qed.
Print Assumptions C08_all_paths_inside.

(** In the first row a parcel can step out (binary64): every parcel records the
    index -5 and its discharge lands on the last row, cell (5, 2). *)
Theorem C08_first_row_escape_refuted :
  match run_water_iteration (A:=F64) (G:=low_rng) exP ex_tilt with
  | Ok (ps, (_, _, qw), _, _) =>
      map walk ps = [[-5; 3]; [-5; 3]; [-5; 3]; [-5; 3]]%Z /\
      SFltb (sf_of_Z 0) (qw (5 * 7 + 2)%Z) = true
  | Err _ => False
  end.
Proof. vm_compute. split; reflexivity. Qed.
Print Assumptions C08_first_row_escape_refuted.

Example C08_hypotheses :
  water_ready (exP (A:=RX)) (exst (A:=RX) tt) /\ uniform_range half_rng /\
  (forall s : unit, 0 < fst (draw (Rng:=half_rng) s))%R /\
  at_cell 6 7 10 1 3 /\ exct 1 3 <> LAND /\ exct 1 3 <> EDGE.
Proof.
  split; [exact ex_ready|]. split; [exact half_rng_range|]. split; [exact half_rng_pos|].
  split; [split; [reflexivity|unfold inb; lia]|]. split; discriminate.
Qed.

(** In exact arithmetic [positive_picks] only asks that no variate is zero. *)
Theorem C08_positive_picks_exact :
  forall (S : Type) (G : Rng R S) (P : params R) (st : state R S) w,
    (forall s, 0 < fst (draw s))%R ->
    get_water_weight_array (A:=RX) P (s_depth st) (s_stage st)
      (s_mod_water_weight st) (s_cell_type st) (s_qx st) (s_qy st) = Ok w ->
    (0 <= p_gamma P <= 1)%R -> positive_picks (fun x => x) P st w.
Proof. exact @exact_picks. Qed.
Print Assumptions C08_positive_picks_exact.

(** ** C09 *)
Theorem C09_terminates :
  forall (rnd : R -> R), Rounding rnd -> forall (S : Type) (G : Rng R S)
    (P : params R) (st : state R S),
    water_ready P st -> uniform_range G ->
    (forall w, get_water_weight_array (A:=RA rnd) P (s_depth st) (s_stage st)
       (s_mod_water_weight st) (s_cell_type st) (s_qx st) (s_qy st) = Ok w ->
       positive_picks rnd P st w) ->
    exists w starts tr ps q width s,
      get_water_weight_array (A:=RA rnd) P (s_depth st) (s_stage st)
       (s_mod_water_weight st) (s_cell_type st) (s_qx st) (s_qy st) = Ok w /\
      run_water_iteration (A:=RA rnd) P st = Ok (ps, q, width, s) /\
      Z.of_nat (List.length starts) = p_Np_water P /\
      Forall (fun c => In c (p_inlet P)) starts /\
      steps rnd P (s_cell_type st) w (s_stage st) (s_H_SL st) 0 (start_parcels starts) tr ps /\
      (Z.of_nat (List.length tr) <= p_stepmax P)%Z /\
      (Z.of_nat (List.length tr) = p_stepmax P \/ Forall (fun p => cur p = 0%Z) ps) /\
      (Z.of_nat (List.length tr) < width)%Z.
Proof. exact @iteration_walks. Qed.
Print Assumptions C09_terminates.

Theorem C09_retired_never_return :
  forall (rnd : R -> R) (S : Type) (P : params R) (st : state R S) w tr ps ps' stage H_SL step,
    water_ready P st ->
    steps rnd P (s_cell_type st) w stage H_SL step ps tr ps' ->
    forall n p, nth_error ps n = Some p -> cur p = 0%Z ->
    (forall qs, In qs tr ->
       exists p', nth_error qs n = Some p' /\ cur p' = 0%Z /\ dir p' = 4%nat) /\
    exists p', nth_error ps' n = Some p' /\ cur p' = 0%Z.
Proof. exact @retired_stay. Qed.
Print Assumptions C09_retired_never_return.

Theorem C09_retired_add_nothing :
  forall (P : params R) ct p p' m, dir p' = 4%nat -> gain P ct (p, p') m = 0%Z.
Proof. exact retired_no_gain. Qed.
Print Assumptions C09_retired_add_nothing.

(** The example run (binary64): all parcels retired within 26 steps. *)
Example C09_example :
  match run_water_iteration (A:=F64) (G:=lcg) exP (exst (A:=F64) 42%Z) with
  | Ok (ps, _, _, _) => forallb (fun p => Z.eqb (cur p) 0) ps = true /\ List.length ps = 4%nat
  | Err _ => False
  end.
Proof. vm_compute. split; reflexivity. Qed.

(** ** C10 *)
Theorem C10_record_grows_in_time :
  forall (P : params R) width step, (4 <= p_stepmax P)%Z -> (step <= width)%Z ->
    (step < check_size_of_indices_matrix P width step)%Z /\
    (width <= check_size_of_indices_matrix P width step)%Z.
Proof. exact record_grows. Qed.
Print Assumptions C10_record_grows_in_time.

(** Below four the increment is zero and a step that does not fit always fails. *)
Theorem C10_small_stepmax_refuted :
  forall (S : Type) (G : Rng R S) (rnd : R -> R) (P : params R) w stage H_SL ct step ps q width s r,
    (0 <= p_stepmax P < 4)%Z -> (width <= step)%Z ->
    water_step (A:=RA rnd) P w stage H_SL ct step (ps, q, width, s) <> Ok r.
Proof. exact @small_stepmax. Qed.
Print Assumptions C10_small_stepmax_refuted.

(** stepmax = 3 on the example: the record has int(3/2) = 1 column and the first
    step raises IndexError (binary64). *)
Example C10_example_stepmax3 :
  run_water_iteration (A:=F64) (G:=lcg) (ex_with exP 2 3) (set_width 1%Z (exst (A:=F64) 1%Z))
  = Err IndexError.
Proof. vm_compute. reflexivity. Qed.
Example C10_example : (check_size_of_indices_matrix (exP (A:=RX)) 13 13 = 19)%Z.
Proof. reflexivity. Qed.

(** ** C11 *)
Theorem C11_step_budget :
  forall (S : Type) (G : Rng R S) (P : params R) w stage H_SL ct step ps qx qy qw width s
         ps' qx' qy' qw' width' s',
    water_step (A:=RX) P w stage H_SL ct step (ps, (qx, qy, qw), width, s)
      = Ok (ps', (qx', qy', qw'), width', s') ->
    Forall (fun p => (dir p < 9)%nat) ps' ->
    (forall m, qw' m = qw m + p_Qp_water P / p_dx P / 2 * IZR (fold_right Z.add 0%Z
        (map (fun pp => gain P ct pp m) (combine ps ps'))))%R /\
    (fsum (p_L P * p_W P) qw' = fsum (p_L P * p_W P) qw
      + p_Qp_water P / p_dx P / 2 * IZR (2 * count moved ps' + count (arrived P ct) ps'))%R.
Proof. exact @step_budget. Qed.
Print Assumptions C11_step_budget.

Theorem C11_iteration_budget :
  forall (S : Type) (G : Rng R S) (P : params R) (st : state R S),
    water_ready P st -> uniform_range G -> (forall s, 0 < fst (draw s))%R ->
    exists starts tr ps qx qy qw width s,
      run_water_iteration (A:=RX) P st = Ok (ps, (qx, qy, qw), width, s) /\
      Z.of_nat (List.length starts) = p_Np_water P /\
      Forall (fun c => In c (p_inlet P)) starts /\
      (exists w, steps (fun x => x) P (s_cell_type st) w (s_stage st) (s_H_SL st) 0
          (start_parcels starts) tr ps) /\
      (fsum (p_L P * p_W P) qw = p_Qp_water P / p_dx P / 2 *
        IZR (Z.of_nat (List.length (nodup Z.eq_dec starts)) + trace_gain P (s_cell_type st) tr))%R.
Proof. exact @run_budget. Qed.
Print Assumptions C11_iteration_budget.

(** Four parcels on two distinct inlet cells: the inlet row holds two half
    fluxes before the first step, not four. *)
Example C11_example :
  fsum 42 (fancy_add (A:=RX) (zero_flat (A:=RX)) [2; 3; 3; 2]%Z 7%R) = 14%R.
Proof. rewrite (fancy_total (exP (A:=RX))). cbn. lra. repeat constructor; cbn; lia. Qed.

(** ** C12 *)
Theorem C12_loop_correction :
  forall (rnd : R -> R), Rounding rnd -> forall (P : params R) ct,
    walk_domain (p_L P) (p_W P) (p_L0 P) ct (p_inlet P) ->
    forall stage H_SL step ps,
    Forall (fun p => next_ok P ct (new p) /\
              (revisits P (new p) (walk p) -> new p <> p_W P + p_CTR P)%Z) ps ->
    exists ps', check_for_loops (A:=RA rnd) P stage H_SL step ps = Ok ps' /\
      Forall2 (fun p p' =>
        (cur p' = cur p /\ walk p' = walk p /\ fflag p' = fflag p /\ dir p' = dir p) /\
        (((step <= p_L0 P)%Z /\ new p' = new p /\ looped p' = false) \/
         ((p_L0 P < step)%Z /\ loop_rel rnd P stage H_SL (new p) (walk p) (new p') (looped p')))) ps ps'.
Proof. exact @check_for_loops_ok. Qed.
Print Assumptions C12_loop_correction.

(** Row 1 of the centre line, land strip of one row: an unassigned variable for
    the first looping parcel, the previous parcel's target for a later one. *)
Theorem C12_centre_line_refuted :
  let P := ex_with exP 1 26 in
  let at_centre := mkParcel 3 [10; 3]%Z true 7 10 false in
  let other := mkParcel 22 [23; 22]%Z true 5 23 false in
  check_for_loops (A:=F64) P (fun _ _ => sf_of_Z 0) (sf_of_Z 0) 5 [at_centre] = Err UnboundLocalError /\
  match check_for_loops (A:=F64) P (fun _ _ => sf_of_Z 0) (sf_of_Z 0) 5 [other; at_centre] with
  | Ok [a; b] => new a = new b /\ new b <> 10%Z
  | _ => False
  end.
Proof. vm_compute. split; [reflexivity|]. split; [reflexivity|discriminate]. Qed.
Print Assumptions C12_centre_line_refuted.

Example C12_hypotheses :
  walk_domain 6 7 2 exct [2; 3; 4]%Z /\
  next_ok (exP (A:=RX)) exct 23 /\ revisits (exP (A:=RX)) 23 [23; 22]%Z /\ (23 <> 7 + 3)%Z.
Proof.
  split; [exact ex_walk_domain|]. split.
  - right; left. exists 3%Z, 2%Z. split; [split; [reflexivity|unfold inb; cbn; lia]|discriminate].
  - split; [|lia]. split; [lia|]. split; [cbn; lia|]. cbn. auto.
Qed.

(** ** C13 *)
Theorem C13_surface_above_sea_and_bed :
  forall (rnd : R -> R), Rounding rnd -> forall (S : Type) (P : params R),
    (1 <= p_W P)%Z -> forall (st : state R S) ps,
    Forall (walk_usable P) ps ->
    exists st', compute_free_surface (A:=RA rnd) P ps st = Ok st' /\
      (forall i j, s_H_SL st <= s_Hnew st' i j /\ s_eta st i j <= s_Hnew st' i j)%R /\
      (forall i j, (forall p, In p ps -> ~ on_path P (s_cell_type st) p i j) ->
        s_Hnew st' i j
        = Rmax (Rmax (rnd (s_eta st i j + s_depth st i j)%R) (s_H_SL st)) (s_eta st i j)).
Proof. exact @compute_surface_ok. Qed.
Print Assumptions C13_surface_above_sea_and_bed.

(** The paths of any iteration meet the hypothesis. *)
Theorem C13_paths_usable :
  forall (rnd : R -> R) (S : Type) (P : params R) (st : state R S) w stage H_SL starts tr ps,
    water_ready P st -> Forall (fun c => In c (p_inlet P)) starts ->
    steps rnd P (s_cell_type st) w stage H_SL 0 (start_parcels starts) tr ps ->
    Forall (walk_usable P) ps.
Proof. exact @steps_usable. Qed.
Print Assumptions C13_paths_usable.

Example C13_hypotheses :
  walk_usable (exP (A:=RX)) (mkParcel 0 [38; 31; 24; 17; 10; 3]%Z true 7 38 false).
Proof. split; [repeat constructor; cbn; lia|]. constructor. lia. Qed.

(** ** C14 *)
Theorem C14_maximum_principle :
  forall (P : params R) C ct m M, (0 <= C <= 1)%R -> forall n H,
    (forall i j, inb (p_L P) (p_W P) i j -> m <= H i j <= M)%R ->
    forall i j, inb (p_L P) (p_W P) i j -> (m <= smooth_passes (A:=RX) P C ct n H i j <= M)%R.
Proof. exact smooth_bounds. Qed.
Print Assumptions C14_maximum_principle.

Theorem C14_edges_unchanged :
  forall (P : params R) rnd C ct n H i j, ct i j = EDGE ->
    smooth_passes (A:=RA rnd) P C ct n H i j = H i j.
Proof. exact smooth_edge. Qed.
Print Assumptions C14_edges_unchanged.

Theorem C14_flat_unchanged :
  forall (P : params R) C ct c n i j, (0 <= C <= 1)%R -> inb (p_L P) (p_W P) i j ->
    smooth_passes (A:=RX) P C ct n (fun _ _ => c) i j = c.
Proof. exact smooth_flat. Qed.
Print Assumptions C14_flat_unchanged.

(** Coefficient 2 (accepted by the model): a surface between 0 and 1 becomes 2. *)
Theorem C14_coefficient_above_one_refuted :
  let H : grid sfloat := fun i j => if (i =? 3)%Z && (j =? 3)%Z then sf_of_Z 1 else sf_of_Z 0 in
  SFeqb (smooth_passes (A:=F64) exP (sf_of_Z 2) exct 1 H 3 3) (sf_of_Z 2) = true.
Proof. vm_compute. reflexivity. Qed.
Print Assumptions C14_coefficient_above_one_refuted.

(** Coefficient 1/2 on the same surface: 1/2 at the peak. *)
Example C14_example :
  let H : grid sfloat := fun i j => if (i =? 3)%Z && (j =? 3)%Z then sf_of_Z 1 else sf_of_Z 0 in
  sf_rint (SFmul sf_prec sf_emax (sf_of_Z 16)
    (smooth_passes (A:=F64) exP (flit 1 2) exct 1 H 3 3)) = 8%Z /\
  sf_rint (SFmul sf_prec sf_emax (sf_of_Z 16)
    (smooth_passes (A:=F64) exP (flit 1 2) exct 1 H 3 2)) = 1%Z.
Proof. vm_compute. split; reflexivity. Qed.

(** ** C15 *)
Theorem C15_only_shore_cells_raised :
  forall (rnd : R -> R), Rounding rnd -> forall (P : params R) depth eta stage i j,
    (2 <= p_L P)%Z -> (2 <= p_W P)%Z ->
    flooding_correction (A:=RA rnd) P depth eta stage i j <> stage i j ->
    inb (p_L P) (p_W P) i j /\ ~ wet P depth i j /\
    (exists a b, inb (p_L P) (p_W P) a b /\ (Z.abs (a - i) <= 1)%Z /\ (Z.abs (b - j) <= 1)%Z
        /\ (a, b) <> (i, j) /\ wet P depth a b) /\
    (eta i j < flooding_correction (A:=RA rnd) P depth eta stage i j)%R.
Proof. intros rnd _. exact (flooding_changes rnd). Qed.
Print Assumptions C15_only_shore_cells_raised.

(** Away from the grid border a raised cell takes the highest of its wet
    neighbours' stages, or zero when some neighbour is dry and zero is higher. *)
Theorem C15_raised_value :
  forall (P : params R) depth eta stage i j, interior P i j ->
    let s' := flooding_correction (A:=RX) P depth eta stage i j in
    s' <> stage i j ->
    (forall a b, neighbour i j a b -> wet P depth a b -> stage a b <= s')%R /\
    ((exists a b, neighbour i j a b /\ wet P depth a b /\ s' = stage a b) \/
     (s' = 0%R /\ exists a b, neighbour i j a b /\ ~ wet P depth a b)).
Proof. exact flooding_value. Qed.
Print Assumptions C15_raised_value.

Theorem C15_order_independent :
  forall (rnd : R -> R) (P : params R) depth eta stage l,
    Permutation l (cells (p_L P) (p_W P)) ->
    fold_left (fun s ij => flood_one (A:=RA rnd)
        (fix_edges P (shift_plane P false (fun a b => fltb (Arith:=RA rnd) (p_dry_depth P) (depth a b))))
        (shift_plane P (fz (Arith:=RA rnd) 0) stage) eta (fst ij) (snd ij) s)
      (filter (is_shore rnd P depth) l) stage
    = flooding_correction (A:=RA rnd) P depth eta stage.
Proof. exact flood_order. Qed.
Print Assumptions C15_order_independent.

(** Sea level -2, one dry cell (bed -1): its wet neighbours stand at -2 but its
    stage becomes 0 (binary64). *)
Theorem C15_zero_stage_refuted :
  let depth : grid sfloat := fun i j => if (2 <=? i)%Z && (i <=? 3)%Z && (j =? 3)%Z then sf_of_Z 0 else sf_of_Z 5 in
  let eta : grid sfloat := fun i j => if (i =? 3)%Z && (j =? 3)%Z then sf_of_Z (-1) else sf_of_Z (-7) in
  let stage : grid sfloat := fun _ _ => sf_of_Z (-2) in
  SFeqb (flooding_correction (A:=F64) exP depth eta stage 3 3) (sf_of_Z 0) = true.
Proof. vm_compute. reflexivity. Qed.
Print Assumptions C15_zero_stage_refuted.

(** A dry cell with bed 1 next to water at stage 3 is flooded to 3; a dry cell
    with bed 4 is not. *)
Example C15_example :
  let depth b : grid sfloat := fun i j => if (i =? 3)%Z && (j =? 3)%Z then sf_of_Z 0 else sf_of_Z 5 in
  let eta b : grid sfloat := fun i j => if (i =? 3)%Z && (j =? 3)%Z then sf_of_Z b else sf_of_Z (-2) in
  let stage : grid sfloat := fun i j => if (i =? 3)%Z && (j =? 3)%Z then sf_of_Z 1 else sf_of_Z 3 in
  SFeqb (flooding_correction (A:=F64) exP (depth 1%Z) (eta 1%Z) stage 3 3) (sf_of_Z 3) = true /\
  SFeqb (flooding_correction (A:=F64) exP (depth 4%Z) (eta 4%Z) stage 3 3) (sf_of_Z 1) = true.
Proof. vm_compute. split; reflexivity. Qed.

(** ** C16 *)
Theorem C16_levels_after_iteration :
  forall (rnd : R -> R), Rounding rnd -> forall (S : Type) (G : Rng R S) (P : params R)
    it (st st' : state R S), (0 <= p_u_max P)%R -> (0 <= p_dry_depth P)%R ->
    water_iteration (A:=RA rnd) P it st = Ok st' ->
    water_levels rnd st' /\ speed_ok P st' /\ water_frame st st'.
Proof. exact @water_iteration_post. Qed.
Print Assumptions C16_levels_after_iteration.

Theorem C16_levels_after_routing :
  forall (rnd : R -> R), Rounding rnd -> forall (S : Type) (G : Rng R S) (P : params R)
    (st st' : state R S), (0 <= p_u_max P)%R -> (0 <= p_dry_depth P)%R -> (1 <= p_itermax P)%Z ->
    route_water (A:=RA rnd) P st = Ok st' ->
    water_levels rnd st' /\ speed_ok P st' /\ water_frame st st'.
Proof. exact @route_water_post. Qed.
Print Assumptions C16_levels_after_routing.

(** Routing never raises, from any state ready for it. *)
Theorem C16_routing_never_fails :
  forall (S : Type) (G : Rng R S) (P : params R) (st : state R S),
    water_ready P st -> uniform_range G -> (forall s, 0 < fst (draw s))%R ->
    exists st', route_water (A:=RX) P st = Ok st' /\ water_ready P st'.
Proof. exact @route_water_ok. Qed.
Print Assumptions C16_routing_never_fails.

Example C16_example :
  exists st', route_water (A:=RX) (G:=half_rng) (exP (A:=RX)) (exst (A:=RX) tt) = Ok st' /\
    water_levels (fun x => x) st' /\ speed_ok (exP (A:=RX)) st'.
Proof.
  destruct (C16_routing_never_fails unit half_rng _ _ ex_ready half_rng_range half_rng_pos)
    as (st' & E & _).
  exists st'. split; auto.
  destruct (C16_levels_after_routing (fun x => x) Rounding_id unit half_rng (exP (A:=RX)) _ _
    ltac:(cbn; lra) ltac:(cbn; lra) ltac:(cbn; lia) E) as (H1 & H2 & _). auto.
Qed.

(** ** C17 *)
Theorem C17_flow_consistent :
  forall (S : Type) (G : Rng R S) (P : params R) (st st' : state R S),
    (0 <= p_u_max P)%R -> (0 <= p_dry_depth P)%R -> (0 <= p_qw0 P)%R -> (1 <= p_itermax P)%Z ->
    route_water (A:=RX) P st = Ok st' -> flow_consistent P st'.
Proof. exact @route_water_flow. Qed.
Print Assumptions C17_flow_consistent.

Theorem C17_speed_bounds :
  forall (rnd : R -> R), Rounding rnd -> forall (S : Type) (G : Rng R S) (P : params R)
    (st st' : state R S), (0 <= p_u_max P)%R -> (0 <= p_dry_depth P)%R -> (1 <= p_itermax P)%Z ->
    route_water (A:=RA rnd) P st = Ok st' ->
    forall i j, (0 <= s_uw st' i j <= p_u_max P)%R /\
      ((s_depth st' i j <= p_dry_depth P)%R ->
        s_uw st' i j = 0%R /\ s_ux st' i j = 0%R /\ s_uy st' i j = 0%R).
Proof. exact speed_bounds. Qed.
Print Assumptions C17_speed_bounds.

Example C17_example :
  exists st', route_water (A:=RX) (G:=half_rng) (exP (A:=RX)) (exst (A:=RX) tt) = Ok st' /\
    flow_consistent (exP (A:=RX)) st'.
Proof.
  destruct (C16_routing_never_fails unit half_rng _ _ ex_ready half_rng_range half_rng_pos)
    as (st' & E & _).
  exists st'. split; auto.
  exact (C17_flow_consistent unit half_rng (exP (A:=RX)) _ _
    ltac:(cbn; lra) ltac:(cbn; lra) ltac:(cbn; lra) ltac:(cbn; lia) E).
Qed.

(** ** C18 *)
Theorem C18_relaxation :
  forall (S : Type) (P : params R) it (st : state R S) i j,
    let st' := update_flow_field (A:=RX) P it st in
    let omega := if (it =? 0)%Z then p_omega_flow P else p_omega_flow_iter P in
    (i = 0%Z /\ In j (p_inlet P) ->
       s_qx st' i j = p_qw0 P /\ s_qy st' i j = 0%R /\ s_qw st' i j = p_qw0 P) /\
    (~ (i = 0%Z /\ In j (p_inlet P)) -> (0 <= s_qwn st i j)%R ->
     exists nx ny,
       (** (nx, ny): the parcel field rescaled to the parcel discharge *)
       (exists c, 0 <= c /\ nx = c * s_qxn st i j /\ ny = c * s_qyn st i j)%R /\
       ((s_qxn st i j, s_qyn st i j) <> (0, 0)%R -> nx * nx + ny * ny = s_qwn st i j * s_qwn st i j)%R /\
       (s_qw st' i j = sqrt (s_qx st' i j * s_qx st' i j + s_qy st' i j * s_qy st' i j))%R /\
       ((0 < s_time_iter st)%Z ->
          s_qx st' i j = omega * nx + (1 - omega) * s_qx st i j /\
          s_qy st' i j = omega * ny + (1 - omega) * s_qy st i j)%R /\
       ((s_time_iter st <= 0)%Z -> s_qx st' i j = nx /\ s_qy st' i j = ny)).
Proof. exact @flow_relaxation. Qed.
Print Assumptions C18_relaxation.

(** Second step (time_iter = 1), parcel field (3, 4) with discharge 10, old
    discharge (1, 1), first iteration (omega 0.9), binary64, times 10. *)
Example C18_example :
  let st := set_time_iter 1%Z (set_qxn (fun _ _ => sf_of_Z 3) (set_qyn (fun _ _ => sf_of_Z 4)
     (set_qwn (fun _ _ => sf_of_Z 10) (set_qx (fun _ _ => sf_of_Z 1) (set_qy (fun _ _ => sf_of_Z 1)
       (exst (A:=F64) tt)))))) in
  let st' := update_flow_field (A:=F64) exP 0 st in
  let r x := sf_rint (SFmul sf_prec sf_emax (sf_of_Z 10) x) in
  (r (s_qx st' 3 3), r (s_qy st' 3 3), r (s_qx st' 0 3), r (s_qy st' 0 3))%Z = (55, 73, 50, 0)%Z.
Proof. vm_compute. reflexivity. Qed.
