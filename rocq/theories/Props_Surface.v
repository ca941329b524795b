(** Properties C60, C61 and C62: the free surface and the discharge field as
    formulas; and the flooding of shore cells (C15). *)
From Coq Require Import ZArith List Bool Reals Lra Lia.
From Verif Require Import Base RLemmas Shared SharedSpec Params State Water WaterSpec WeightSpec
  RunProofs SurfaceProofs Examples SurfaceSpec SurfaceFormula.
Import ListNotations.

(** ** C60: levels along paths *)
Theorem C60_surface_is_the_mean_of_path_levels :
  forall (S : Type) (P : params R) (st : state R S) ps, (1 <= p_W P)%Z ->
  Forall (walk_usable P) ps ->
  exists st', compute_free_surface (A:=RX) P ps st = Ok st' /\
  forall i j, s_Hnew st' i j = Rmax (Rmax (mean_level P st ps i j) (s_H_SL st)) (s_eta st i j).
Proof. intros S P st ps. exact (surface_is_mean P st ps). Qed.
Print Assumptions C60_surface_is_the_mean_of_path_levels.

(** A straight path down the middle of the example: sea level up to the end of
    the inlet channel, one slope step higher at its head. *)
Definition straight : parcel := mkParcel 0 [38; 31; 24; 17; 10; 3]%Z true 7 38 false.
Example C60_case :
  let st := exst (A:=RX) tt in let P := exP (A:=RX) in
  walk_usable P straight /\ qualifies P st straight = true /\
  levels_at P st [straight] 1 3 = [0%R] /\ levels_at P st [straight] 0 3 = [(15 / 100000 * 50)%R].
Proof.
  cbn zeta. set (st := exst (A:=RX) tt). set (P := exP (A:=RX)).
  assert (Hu : walk_usable P straight).
  { split; [repeat constructor; cbn; lia|]. constructor. lia. }
  assert (Ho : forall k, (k < 6)%nat -> onshore P st (path_cell P straight k) = (4 <=? k)%nat).
  { intros k Hk. unfold onshore.
    do 6 (destruct k as [|k]; [cbn -[Rlt_dec Rdiv];
      repeat match goal with |- context [Rlt_dec ?a ?b] => destruct (Rlt_dec a b) end; try reflexivity; exfalso; lra|]). lia. }
  assert (Hm : forall k, (1 <= k < 6)%nat -> moved_to (path_cell P straight) k = true).
  { intros k Hk. do 6 (destruct k as [|k]; [try lia; reflexivity|]). lia. }
  assert (Hi : forall k, (k <= 5)%nat -> inland P st (path_cell P straight) k = (5 <=? k)%nat).
  { intros k Hk. unfold inland. do 6 (destruct k as [|k]; [cbn [Nat.sub seq existsb]; rewrite ?Ho, ?Hm by lia; reflexivity|]). lia. }
  assert (Hc : climb P st (path_cell P straight 5) (path_cell P straight 4) = (15 / 100000 * 50)%R).
  { unfold climb. cbn -[Req_EM_T Rdiv Rmult Rplus]. destruct (Req_EM_T (5 / 5) 0); [exfalso; lra|]. field. }
  split; [exact Hu|]. split; [reflexivity|].
  unfold levels_at, levels_of. cbn [flat_map].
  change (qualifies P st straight) with true. cbn iota. rewrite !app_nil_r.
  change (filter (fun k => same_cell (path_cell P straight k) (1, 3)%Z) (seq 1 (List.length (path P straight) - 1))) with [4%nat].
  change (filter (fun k => same_cell (path_cell P straight k) (0, 3)%Z) (seq 1 (List.length (path P straight) - 1))) with [5%nat].
  cbn [map level rise]. rewrite !Hi, !Hm, Hc by lia. cbn [Nat.leb]. change (s_H_SL st) with 0%R. split; f_equal; lra.
Qed.

(** ** C61: smoothing and relaxation *)

(** The stage after computing the free surface: the smoothed surface relaxed
    with the former stage (on the first time step the former stage), then
    raised at shore cells. *)
Theorem C61_new_stage :
  forall (S : Type) (P : params R) (st st' : state R S) ps, (2 <= p_L P)%Z -> (2 <= p_W P)%Z ->
  compute_free_surface (A:=RX) P ps st = Ok st' ->
  exists relaxed : grid R,
  (forall i j, inb (p_L P) (p_W P) i j ->
     ((0 < s_time_iter st)%Z ->
        relaxed i j = (1 - p_omega_sfc P) * s_stage st i j + p_omega_sfc P *
          Nat.iter (Z.to_nat (p_Nsmooth P)) (smoothed (p_L P) (p_W P) (p_Csmooth P) (s_cell_type st)) (s_Hnew st') i j) /\
     ((s_time_iter st <= 0)%Z -> relaxed i j = s_stage st i j))%R /\
  (forall i j, s_stage st' i j <> relaxed i j ->
     ~ WaterSpec.wet P (s_depth st) i j /\
     (exists a b, inb (p_L P) (p_W P) a b /\ (Z.abs (a - i) <= 1)%Z /\ (Z.abs (b - j) <= 1)%Z
        /\ (a, b) <> (i, j) /\ WaterSpec.wet P (s_depth st) a b) /\
     (s_eta st i j < s_stage st' i j)%R) /\
  (forall i j a b, interior P i j -> ~ WaterSpec.wet P (s_depth st) i j ->
     neighbour i j a b -> WaterSpec.wet P (s_depth st) a b -> (s_eta st i j < relaxed a b)%R ->
     (forall a b, neighbour i j a b -> WaterSpec.wet P (s_depth st) a b -> relaxed a b <= s_stage st' i j)%R).
Proof.
  intros S P st st' ps HL HW E. destruct (new_stage P st st' ps E) as (relaxed & Hr & Es).
  exists relaxed. split; [|split].
  - intros i j Hin. rewrite (Hr i j Hin). split; intros Ht; destruct (Z.ltb_spec 0 (s_time_iter st)); try lia; reflexivity.
  - intros i j Hne. rewrite Es in *. destruct (flooding_changes (fun x => x) P _ _ _ _ _ HL HW Hne) as (_ & H1 & H2 & H3).
    split; [exact H1|]. split; [exact H2|exact H3].
  - intros i j a b Hint Hd Hn Hw He. rewrite Es.
    apply (flooded_value P (s_depth st) (s_eta st) relaxed i j a b Hint Hd Hn Hw He).
Qed.
Print Assumptions C61_new_stage.

(** The smoothing passes, one by one. *)
Theorem C61_smoothing_pass :
  forall (P : params R) C ct n H i j, inb (p_L P) (p_W P) i j ->
  smooth_passes (A:=RX) P C ct n H i j = Nat.iter n (smoothed (p_L P) (p_W P) C ct) H i j.
Proof. intros P C ct n H i j. exact (smooth_passes_spec P C ct n H H (fun _ _ _ => eq_refl) i j). Qed.
Print Assumptions C61_smoothing_pass.

(** A bump of height 8 between water cells: a pass with weight 1/2 halves it and
    gives each neighbour 1/16 of it. *)
Example C61_case :
  let H : grid R := fun i j => if (i =? 3)%Z && (j =? 3)%Z then 8%R else 0%R in
  smoothed 6 7 (1 / 2)%R exct H 3%Z 3%Z = 4%R /\ smoothed 6 7 (1 / 2)%R exct H 3%Z 2%Z = (1 / 2)%R /\
  smoothed 6 7 (1 / 2)%R exct H 5%Z 3%Z = 0%R.
Proof. cbn. repeat split; lra. Qed.

(** ** C15: shore cells are flooded *)

(** A dry cell away from the border with a wet neighbour above its bed takes
    the highest stage among its wet neighbours, or zero when some neighbour is
    dry and zero is higher. *)
Theorem C15_shore_cells_flooded :
  forall (P : params R) depth eta stage i j a b, interior P i j ->
  ~ WaterSpec.wet P depth i j -> neighbour i j a b -> WaterSpec.wet P depth a b -> (eta i j < stage a b)%R ->
  let s' := flooding_correction (A:=RX) P depth eta stage i j in
  (forall a b, neighbour i j a b -> WaterSpec.wet P depth a b -> stage a b <= s')%R /\
  ((exists a b, neighbour i j a b /\ WaterSpec.wet P depth a b /\ s' = stage a b) \/
   (s' = 0%R /\ exists a b, neighbour i j a b /\ ~ WaterSpec.wet P depth a b)).
Proof. exact flooded_value. Qed.
Print Assumptions C15_shore_cells_flooded.

Example C15_shore_case :
  let P := exP (A:=RX) in
  let depth : grid R := fun i j => if (i =? 3)%Z && (j =? 3)%Z then 0%R else 5%R in
  (interior P 3 3 /\ ~ WaterSpec.wet P depth 3 3 /\ neighbour 3 3 3 2 /\ WaterSpec.wet P depth 3 2)%Z.
Proof.
  cbn. unfold interior, neighbour, WaterSpec.wet. cbn. repeat split; try lia; try lra. intros E. discriminate.
Qed.

(** ** C62: the discharge field *)

(** After an iteration each cell holds: the unit vectors of the steps credited
    to it, plus a downstream unit vector at the start cells; and as discharge
    half a parcel's discharge per width for every credit, plus one at the
    start cells. *)
Theorem C62_fields_of_an_iteration :
  forall (S : Type) (G : Rng R S) (P : params R) (st : state R S),
  water_ready P st -> uniform_range G -> (forall s, 0 < fst (draw s))%R ->
  exists starts tr ps qx qy qw width s,
    run_water_iteration (A:=RX) P st = Ok (ps, (qx, qy, qw), width, s) /\
    Z.of_nat (List.length starts) = p_Np_water P /\
    Forall (fun c => In c (p_inlet P)) starts /\
    (exists w, steps (fun x => x) P (s_cell_type st) w (s_stage st) (s_H_SL st) 0
        (start_parcels starts) tr ps) /\
    forall m,
      (qx m = at_start starts m + trace_sum (fun a b => credited P (s_cell_type st) drow a b m) (start_parcels starts) tr /\
       qy m = trace_sum (fun a b => credited P (s_cell_type st) dcol a b m) (start_parcels starts) tr /\
       qw m = p_Qp_water P / p_dx P / 2 *
         (at_start starts m + trace_sum (fun a b => credits P (s_cell_type st) a b m) (start_parcels starts) tr))%R.
Proof. intros S G P st. exact (run_directions P st). Qed.
Print Assumptions C62_fields_of_an_iteration.

(** One step of one parcel from (2, 3) down and right to (3, 4): half a
    diagonal unit vector is credited to both cells. *)
Example C62_case :
  let P := exP (A:=RX) in
  let p := mkParcel 17 [17]%Z true 4 0 false in let p' := mkParcel 25 [25; 17]%Z true 8 25 false in
  credited P exct drow [p] [p'] 17 = (1 / sqrt 2)%R /\ credited P exct dcol [p] [p'] 25 = (1 / sqrt 2)%R /\
  credits P exct [p] [p'] 17 = 1%R /\ credits P exct [p] [p'] 3 = 0%R.
Proof.
  assert (H : ndist 8 = sqrt 2).
  { unfold ndist, drow, dcol. cbn -[sqrt]. f_equal. ring. }
  cbn zeta. unfold credited, credits. cbn [combine map rsum snd dir]. rewrite H. cbn -[sqrt Rdiv].
  unfold drow, dcol. cbn [Z.of_nat Pos.of_succ_nat Pos.succ]. repeat split; unfold Rdiv; try ring.
  - change (8 / 3 - 1)%Z with 1%Z. ring.
  - change (8 mod 3 - 1)%Z with 1%Z. ring.
Qed.
Example C62_hypotheses :
  water_ready (exP (A:=RX)) (exst (A:=RX) tt) /\ uniform_range half_rng.
Proof. split; [exact ex_ready|exact half_rng_range]. Qed.
