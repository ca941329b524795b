(** Properties C01-C05 (shared tools). *)
From Coq Require Import ZArith List Bool Reals Lra Lia String.
From Verif Require Import Base RLemmas RoundingFlocq Shared SharedSpec SharedProofs.
Import ListNotations.

(** ** C01 *)
Theorem C01_pad_is_nearest :
  forall (T : Type) (d : T) (L W : Z) (arr : grid T),
    (1 <= L)%Z -> (1 <= W)%Z ->
    forall a b, (0 <= a < L + 2)%Z -> (0 <= b < W + 2)%Z ->
    custom_pad d L W arr a b = nearest L W arr (a - 1) (b - 1).
Proof. exact @custom_pad_edge. Qed.
Print Assumptions C01_pad_is_nearest.

Theorem C01_window_defined :
  forall (T : Type) (d : T) (L W : Z) (arr : grid T) i j k,
    inb L W i j -> (k < 9)%nat ->
    window (custom_pad d L W arr) i j k
    = nearest L W arr (i + (Z.of_nat k / 3) - 1) (j + (Z.of_nat k mod 3) - 1).
Proof. exact @pad_window. Qed.
Print Assumptions C01_window_defined.

Theorem C01_window_centre :
  forall (T : Type) (d : T) (L W : Z) (arr : grid T) i j,
    inb L W i j -> window (custom_pad d L W arr) i j 4%nat = arr i j.
Proof. exact @pad_window_centre. Qed.
Print Assumptions C01_window_centre.

(** A 2 x 3 field: corner, edge and centre of the padded 4 x 5 field. *)
Example C01_example :
  let arr := fun i j => (10 * i + j)%Z in
  let p := custom_pad 0%Z 2 3 arr in
  (p 0 0, p 3 4, p 2 0, p 1 2, p 0 3)%Z = (0, 12, 10, 1, 2)%Z.
Proof. reflexivity. Qed.

(** ** C02 *)
Theorem C02_round_trip :
  forall L W i j, inb L W i j ->
    (do n <- custom_ravel (i, j) (L, W); custom_unravel n (L, W)) = Ok (i, j).
Proof. exact ravel_unravel. Qed.
Print Assumptions C02_round_trip.

Theorem C02_round_trip_back :
  forall L W n, (0 <= n < L * W)%Z -> (1 <= W)%Z ->
    (do c <- custom_unravel n (L, W); custom_ravel c (L, W)) = Ok n.
Proof. exact unravel_ravel. Qed.
Print Assumptions C02_round_trip_back.

Theorem C02_injective :
  forall L W i j i' j' n, inb L W i j -> inb L W i' j' ->
    custom_ravel (i, j) (L, W) = Ok n -> custom_ravel (i', j') (L, W) = Ok n ->
    i = i' /\ j = j'.
Proof. exact ravel_inj. Qed.
Print Assumptions C02_injective.

Theorem C02_unravel_rejects_beyond :
  forall L W n, (L * W < n)%Z -> custom_unravel n (L, W) = Err IndexError.
Proof. exact unravel_reject. Qed.
Print Assumptions C02_unravel_rejects_beyond.

Theorem C02_ravel_rejects_beyond :
  forall L W i j, (L < i \/ W < j)%Z -> custom_ravel (i, j) (L, W) = Err IndexError.
Proof. exact ravel_reject. Qed.
Print Assumptions C02_ravel_rejects_beyond.

(** The bounds check is off by one: one past the end is accepted. *)
Theorem C02_end_index_accepted_refuted :
  forall L W, (1 <= L)%Z -> (1 <= W)%Z ->
    custom_unravel (L * W) (L, W) = Ok (L, 0%Z) /\ ~ inb L W L 0.
Proof. exact unravel_accepts_end. Qed.
Print Assumptions C02_end_index_accepted_refuted.

Theorem C02_end_pair_accepted_refuted :
  forall L W, (1 <= L)%Z -> (1 <= W)%Z ->
    custom_ravel (L, W) (L, W) = Ok (L * W + W)%Z /\ ~ inb L W L W.
Proof. exact ravel_accepts_end. Qed.
Print Assumptions C02_end_pair_accepted_refuted.

(** Stepping in flat index space is stepping in the grid. *)
Theorem C02_flat_walk :
  forall L W i j k, inb L W i j -> (k < 9)%nat ->
    inb L W (i + jwalk_flat k) (j + iwalk_flat k) ->
    custom_ravel (i + jwalk_flat k, j + iwalk_flat k)%Z (L, W)
    = Ok (i * W + j + ravel_walk_flat W k)%Z.
Proof. exact ravel_walk_step. Qed.
Print Assumptions C02_flat_walk.

Example C02_example :
  custom_ravel (25, 124)%Z (100, 200)%Z = Ok 5124%Z /\
  custom_unravel 5124 (100, 200)%Z = Ok (25, 124)%Z /\
  custom_unravel 20000 (100, 200)%Z = Ok (100, 0)%Z /\
  custom_unravel 20001 (100, 200)%Z = Err IndexError.
Proof. repeat split. Qed.

(** ** C03 *)
Local Open Scope R_scope.

Theorem C03_pick_in_range :
  forall (rnd : R -> R) {HR : Rounding rnd} {S : Type} {G : Rng R S} l s,
    uniform_range G -> l <> [] -> Forall (fun x => 0 <= x) l ->
    exists k s', random_pick (A:=RA rnd) l s = Ok (k, s') /\ (k < List.length l)%nat
      /\ s' = snd (draw s).
Proof. exact @random_pick_ok. Qed.
Print Assumptions C03_pick_in_range.

Theorem C03_pick_positive_weight :
  forall (rnd : R -> R) {HR : Rounding rnd} {S : Type} {G : Rng R S} l s,
    uniform_range G -> Forall (fun x => 0 <= x) l ->
    0 < rnd (last (cumsum (A:=RA rnd) l) 0 * fst (draw s)) ->
    exists k s' w, random_pick (A:=RA rnd) l s = Ok (k, s')
      /\ nth_error l k = Some w /\ 0 < w.
Proof. exact @random_pick_pos. Qed.
Print Assumptions C03_pick_positive_weight.

Theorem C03_pick_positive_weight_exact :
  forall {S : Type} {G : Rng R S} l s,
    uniform_range G -> 0 < fst (draw s) -> Forall (fun x => 0 <= x) l -> 0 < rsum l ->
    exists k s' w, random_pick (A:=RX) l s = Ok (k, s')
      /\ nth_error l k = Some w /\ 0 < w.
Proof. exact @random_pick_pos_exact. Qed.
Print Assumptions C03_pick_positive_weight_exact.

Theorem C03_pick_interval :
  forall {S : Type} {G : Rng R S} l s k,
    0 < fst (draw s) < 1 -> Forall (fun x => 0 <= x) l -> 0 < rsum l ->
    (k < List.length l)%nat ->
    (random_pick (A:=RX) l s = Ok (k, snd (draw s)) <->
     rsum (firstn k l) < rsum l * fst (draw s) <= rsum (firstn (Datatypes.S k) l)).
Proof. exact @random_pick_exact. Qed.
Print Assumptions C03_pick_interval.

(** A draw of exactly zero returns the first index whatever its weight. *)
Theorem C03_zero_draw_refuted :
  forall {S : Type} {G : Rng R S} x l s, fst (draw s) = 0 -> 0 <= x ->
    random_pick (A:=RX) (x :: l) s = Ok (O, snd (draw s)).
Proof. exact @random_pick_zero_draw. Qed.
Print Assumptions C03_zero_draw_refuted.

(** A generator whose state is the remaining stream of draws. *)
#[local] Instance ListRng : Rng R (list R) :=
  {| draw := fun s => match s with [] => (1/2, []) | u :: s' => (u, s') end;
     seed_rng := fun _ => [] |}.

(** Weights [0; 3; 0; 1] and draw 0.8: the zero-weight entry 2 is skipped and
    entry 3 is chosen. *)
Example C03_example :
  random_pick (A:=RX) [0; 3; 0; 1] [8/10] = Ok (3%nat, []).
Proof.
  change (@nil R) with (snd (draw (Rng:=ListRng) [8/10])) at 2.
  refine (proj2 (C03_pick_interval (G:=ListRng) [0; 3; 0; 1] [8/10] 3 _ _ _ _) _);
    cbn; try lra; try lia.
  repeat constructor; lra.
Qed.

(** The hypotheses of the range theorem hold for a real generator under
    binary64 rounding. *)
Example C03_hypotheses :
  Rounding (rne 53 (-1074)) /\
  uniform_range {| draw := fun s : unit => (1/3, s); seed_rng := fun _ => tt |}.
Proof. split; [exact binary64_Rounding|]. intros s; cbn; lra. Qed.

(** ** C04 *)
Theorem C04_starts_in_inlet :
  forall (rnd : R -> R) {HR : Rounding rnd} {S : Type} {G : Rng R S} inlet w n s,
    uniform_range G -> Forall (fun x => 0 <= x) w ->
    List.length w = List.length inlet -> inlet <> [] -> (0 <= n)%Z ->
    exists l s', get_start_indices (A:=RA rnd) inlet w n s = Ok (l, s')
      /\ Z.of_nat (List.length l) = n /\ Forall (fun c => In c inlet) l.
Proof. exact @get_start_indices_ok. Qed.
Print Assumptions C04_starts_in_inlet.

(** Three parcels on the inlet [2; 3; 4], generator always 1/2: all at the middle. *)
Example C04_example :
  get_start_indices (A:=F64) (G:={| draw := fun s : unit => (flit 1 2, s); seed_rng := fun _ => tt |})
    [2; 3; 4]%Z [sf_of_Z 1; sf_of_Z 1; sf_of_Z 1] 3 tt = Ok ([3; 3; 3]%Z, tt).
Proof. vm_compute. reflexivity. Qed.

(** ** C05 *)
Theorem C05_accepts_exactly :
  forall t If u,
    (exists r, scale_model_time (A:=RX) t If u = Ok r) <->
    (0 < If <= 1 /\ exists x, unit_seconds u = Some x).
Proof. exact scale_model_time_spec. Qed.
Print Assumptions C05_accepts_exactly.

Theorem C05_rejects_with_ValueError :
  forall t If u, ~ (0 < If <= 1 /\ exists x, unit_seconds u = Some x) ->
    scale_model_time (A:=RX) t If u = Err ValueError.
Proof. exact scale_model_time_err. Qed.
Print Assumptions C05_rejects_with_ValueError.

Theorem C05_increasing :
  forall t t' If u r r', t < t' ->
    scale_model_time (A:=RX) t If u = Ok r -> scale_model_time (A:=RX) t' If u = Ok r' ->
    r < r'.
Proof. exact scale_model_time_increasing. Qed.
Print Assumptions C05_increasing.

Theorem C05_never_shortens :
  forall t If u r x, 0 <= t -> unit_seconds u = Some x ->
    scale_model_time (A:=RX) t If u = Ok r -> t <= r * x.
Proof. exact scale_model_time_never_shortens. Qed.
Print Assumptions C05_never_shortens.

Theorem C05_units_consistent :
  forall t If rs rd ry,
    scale_model_time (A:=RX) t If "seconds" = Ok rs ->
    scale_model_time (A:=RX) t If "days" = Ok rd ->
    scale_model_time (A:=RX) t If "years" = Ok ry ->
    rs = 86400 * rd /\ rd = 365.25 * ry.
Proof. exact scale_model_time_units. Qed.
Print Assumptions C05_units_consistent.

(** Sea level raised at the converted rate during the model time that
    represents one year (If years) rises by mmyr millimetres. *)
Theorem C05_slr_rate :
  forall mmyr If, 0 < If ->
    exists r, scale_relative_sea_level_rise_rate (A:=RX) mmyr If = Ok r
      /\ r * (If * (86400 * 365.25)) = mmyr / 1000.
Proof. exact slr_scale_total. Qed.
Print Assumptions C05_slr_rate.

Example C05_example :
  scale_model_time (A:=RX) (86400 * 5) (1/10) "days" = Ok 50.
Proof.
  rewrite (scale_model_time_val _ _ _ 86400) by (cbn; auto; lra). f_equal. lra.
Qed.
