(** Corollaries in the form the property statements use. *)
From Coq Require Import ZArith List Bool Reals Lra Lia Floats.SpecFloat.
From Verif Require Import Base RLemmas Shared SharedSpec SharedProofs Params State Water
  VecLemmas WaterSpec WeightProofs WalkProofs RunProofs SurfaceProofs FlowProofs Examples.
Import ListNotations.
Local Open Scope Z_scope.

Lemma Forall2_len {T U} (Q : T -> U -> Prop) l l' : Forall2 Q l l' -> List.length l = List.length l'.
Proof. induction 1; cbn; auto. Qed.

Lemma cell_distribution (P : params R) depth stage mw ct qx qy i j :
  inb (p_L P) (p_W P) i j -> (0 <= p_gamma P <= 1)%R ->
  (forall a b, 0 <= depth a b)%R -> (forall a b, 0 <= mw a b)%R -> ct i j <> LAND ->
  exists w, water_weight_cell (A:=RX) P depth stage mw ct qx qy i j = Ok w /\
    distribution9 w /\
    (forall k, (k < 9)%nat -> at_nb (p_L P) (p_W P) ct i j k = LAND -> w k = 0%R).
Proof.
  intros Hin Hg _ _ Hct.
  destruct (water_cell_spec (fun x => x) P depth stage mw ct qx qy i j Hin Hg Hct)
    as (w & E & H1 & H2 & _).
  exists w. split; auto. split; auto. split; auto.
  eapply water_cell_sum; eauto.
Qed.

Lemma cell_robust (rnd : R -> R) (HR : Rounding rnd) (P : params R) depth stage mw ct qx qy i j :
  inb (p_L P) (p_W P) i j -> (0 <= p_gamma P <= 1)%R ->
  (forall a b, 0 <= depth a b)%R -> (forall a b, 0 <= mw a b)%R -> ct i j <> LAND ->
  exists w, water_weight_cell (A:=RA rnd) P depth stage mw ct qx qy i j = Ok w /\
    (forall k, (k < 9)%nat -> 0 <= w k)%R /\
    (forall k, (k < 9)%nat -> at_nb (p_L P) (p_W P) ct i j k = LAND -> w k = 0%R).
Proof.
  intros Hin Hg _ _ Hct.
  destruct (water_cell_spec rnd P depth stage mw ct qx qy i j Hin Hg Hct)
    as (w & E & H1 & H2 & _). eauto.
Qed.

Lemma cell_wet (rnd : R -> R) (HR : Rounding rnd) (P : params R) depth stage mw ct qx qy i j w :
  inb (p_L P) (p_W P) i j -> (0 <= p_gamma P <= 1)%R -> ct i j <> LAND ->
  water_weight_cell (A:=RA rnd) P depth stage mw ct qx qy i j = Ok w ->
  (exists k, (k < 9)%nat /\ k <> 4%nat /\ (p_dry_depth P <= at_nb (p_L P) (p_W P) depth i j k)%R
             /\ at_nb (p_L P) (p_W P) ct i j k <> LAND /\ (i = 0 -> (3 <= k)%nat)) ->
  w 4%nat = 0%R /\
  forall k, (k < 9)%nat -> (at_nb (p_L P) (p_W P) depth i j k < p_dry_depth P)%R -> w k = 0%R.
Proof.
  intros Hin Hg Hct E (k & Hk & H4 & Hd & Hl & Hr).
  destruct (water_cell_spec rnd P depth stage mw ct qx qy i j Hin Hg Hct)
    as (w' & E' & _ & _ & H3). rewrite E in E'. inversion E'; subst w'.
  assert (Hw : exists k, (k < 9)%nat /\ (p_dry_depth P <= at_nb (p_L P) (p_W P) depth i j k)%R
                  /\ at_nb (p_L P) (p_W P) ct i j k <> LAND /\ k <> 4%nat
                  /\ (i = 0 -> (3 <= k)%nat)) by (exists k; auto).
  split; [apply H3; auto; lia|]. intros k' Hk' Hd'. apply H3; auto.
Qed.

Section Step.
  Context (rnd : R -> R) {HR : Rounding rnd} {S : Type} {G : Rng R S} (P : params R) (st : state R S).
  Notation L := (p_L P).
  Notation W := (p_W P).
  Notation ct := (s_cell_type st).
  Notation weights := (get_water_weight_array (A:=RA rnd) P (s_depth st) (s_stage st)
     (s_mod_water_weight st) ct (s_qx st) (s_qy st)).

  Lemma one_step w p i j s : water_ready P st -> uniform_range G ->
    weights = Ok w -> positive_picks rnd P st w ->
    at_cell L W (cur p) i j -> ct i j <> LAND -> ct i j <> EDGE ->
    exists p' s', choose_next_directions (A:=RA rnd) P w [p] s = Ok ([p'], s') /\
      let n' := calculate_new_ind P (cur p) (dir p') in
      ((exists a b, at_cell L W n' a b /\ ct a b <> LAND /\
          Z.abs (a - i) <= 1 /\ Z.abs (b - j) <= 1 /\ (a, b) <> (i, j)) \/
       (dir p' = 4%nat /\ n' = 0 /\
          forall k, (k < 9)%nat -> k <> 4%nat -> (i = 0 -> (3 <= k)%nat) ->
            at_nb L W ct i j k = LAND \/ (at_nb L W (s_depth st) i j k < p_dry_depth P)%R) \/
       (i = 0 /\ (dir p' < 3)%nat /\ exists b, n' = - W + b /\ 0 <= b < W /\ Z.abs (b - j) <= 1)).
  Proof.
    intros Hr HG Ew HPP Hc Hl He. pose proof Hr as [WD HL0 HC Hst Hwd HNp Hg].
    destruct (weights_ready rnd P st Hr) as (w' & Ew' & Hcell & HW).
    rewrite Ew in Ew'. inversion Ew'; subst w'. clear Ew'.
    assert (Hs : Forall (standing P ct) [p]).
    { constructor; [|constructor]. right. exists i, j. auto. }
    destruct (step_spec rnd P ct WD w HW HG HPP [p] s Hs) as (ps' & s' & E & HF).
    pose proof (Forall2_len _ _ _ HF) as Hlen. unfold calculate_new_inds in Hlen.
    rewrite map_length in Hlen. destruct ps' as [|p' [|]]; try discriminate.
    exists p', s'. split; auto. unfold calculate_new_inds in HF. cbn [map] in HF.
    inversion HF as [|? ? ? ? ((Ecur & _) & Hd & Hm) _]; subst. cbn [cur dir new] in *.
    cbn zeta. rewrite Ecur in Hm. set (n' := calculate_new_ind P (cur p) (dir p')) in *.
    destruct Hm as [Hz|i' j' Hc' _ _ Hw4|i' j' k Hc' _ _ Hk Hk4 Hwk Hin Hnl|j' k Hc' _ _ Hk Hwk Hb].
    - exfalso. assert (Hx : 0 < cur p) by (apply (active_pos P ct WD); exists i, j; auto). lia.
    - destruct (at_cell_unique _ _ _ _ _ _ _ Hc Hc') as [<- <-].
      right; left. split; auto. split; auto.
      intros k Hk Hk4 Hk0. destruct (Z.eq_dec (at_nb L W ct i j k) LAND) as [|Hnl]; auto.
      right. apply Rnot_le_lt. intros Hwet.
      destruct Hc as [_ Hin].
      destruct (cell_wet rnd HR P _ _ _ _ _ _ i j (w i j) Hin Hg Hl (Hcell i j Hin)) as [H4 _].
      { exists k; auto. }
      lra.
    - destruct (at_cell_unique _ _ _ _ _ _ _ Hc Hc') as [<- <-].
      left. exists (nb_row i k), (nb_col j k). split; [split; auto|]. split; auto.
      pose proof (nb_row_bounds i k Hk) as Hrb. pose proof (nb_col_bounds j k Hk) as Hcb.
      split; [lia|]. split; [lia|]. intros Heq. inversion Heq as [[Ha Hb]].
      unfold nb_row, nb_col in Ha, Hb.
      assert (Hkz : (Z.of_nat k / 3 = 1 /\ Z.of_nat k mod 3 = 1)%Z) by lia.
      apply Hk4. pose proof (Z.div_mod (Z.of_nat k) 3). lia.
    - destruct (at_cell_unique _ _ _ _ _ _ _ Hc Hc') as [-> <-].
      right; right. split; auto. split; auto. exists (nb_col j k). split; auto. split; auto.
      pose proof (nb_col_bounds j k ltac:(lia)). lia.
  Qed.

  (** A whole iteration: it succeeds, takes at most stepmax steps, ends with all
      parcels retired or at the step limit, and its path record is wide
      enough for every step. *)
  Lemma iteration_walks : water_ready P st -> uniform_range G ->
    (forall w, weights = Ok w -> positive_picks rnd P st w) ->
    exists w starts tr ps q width s,
      weights = Ok w /\
      run_water_iteration (A:=RA rnd) P st = Ok (ps, q, width, s) /\
      Z.of_nat (List.length starts) = p_Np_water P /\
      Forall (fun c => In c (p_inlet P)) starts /\
      steps rnd P ct w (s_stage st) (s_H_SL st) 0 (start_parcels starts) tr ps /\
      Z.of_nat (List.length tr) <= p_stepmax P /\
      (Z.of_nat (List.length tr) = p_stepmax P \/ Forall (fun p => cur p = 0) ps) /\
      Z.of_nat (List.length tr) < width.
  Proof.
    intros Hr HG HPP. destruct (run_ok rnd P st Hr HG HPP)
      as (w & starts & s0 & tr & ps & q & width & s & Ew & Es & Hlen & Hin & Erun & Hch & Hst & H1 & H2 & H3).
    exists w, starts, tr, ps, q, width, s. auto 10.
  Qed.

  Lemma retired_stay w tr ps ps' stage H_SL step : water_ready P st ->
    steps rnd P ct w stage H_SL step ps tr ps' ->
    forall n p, nth_error ps n = Some p -> cur p = 0 ->
    (forall qs, In qs tr -> exists p', nth_error qs n = Some p' /\ cur p' = 0 /\ dir p' = 4%nat) /\
    exists p', nth_error ps' n = Some p' /\ cur p' = 0.
  Proof. intros [WD _ _ _ _ _ _]. eapply steps_In; eauto. Qed.
End Step.

(** A retired parcel contributes nothing to any cell. *)
Lemma retired_no_gain (P : params R) ct p p' m : dir p' = 4%nat -> gain P ct (p, p') m = 0.
Proof. intros H. unfold gain, arrived, moved. rewrite H. reflexivity. Qed.

Lemma small_stepmax {S} {G : Rng R S} (rnd : R -> R) (P : params R) w stage H_SL ct step ps q width s r :
  0 <= p_stepmax P < 4 -> width <= step ->
  water_step (A:=RA rnd) P w stage H_SL ct step (ps, q, width, s) <> Ok r.
Proof.
  intros Hs Hw E. unfold water_step in E.
  assert (Ec : check_size_of_indices_matrix P width step = width).
  { unfold check_size_of_indices_matrix. rewrite Z.div_small by lia.
    destruct (width <=? step); lia. }
  rewrite Ec in E.
  apply rbind_Ok in E as ([ps1 s1] & _ & E). apply rbind_Ok in E as (q1 & _ & E).
  apply rbind_Ok in E as (q2 & _ & E). apply rbind_Ok in E as (ps2 & _ & E).
  apply rbind_Ok in E as (pbs & _ & E).
  destruct (Z.ltb_spec step width); [lia|discriminate].
Qed.

Lemma smooth_flat (P : params R) C ct c n i j : (0 <= C <= 1)%R -> inb (p_L P) (p_W P) i j ->
  smooth_passes (A:=RX) P C ct n (fun _ _ => c) i j = c.
Proof.
  intros HC Hin. change RX with (RA (fun x => x)).
  assert (H : (c <= smooth_passes (A:=RA (fun x => x)) P C ct n (fun _ _ => c) i j <= c)%R).
  { apply smooth_bounds; auto. intros; lra. }
  lra.
Qed.

(** ** Witnesses in binary64 *)

Definition ex_gamma2 : params sfloat := setp_gamma (fz 2) (exP (A:=F64)).

Definition ex_with (P : params sfloat) (L0 stepmax : Z) : params sfloat :=
  setp_L0 L0 (setp_stepmax stepmax P).

(** Four draws of 1/2 (start columns), then 1/200 for ever. *)
Definition low_rng : Rng sfloat Z :=
  {| draw := fun s => (SFdiv sf_prec sf_emax (sf_of_Z 1) (sf_of_Z (if s <? 4 then 2 else 200)), s + 1);
     seed_rng := fun z => z |}.

(** Stage higher at (0, 3) than at (0, 2). *)
Definition ex_tilt : state sfloat Z :=
  set_stage (fun i j => if (i =? 0) && (j =? 3) then sf_of_Z 1 else sf_of_Z 0) (exst (A:=F64) 0).

(** ** Statements for Props_Water *)

Lemma one_step_inside (rnd : R -> R) (HR : Rounding rnd) (S : Type) (G : Rng R S)
    (P : params R) (st : state R S) w (p : parcel) i j s :
    let L := p_L P in let W := p_W P in let ct := s_cell_type st in
    water_ready P st -> uniform_range G ->
    get_water_weight_array (A:=RA rnd) P (s_depth st) (s_stage st)
      (s_mod_water_weight st) ct (s_qx st) (s_qy st) = Ok w ->
    positive_picks rnd P st w ->
    at_cell L W (cur p) i j -> ct i j <> LAND -> ct i j <> EDGE ->
    exists p' s', choose_next_directions (A:=RA rnd) P w [p] s = Ok ([p'], s') /\
      let n' := calculate_new_ind P (cur p) (dir p') in
      ((exists a b, at_cell L W n' a b /\ ct a b <> LAND /\
          (Z.abs (a - i) <= 1 /\ Z.abs (b - j) <= 1)%Z /\ (a, b) <> (i, j)) \/
       (dir p' = 4%nat /\ n' = 0%Z /\
          forall k, (k < 9)%nat -> k <> 4%nat -> (i = 0%Z -> (3 <= k)%nat) ->
            at_nb L W ct i j k = LAND \/ (at_nb L W (s_depth st) i j k < p_dry_depth P)%R) \/
       (i = 0%Z /\ (dir p' < 3)%nat /\
          exists b, (n' = - W + b /\ 0 <= b < W /\ Z.abs (b - j) <= 1)%Z)).
Proof.
  intros L W ct H1 H2 H3 H4 H5 H6 H7.
  destruct (one_step rnd P st w p i j s H1 H2 H3 H4 H5 H6 H7) as (p' & s' & E & H).
  exists p', s'. split; auto. cbn zeta in *.
  destruct H as [(a & b & Ha & Hb & Hc & Hd & He)|[H|H]]; [left|right; left|right; right]; auto.
  exists a, b. auto.
Qed.

Lemma paths_inside (rnd : R -> R) (HR : Rounding rnd) (P : params R) ct w stage H_SL step ps tr ps' :
    steps rnd P ct w stage H_SL step ps tr ps' ->
    Forall2 (fun p p' => exists l, walk p' = l ++ walk p /\
       Forall (fun n => n = 0%Z \/ (exists i j, at_cell (p_L P) (p_W P) n i j /\ ct i j <> LAND)
                 \/ (- p_W P <= n < 0)%Z) l) ps ps'.
Proof.
  intros H. eapply Forall2_imp; [|exact (steps_walk rnd P ct w stage H_SL step ps tr ps' H)].
  intros p p' (_ & l & E & HF). exists l. split; auto.
Qed.

Lemma record_grows (P : params R) width step : (4 <= p_stepmax P)%Z -> (step <= width)%Z ->
    (step < check_size_of_indices_matrix P width step)%Z /\
    (width <= check_size_of_indices_matrix P width step)%Z.
Proof.
  intros Hs H. unfold check_size_of_indices_matrix.
  assert (1 <= p_stepmax P / 4) by (apply Z.div_le_lower_bound; lia).
  destruct (Z.leb_spec width step); lia.
Qed.

Lemma speed_bounds (rnd : R -> R) (HR : Rounding rnd) (S : Type) (G : Rng R S) (P : params R)
    (st st' : state R S) : (0 <= p_u_max P)%R -> (0 <= p_dry_depth P)%R -> (1 <= p_itermax P)%Z ->
    route_water (A:=RA rnd) P st = Ok st' ->
    forall i j, (0 <= s_uw st' i j <= p_u_max P)%R /\
      ((s_depth st' i j <= p_dry_depth P)%R ->
        s_uw st' i j = 0%R /\ s_ux st' i j = 0%R /\ s_uy st' i j = 0%R).
Proof. intros Hu Hd Hi E. apply (route_water_post rnd P st st' Hu Hd Hi E). Qed.

Lemma flow_relaxation (S : Type) (P : params R) it (st : state R S) i j :
    let st' := update_flow_field (A:=RX) P it st in
    let omega := if (it =? 0)%Z then p_omega_flow P else p_omega_flow_iter P in
    (i = 0%Z /\ In j (p_inlet P) ->
       s_qx st' i j = p_qw0 P /\ s_qy st' i j = 0%R /\ s_qw st' i j = p_qw0 P) /\
    (~ (i = 0%Z /\ In j (p_inlet P)) -> (0 <= s_qwn st i j)%R ->
     exists nx ny,
       (exists c, 0 <= c /\ nx = c * s_qxn st i j /\ ny = c * s_qyn st i j)%R /\
       ((s_qxn st i j, s_qyn st i j) <> (0, 0)%R -> nx * nx + ny * ny = s_qwn st i j * s_qwn st i j)%R /\
       (s_qw st' i j = sqrt (s_qx st' i j * s_qx st' i j + s_qy st' i j * s_qy st' i j))%R /\
       ((0 < s_time_iter st)%Z ->
          s_qx st' i j = omega * nx + (1 - omega) * s_qx st i j /\
          s_qy st' i j = omega * ny + (1 - omega) * s_qy st i j)%R /\
       ((s_time_iter st <= 0)%Z -> s_qx st' i j = nx /\ s_qy st' i j = ny)).
Proof.
  intros st' omega. destruct (flow_update P it st i j) as [H1 H2].
  split; [exact H1|]. intros Hn Hq. specialize (H2 Hn).
  pose proof (qn_scaled_spec (s_qxn st i j) (s_qyn st i j) (s_qwn st i j) Hq) as H3.
  destruct (qn_scaled _ _ _) as [nx ny]. destruct H3 as (H3 & H4 & _). destruct H2 as (H5 & H6 & H7).
  exists nx, ny. repeat split; auto; try (apply H6; auto); try (apply H7; auto).
Qed.
