(** Properties C15 (flooding as a formula), C64 (a turn of water routing as
    written rules), C65 (a time step as written rules), C66 (the use of random
    variates). *)
From Coq Require Import ZArith List Bool Reals Lra Lia.
From Verif Require Import Base RLemmas Shared SharedSpec Params State Water Sed VecLemmas WaterSpec WeightSpec
  SurfaceSpec ChanceSpec ChanceProofs SedSpec SedRules SedRulesProofs Iter IterSpec StepSpec StepProofs
  Examples Props_Water Props_Sed Props_Iter.
Import ListNotations.
Local Open Scope Z_scope.

(** ** C15 *)
Theorem C15_flooding_formula : forall (P : params R) depth eta stage i j,
  2 <= p_L P -> 2 <= p_W P -> inb (p_L P) (p_W P) i j ->
  flooding_correction (A:=RX) P depth eta stage i j = flooded P depth eta stage i j.
Proof. exact flooding_formula. Qed.
Print Assumptions C15_flooding_formula.
(** A dry cell at bed level 1 with wet neighbours at levels 2 (below) and 3
    (right) takes 3; at bed level 4 it keeps its own level. *)
Example C15_flooding_formula_example :
  let depth i j := if (i =? 2) && (j =? 2) then 0%R else 1%R in
  let stage i j := if (i =? 2) && (j =? 2) then 1%R else if (i =? 2) && (j =? 3) then 3%R else 2%R in
  flooded (exP (A:=RX)) depth (fun _ _ => 1%R) stage 2 2 = 3%R /\
  flooded (exP (A:=RX)) depth (fun _ _ => 4%R) stage 2 2 = 1%R.
Proof.
  cbv zeta.
  assert (W : forall a b, 0 <= a < 6 -> 0 <= b < 7 ->
    is_wet (exP (A:=RX)) (fun i j => if (i =? 2) && (j =? 2) then 0%R else 1%R) a b = negb ((a =? 2) && (b =? 2))).
  { intros a b Ha Hb. unfold is_wet. change (p_L (exP (A:=RX))) with 6. change (p_W (exP (A:=RX))) with 7. rewrite (proj2 (inbb_spec 6 7 a b)) by (split; lia). cbn [andb].
    change (p_dry_depth (exP (A:=RX))) with (1 / 10)%R.
    destruct ((a =? 2) && (b =? 2)); cbn [negb]; destruct (Rlt_dec _ _); auto; exfalso; lra. }
  unfold flooded. rewrite W by lia. cbn [negb Z.eqb Pos.eqb andb existsb orb].
  unfold wet_at, nb_row, nb_col. rewrite !W by (cbn; lia). cbn [negb Z.eqb Pos.eqb andb existsb orb Z.of_nat Z.div Z.modulo Z.div_eucl].
  assert (E : highest (exP (A:=RX)) (fun i j => if (i =? 2) && (j =? 2) then 0%R else 1%R)
     (fun i j => if (i =? 2) && (j =? 2) then 1%R else if (i =? 2) && (j =? 3) then 3%R else 2%R) 2 2 = 3%R).
  { unfold highest, offered, wet_at, nb_row, nb_col. rewrite !W by (cbn; lia). cbn -[Rmax IZR].
    unfold Rmax. repeat destruct (Rle_dec _ _); lra. }
  rewrite E. cbn -[Rlt_dec IZR]. split; destruct (Rlt_dec _ _); auto; exfalso; lra.
Qed.

(** ** C64 *)
Theorem C64_turn_by_the_rules :
  forall (S : Type) (G : Rng R S) (P : params R), uniform_range G -> (forall s, 0 < fst (draw s))%R ->
  forall it (st : state R S), water_ready P st -> (0 <= p_dry_depth P)%R ->
    exists st', water_iteration (A:=RX) P it st = Ok st' /\ water_turn P it st st'.
Proof. exact @turn_rules. Qed.
Print Assumptions C64_turn_by_the_rules.

(** All turns of a step. *)
Theorem C64_turns_by_the_rules :
  forall (S : Type) (G : Rng R S) (P : params R), uniform_range G -> (forall s, 0 < fst (draw s))%R ->
  (0 <= p_dry_depth P)%R -> forall st : state R S, water_ready P st ->
    exists st', route_water (A:=RX) P st = Ok st' /\ water_turns P (Z.to_nat (p_itermax P)) 0 st st'.
Proof.
  intros S G P HG Hu Hd st Hr.
  destruct (turns_rules P HG Hu Hd (Z.to_nat (p_itermax P)) 0 st Hr) as (st' & E & T & _). exists st'. auto.
Qed.
Print Assumptions C64_turns_by_the_rules.

Example C64_hypotheses :
  uniform_range half_rng /\ (forall s, 0 < fst (draw (Rng:=half_rng) s))%R /\
  water_ready (exP (A:=RX)) (exst (A:=RX) tt) /\ (0 <= p_dry_depth (exP (A:=RX)))%R /\
  Z.to_nat (p_itermax (exP (A:=RX))) = 2%nat /\ p_Np_water (exP (A:=RX)) = 4.
Proof.
  split; [exact half_rng_range|]. split; [exact half_rng_pos|]. split; [exact ex_ready|].
  split; [cbn; lra|]. split; reflexivity.
Qed.

(** ** C65 *)
Theorem C65_time_step_by_the_rules :
  forall (S : Type) (G : Rng R S) (P : params R), uniform_range G -> (forall s, 0 < fst (draw s))%R ->
  (0 <= p_dry_depth P)%R -> forall (st st' : state R S) o, model_ready P st ->
    0 <= p_Np_sed P -> (0 <= p_f_bedload P <= 1)%R -> (0 <= p_active_layer_thickness P)%R ->
    update (A:=RX) P st = Ok (st', o) -> time_step P st st'.
Proof. exact @step_rules. Qed.
Print Assumptions C65_time_step_by_the_rules.
Example C65_example : exists st' o,
  update (A:=RX) (G:=half_rng) (exP (A:=RX)) (exst (A:=RX) tt) = Ok (st', o) /\
  time_step (G:=half_rng) (exP (A:=RX)) (exst (A:=RX) tt) st'.
Proof.
  destruct (ex_updates 1) as (st' & o & E). cbn [updates] in E.
  destruct (update (A:=RX) (G:=half_rng) (exP (A:=RX)) (exst (A:=RX) tt)) as [[st1 o1]|] eqn:Eu; [|discriminate].
  exists st1, o1. split; auto.
  exact (C65_time_step_by_the_rules unit half_rng (exP (A:=RX)) half_rng_range half_rng_pos ltac:(cbn; lra)
    _ _ _ ex_model_ready ltac:(cbn; lia) ltac:(cbn; lra) ltac:(cbn; lra) Eu).
Qed.

(** ** C66 *)
(** A variate strictly between 0 and 1 selects exactly one alternative, one of
    positive weight. *)
Theorem C66_one_choice_per_variate :
  forall n (v : nat -> R) u, (forall a, (a < n)%nat -> 0 <= v a)%R -> (0 < upto v n)%R -> (0 < u < 1)%R ->
    exists k, chosen n v u k /\ (0 < v k)%R /\ forall k', chosen n v u k' -> k' = k.
Proof.
  intros n v u Hv Hs Hu. destruct (chosen_exists n v u Hv Hs Hu) as (k & Hk). exists k.
  split; auto. split; [eapply chosen_positive; eauto|]. intros k' Hk'. eapply chosen_unique; eauto.
Qed.
Print Assumptions C66_one_choice_per_variate.
(** Weights 1, 0, 3: variate 1/4 selects the first, 1/2 the third. *)
Example C66_choice_example :
  let v k := match k with O => 1%R | 1%nat => 0%R | _ => 3%R end in
  chosen 3 v (1 / 4)%R 0 /\ chosen 3 v (1 / 2)%R 2.
Proof. cbv zeta. unfold chosen, upto. cbn. split; (split; [lia|lra]). Qed.

(** A turn of water routing draws one variate for each parcel's entry column,
    in order, and then, step by step, one for each parcel under way, in order;
    nothing else touches the stream. *)
Theorem C66_water_variates :
  forall (S : Type) (G : Rng R S) (P : params R), uniform_range G -> (forall s, 0 < fst (draw s))%R ->
  forall it (st st' : state R S), water_ready P st -> (0 <= p_dry_depth P)%R ->
    water_iteration (A:=RX) P it st = Ok st' ->
    exists w starts s tr ps, by_rule P st w /\ Z.of_nat (List.length starts) = p_Np_water P /\
      entries (p_inlet P) starts (s_rng st) s /\
      routes P st w 0 (start_parcels starts) s tr ps (s_rng st') /\
      s_rng st' = after (List.length starts + choices (start_parcels starts) tr) (s_rng st).
Proof.
  intros S G P HG Hu it st st' Hr Hd E.
  destruct (turn_rules P HG Hu it st Hr Hd) as (st1 & E1 & T). change RX with (RA (fun x => x)) in E.
  rewrite E in E1. injection E1 as <-.
  destruct (wt_levels _ _ _ _ T) as (w & starts & s & tr & ps & _ & _ & _ & _ & _ & H1 & H2 & H3 & H4 & _).
  exists w, starts, s, tr, ps. split; auto. split; auto. split; auto. split; auto.
  rewrite (routes_count P st _ _ _ _ _ _ _ H4). destruct (entries_count _ _ _ _ H3) as [-> _]. apply after_add.
Qed.
Print Assumptions C66_water_variates.

(** A grain: one variate for each entry column, then one for each move. *)
Theorem C66_sediment_variates :
  forall (S : Type) (G : Rng R S) (P : params R) (g : grain) (st : state R S),
    sed_ready P st -> divisors_ok (fun x => x) P -> uniform_range G -> (forall s, 0 < fst (draw s))%R ->
    forall st' Vs, 0 <= p_Np_sed P -> (0 <= p_f_bedload P <= 1)%R ->
    route_all_parcels_res (A:=RX) P g st = Ok (st', Vs) ->
    exists starts hs b b' s, entries (p_inlet P) starts (s_rng st) s /\
      journeys P g st starts b s hs b' Vs (s_rng st') /\
      s_rng st' = after (List.length starts + List.length (concat hs)) (s_rng st).
Proof.
  intros S G P g st HS HD HG Hu st' Vs HN Hf E.
  destruct (routers_follow_rules P g st HS HD HG Hu st' Vs HN Hf E) as (starts & hs & b & b' & s & _ & H2 & H3 & _).
  exists starts, hs, b, b', s. split; auto. split; auto.
  rewrite (journeys_count P _ _ _ _ _ _ _ _ _ H3). destruct (entries_count _ _ _ _ H2) as [-> _]. apply after_add.
Qed.
Print Assumptions C66_sediment_variates.
(** The conditions hold for the example (C64_hypotheses, C63_hypotheses); the
    generator there always gives 1/2: two entries in the middle column. *)
Example C66_entries_example : entries (G:=half_rng) [2; 3; 4] [3; 3] tt tt.
Proof.
  assert (C : chosen (List.length [2; 3; 4]) (fun _ => 1%R) (fst (draw (Rng:=half_rng) tt)) 1).
  { unfold chosen, upto. cbn. split; [lia|lra]. }
  eapply entries_cons; [exact C|reflexivity|]. eapply entries_cons; [exact C|reflexivity|]. apply entries_nil.
Qed.
