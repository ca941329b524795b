(** Property C75: sediment changes the bed where it goes, and diffusion
    averages without overshooting. *)
From Coq Require Import ZArith List Bool Reals Lra Lia SpecFloat.
From Verif Require Import Base RLemmas Shared SharedSpec Params State Water Sed VecLemmas WaterSpec WeightSpec SedSpec
  SedRules SedRulesProofs Iter IterSpec StepSpec StepProofs LocalSpec LocalProofs Examples Props_Sed Props_Iter Props_Step.
Import ListNotations.
Local Open Scope Z_scope.

(** C75. The sediment of a completed update is carried by the rules of C63
    between the water turns and the end of the step (C65).  A cell that no sand came near and no mud reached
    keeps its bed but for subsidence, its active layer, and, without
    subsidence, its sand fraction; the bed of inlet cells is set otherwise. *)
Theorem C75_bed_changes_where_sediment_goes :
  forall (S : Type) (G : Rng R S) (P : params R), uniform_range G -> (forall s, 0 < fst (draw s))%R ->
  (0 <= p_dry_depth P)%R -> forall (st st' : state R S) o, model_ready P st ->
  0 <= p_Np_sed P -> (0 <= p_f_bedload P <= 1)%R -> (0 <= p_active_layer_thickness P)%R ->
  update (A:=RX) P st = Ok (st', o) ->
  exists sw s0 s1 s2 sd sand_in mud_in sand mud,
    water_turns P (Z.to_nat (p_itermax P)) 0 (set_eta0 (s_eta st) st) sw /\ cleared sw s0 /\
    carried_by P Sand s0 s1 sand_in sand /\ smeared P s1 s2 /\ carried_by P Mud s2 sd mud_in mud /\
    s_rng st' = s_rng sd /\
    forall i j, inb (p_L P) (p_W P) i j -> undisturbed sand_in sand mud i j ->
      (~ inlet_cell P i j -> subsided P st (subsides P st) i j (s_eta st' i j)) /\
      s_active_layer st' i j = s_active_layer st i j /\
      (~ inlet_cell P i j -> ~ subsides P st -> s_sand_frac st' i j = s_sand_frac st i j).
Proof.
  intros S G P H1 H2 H3 st st' o H4 H5 H6 H7 E. apply undisturbed_step.
  exact (C65_time_step_by_the_rules S G P H1 H2 H3 st st' o H4 H5 H6 H7 E).
Qed.
Print Assumptions C75_bed_changes_where_sediment_goes.
(** The update of the example, with two parcels of either grain, meets the
    hypotheses; a cell with nobody around is undisturbed. *)
Example C75_hypotheses : exists st' o,
  update (A:=RX) (G:=half_rng) (exP (A:=RX)) (exst (A:=RX) tt) = Ok (st', o) /\
  time_step (G:=half_rng) (exP (A:=RX)) (exst (A:=RX) tt) st'.
Proof. exact C65_example. Qed.
Example C75_undisturbed : forall e, ev_i0 e = 0 -> ev_j0 e = 3 -> ev_i e = 1 -> ev_j e = 3 ->
  undisturbed [3] [[e]] [[e]] 4 3 /\ ~ undisturbed [3] [[e]] [[e]] 2 3 /\ ~ undisturbed [] [] [[e]] 1 3 /\
  undisturbed [] [] [[e]] 2 3.
Proof.
  intros e E1 E2 E3 E4. unfold undisturbed, passed, reached. cbn [concat app].
  assert (X : forall Q : event -> Prop, Exists Q [e] <-> Q e).
  { intros Q. split; [intros H; inversion H as [? ? K|? ? K]; [exact K|inversion K]|intros; constructor; auto]. }
  split; [|split; [|split]].
  - split; [intros a b Hn K|intros K; apply (proj1 (X _)) in K; cbn beta in K; lia]. unfold near in Hn. rewrite !X in K. cbn [In] in K. lia.
  - intros [K _]. apply (K 1 3); [unfold near; lia|]. right. right. apply X. auto.
  - intros [_ K]. apply K. apply X. auto.
  - split; [intros a b _ [[_ []]|[K|K]]; inversion K|intros K; apply (proj1 (X _)) in K; cbn beta in K; lia].
Qed.

(** C75. One diffusion pass, with fluxes that are not negative and leave the
    cell a weight of its own: the new bed of a cell away from the border lies
    within the range of the beds of the cell and its neighbours. *)
Theorem C75_diffusion_averages_neighbours :
  forall (S : Type) (P : params R) (st : state R S) (i j : Z) (lo hi : R),
  (0 <= p_diffusion_multiplier P)%R -> (forall a b, inb (p_L P) (p_W P) a b -> 0 <= s_qs st a b)%R ->
  inner P i j -> gentle P st i j ->
  (forall a b, near i j a b -> lo <= s_eta st a b <= hi)%R ->
  (lo <= s_eta (diffuse_once (A:=RX) P st) i j <= hi)%R.
Proof.
  intros S P st i j lo hi Hm Hq Hi Hg Hn.
  apply (pass_between P st (s_eta st) _ i j lo hi Hm Hq); auto.
  - destruct Hi. unfold inb. lia.
  - apply once_pass.
Qed.
Print Assumptions C75_diffusion_averages_neighbours.

(** C75. All passes of a step: a bed within a range that contains the zero
    level stays within it. *)
Theorem C75_diffusion_stays_in_range :
  forall (S : Type) (P : params R) (st : state R S) (lo hi : R),
  (0 <= p_diffusion_multiplier P)%R -> (forall a b, inb (p_L P) (p_W P) a b -> 0 <= s_qs st a b)%R ->
  (forall a b, diffusible P st a b -> gentle P st a b) -> (lo <= 0 <= hi)%R ->
  (forall a b, inb (p_L P) (p_W P) a b -> lo <= s_eta st a b <= hi)%R ->
  forall i j, inb (p_L P) (p_W P) i j -> (lo <= s_eta (topo_diffusion (A:=RX) P st) i j <= hi)%R.
Proof.
  intros S P st lo hi Hm Hq Hg H0 Hb. destruct (smeared_ok P st) as (_ & _ & _ & _ & _ & _ & _ & _ & _ & H).
  exact (passes_between P st _ _ _ lo hi Hm Hq Hg H0 H Hb).
Qed.
Print Assumptions C75_diffusion_stays_in_range.

(** C75. A level bed is left level by a pass except at the border of the grid,
    where the zero level beyond it counts as a neighbour. *)
Theorem C75_level_bed_drifts_at_border_refuted :
  forall (S : Type) (P : params R) (st : state R S) (h : R) (i j : Z),
  (forall a b, near i j a b -> inb (p_L P) (p_W P) a b -> s_eta st a b = h) -> diffusible P st i j ->
  (s_eta (diffuse_once (A:=RX) P st) i j
    = h - p_diffusion_multiplier P * s_qs st i j * h * IZR (outside_count P i j))%R /\
  (inner P i j -> s_eta (diffuse_once (A:=RX) P st) i j = h).
Proof.
  intros S P st h i j Hh D.
  assert (E := flat_pass P st (s_eta st) _ h i j Hh D (once_pass P st)).
  split; [exact E|]. intros [Hi Hj]. change RX with (RA (fun x => x)). rewrite E.
  replace (outside_count P i j) with 0%Z; [lra|]. symmetry. unfold outside_count.
  assert (K : forall l, (forall k, In k l -> (k < 9)%nat) ->
    filter (fun k => negb (Nat.eqb k 4) && negb (inbb (p_L P) (p_W P) (nb_row i k) (nb_col j k)))%bool l = []).
  { induction l as [|k l IH]; intros Hl; [reflexivity|]. cbn [filter].
    assert (inbb (p_L P) (p_W P) (nb_row i k) (nb_col j k) = true) as ->.
    { apply inbb_spec. destruct (nb_near i j k (Hl k (or_introl eq_refl))). unfold inb. lia. }
    rewrite andb_false_r. apply IH. intros x Hx. apply Hl. right. exact Hx. }
  rewrite K; [reflexivity|]. intros k Hk. unfold D9 in Hk. apply in_seq in Hk. lia.
Qed.
Print Assumptions C75_level_bed_drifts_at_border_refuted.

(** In the 6 by 7 example of C26 with multiplier m, a flux of 1/8 everywhere is
    gentle as long as 2 m is at most 1. *)
Example C75_gentle : forall i j, inner (exP (A:=RX)) i j ->
  let st := set_qs (fun _ _ => 1 / 8)%R (exst (A:=RX) tt) in
  weight_around (exP (A:=RX)) st i j = (2 * p_diffusion_multiplier (exP (A:=RX)))%R.
Proof.
  intros i j Hi st. rewrite weight_sum. unfold sum9, wt. cbn [Nat.eqb].
  assert (K : forall k, (k < 9)%nat -> inbb (p_L (exP (A:=RX))) (p_W (exP (A:=RX))) (nb_row i k) (nb_col j k) = true).
  { intros k Hk. apply inbb_spec. destruct (nb_near i j k Hk), Hi. unfold inb. lia. }
  rewrite !K by lia. unfold st. cbn [s_qs set_qs]. lra.
Qed.

(** Too large a flux overshoots: one raised cell in a bed at zero sinks below
    zero (binary64). *)
Example C75_large_flux_overshoots_refuted :
  let bump := set_qs (fun _ _ => fz 100) (set_eta (fun i j => if (i =? 3) && (j =? 3) then fz 1 else fz 0) (exst (A:=F64) 0%Z)) in
  SFltb (s_eta (diffuse_once (A:=F64) exP bump) 3 3) (fz 0) = true.
Proof. vm_compute. reflexivity. Qed.
