(** The speed of the water and the jump of a looping parcel as formulas
    (C12, C17). *)
From Coq Require Import ZArith List Bool Reals Lra Lia.
From Flocq Require Import Core.Raux Core.Round_NE Core.Generic_fmt.
From Verif Require Import Base RLemmas Shared SharedSpec SharedProofs Params State Water VecLemmas
  WaterSpec WeightProofs WalkProofs RunProofs.
Import ListNotations.
Local Open Scope R_scope.

(** ** Specification *)

(** Speed of the water: discharge over depth, at most u_max, where the cell is
    wet and carries discharge; along the discharge. *)
Definition speed_rule {S} (P : params R) (st : state R S) (i j : Z) : Prop :=
  (p_dry_depth P < s_depth st i j -> 0 < s_qw st i j ->
     s_uw st i j = Rmin (p_u_max P) (s_qw st i j / s_depth st i j) /\
     s_ux st i j = s_uw st i j * (s_qx st i j / s_qw st i j) /\
     s_uy st i j = s_uw st i j * (s_qy st i j / s_qw st i j)) /\
  (s_depth st i j <= p_dry_depth P \/ s_qw st i j <= 0 ->
     s_uw st i j = 0 /\ s_ux st i j = 0 /\ s_uy st i j = 0).

(** z is the integer nearest to x, the even one of two. *)
Definition nearest_even (x : R) (z : Z) : Prop :=
  Rabs (IZR z - x) <= 1 / 2 /\ (Rabs (IZR z - x) = 1 / 2 -> Z.even z = true).

(** The cell five cells further along the line from (1, CTR) through (i, j),
    kept away from the land rows, the last row and the outer columns. *)
Definition jump_target (P : params R) (i j px py : Z) : Prop :=
  let r := sqrt (IZR (i - 1) * IZR (i - 1) + IZR (j - p_CTR P) * IZR (j - p_CTR P)) in
  exists a b, nearest_even (5 * IZR (i - 1) / r) a /\ nearest_even (5 * IZR (j - p_CTR P) / r) b /\
    px = Z.min (p_L P - 2) (Z.max (p_L0 P) (i + a)) /\ py = Z.min (p_W P - 2) (Z.max 1 (j + b)).

(** ** Proofs *)
Section Speed.
  Notation XA := (RA (fun x => x)).
  Context {S : Type} {G : Rng R S} (P : params R).

  Lemma velocity_rule (st : state R S) i j : 0 <= p_dry_depth P ->
    speed_rule P (update_velocity_field (A:=XA) P st) i j.
  Proof.
    intros Hd. unfold speed_rule, update_velocity_field. rewrite !gmemo_id.
    cbn [s_depth s_qw s_qx s_qy s_uw s_ux s_uy set_uw set_ux set_uy].
    unfold velocity_cell. rewrite npmin_R. ra.
    destruct (Rltb_spec (p_dry_depth P) (s_depth st i j)), (Rltb_spec 0 (s_qw st i j)); cbn [andb fst snd];
      (split; [intros H1 H2|intros [H1|H1]]); try lra; try tauto.
  Qed.

  Lemma route_water_speed (st st' : state R S) : 0 <= p_dry_depth P -> (1 <= p_itermax P)%Z ->
    route_water (A:=XA) P st = Ok st' -> forall i j, speed_rule P st' i j.
  Proof.
    intros Hd Hit. unfold route_water.
    destruct (Z.to_nat (p_itermax P)) as [|n] eqn:En; [lia|]. clear En Hit.
    generalize 0%Z. revert st. induction n as [|n IH]; intros st it E i j.
    - cbn [water_iterations] in E. apply rbind_Ok in E as (st1 & E1 & E). inversion E; subst.
      unfold water_iteration in E1. apply rbind_Ok in E1 as ((((ps & q) & width) & s) & _ & E1).
      destruct q as [[qxn qyn] qwn]. apply rbind_Ok in E1 as (st2 & _ & E1). inversion E1; subst.
      unfold finalize_water_iteration. apply velocity_rule; auto.
    - cbn [water_iterations] in E. apply rbind_Ok in E as (st1 & E1 & E). eapply IH; eauto.
  Qed.
End Speed.

Section Jump.
  Notation XA := (RA (fun x => x)).
  Context (P : params R).
  Notation L := (p_L P).
  Notation W := (p_W P).
  Context (ct : grid Z) (WD : walk_domain L W (p_L0 P) ct (p_inlet P)).

  Lemma nearest_even_ok x : nearest_even x (ZnearestE x).
  Proof.
    split.
    - rewrite Rabs_minus_sym. apply Rle_trans with (/ 2); [apply Znearest_half|lra].
    - intros H. unfold ZnearestE, Znearest in *.
      destruct (Rcompare_spec (x - IZR (Zfloor x)) (/ 2)) as [Hc|Hc|Hc].
      + exfalso. pose proof (Zfloor_lb x). rewrite Rabs_left1 in H by lra. lra.
      + destruct (Z.even (Zfloor x)) eqn:Ee; cbn [negb] in *.
        * exact Ee.
        * rewrite Zceil_floor_neq by lra. rewrite Z.even_add, Ee. reflexivity.
      + exfalso. pose proof (Zfloor_ub x). rewrite Zceil_floor_neq in H by lra. rewrite plus_IZR in H.
        rewrite Rabs_right in H by lra. lra.
  Qed.

  Lemma relocate_target stale i j px py : (i, j) <> (1, p_CTR P)%Z ->
    relocate (A:=XA) P stale i j = Ok (px, py) -> jump_target P i j px py.
  Proof.
    intros Hne. unfold relocate. ra.
    set (n := ((i - 1) * (i - 1) + (j - p_CTR P) * (j - p_CTR P))%Z).
    assert (Hn : (1 <= n)%Z).
    { unfold n. destruct (Z.eq_dec i 1), (Z.eq_dec j (p_CTR P)); subst; [congruence| | |]; nia. }
    assert (Hr : 0 < sqrt (IZR n)) by (apply sqrt_lt_R0; apply (IZR_lt 0); lia).
    destruct (Reqb_spec (sqrt (IZR n)) 0); [lra|]. cbn [negb]. intros E. injection E as <- <-.
    unfold jump_target. replace (IZR (i - 1) * IZR (i - 1) + IZR (j - p_CTR P) * IZR (j - p_CTR P)) with (IZR n)
      by (unfold n; rewrite plus_IZR, !mult_IZR; reflexivity).
    exists (ZnearestE (IZR (i - 1) / sqrt (IZR n) * 5)), (ZnearestE (IZR (j - p_CTR P) / sqrt (IZR n) * 5)).
    replace (5 * IZR (i - 1) / sqrt (IZR n)) with (IZR (i - 1) / sqrt (IZR n) * 5) by (field; lra).
    replace (5 * IZR (j - p_CTR P) / sqrt (IZR n)) with (IZR (j - p_CTR P) / sqrt (IZR n) * 5) by (field; lra).
    split; [apply nearest_even_ok|]. split; [apply nearest_even_ok|]. split; lia.
  Qed.

  Lemma jumps_from stage H_SL ps :
    Forall (fun p => next_ok P ct (new p) /\ (revisits P (new p) (walk p) -> new p <> W + p_CTR P)%Z) ps ->
    forall stale ps', check_loops_from (A:=XA) P stage H_SL stale ps = Ok ps' ->
      Forall2 (fun p p' => forall i j, revisits P (new p) (walk p) -> at_cell L W (new p) i j ->
        exists px py, jump_target P i j px py /\ new p' = (px * W + py)%Z) ps ps'.
  Proof.
    induction 1 as [|p ps [Hn Hc] HF IH]; intros stale ps' E; cbn [check_loops_from] in E.
    { injection E as <-. constructor. }
    destruct ((0 <? new p) && existsb (fun m => m =? new p) _)%Z eqn:Q.
    - apply (revisits_b P) in Q. destruct Q as (Hpos & HL0 & Hin).
      destruct Hn as [Hn|[(i & j & Hij & Hl)|Hn]]; [lia| |lia].
      destruct Hij as [En Hb].
      assert (Eu : custom_unravel (new p) (L, W) = Ok (i, j)) by (rewrite En; apply unravel_ok; auto).
      rewrite Eu in E. cbn [rbind] in E.
      assert (Hne : (i, j) <> (1, p_CTR P)%Z).
      { intros Heq. inversion Heq; subst i j. apply Hc; [repeat split; auto|]. rewrite En. ring. }
      apply rbind_Ok in E as ((px & py) & Er & E). cbn beta iota in E.
      pose proof (relocate_ok (fun x => x) P ct WD stale i j (proj1 (proj1 Hb)) Hne) as (px' & py' & Er' & Hpx & Hpy).
      rewrite Er in Er'. injection Er' as <- <-.
      pose proof (wd_L0 _ _ _ _ _ WD).
      rewrite ravel_ok in E by (split; lia). cbn [rbind] in E.
      rewrite (proj2 (inbb_spec L W i j) Hb) in E.
      apply rbind_Ok in E as (rest & E' & E). injection E as <-.
      constructor; [|eapply IH; eauto]. intros i' j' _ Hc'. cbn [new].
      assert (i' = i /\ j' = j) as [-> ->].
      { destruct Hc' as [En' Hb']. destruct (at_cell_div L W (new p) i j) as [D1 D2]; [split; auto|].
        destruct (at_cell_div L W (new p) i' j') as [D1' D2']; [split; auto|]. split; congruence. }
      exists px, py. split; auto. eapply relocate_target; eauto.
    - apply rbind_Ok in E as (rest & E' & E). injection E as <-. constructor; [|eapply IH; eauto].
      intros i j Hr. apply (revisits_b P) in Hr. congruence.
  Qed.

  Lemma jumps stage H_SL step ps ps' : (p_L0 P < step)%Z ->
    Forall (fun p => next_ok P ct (new p) /\ (revisits P (new p) (walk p) -> new p <> W + p_CTR P)%Z) ps ->
    check_for_loops (A:=XA) P stage H_SL step ps = Ok ps' ->
      Forall2 (fun p p' => forall i j, revisits P (new p) (walk p) -> at_cell L W (new p) i j ->
        exists px py, jump_target P i j px py /\ new p' = (px * W + py)%Z) ps ps'.
  Proof.
    intros Hs HF E. unfold check_for_loops in E. destruct (Z.ltb_spec (p_L0 P) step); [|lia].
    eapply jumps_from; eauto.
  Qed.
End Jump.
