(** C59: the routing rule. *)
From Coq Require Import ZArith List Bool Reals Lra Lia.
From Verif Require Import Base RLemmas Shared SharedSpec Params State Water Sed VecLemmas WaterSpec
  WeightSpec WeightFormula Examples.
Import ListNotations.
Local Open Scope Z_scope.

(** Water.  Whenever some direction is attractive, each direction is taken
    with probability proportional to its attractiveness.  Otherwise all wet
    directions inside the domain are equally likely, and without one all
    directions (and staying) that are not land; from a land cell there is no
    move. *)
Theorem C59_water_rule : forall (P : params R) depth stage mw ct qx qy i j,
  inb (p_L P) (p_W P) i j -> (0 <= p_gamma P <= 1)%R ->
  let score := water_score P depth stage mw ct qx qy i j in
  exists w, water_weight_cell (A:=RX) P depth stage mw ct qx qy i j = Ok w /\
    ((0 < sum9 score)%R -> forall k, (k < 9)%nat -> w k = (score k / sum9 score)%R) /\
    (sum9 score = 0%R -> ct i j = LAND -> forall k, (k < 9)%nat -> w k = 0%R) /\
    (sum9 score = 0%R -> ct i j <> LAND ->
      ((exists k, (k < 9)%nat /\ wet_inside P depth ct i j k) -> equal_chances (wet_inside P depth ct i j) w) /\
      ((forall k, (k < 9)%nat -> ~ wet_inside P depth ct i j k) ->
        equal_chances (fun k => at_nb (p_L P) (p_W P) ct i j k <> LAND) w)).
Proof. exact water_formula. Qed.
Print Assumptions C59_water_rule.

(** Sediment.  The same with inertia alone and the grain's exponent; without
    an attractive direction by inverse distance over everything that is not
    land; surrounded by land it fails. *)
Theorem C59_sediment_rule : forall (S : Type) (P : params R) g (st : state R S) b i j,
  inb (p_L P) (p_W P) i j ->
  let dn := window (b_pad_depth b) i j in
  let cn := at_nb (p_L P) (p_W P) (s_cell_type st) i j in
  let mn := at_nb (p_L P) (p_W P) (s_mod_sed_weight st) i j in
  let theta := match g with Sand => p_theta_sand P | Mud => p_theta_mud P end in
  let score := sed_score P dn mn cn theta (s_qx st i j) (s_qy st i j) in
  ((0 < sum9 score)%R -> exists w, sed_weights (A:=RX) P g st b i j = Ok w /\
     forall k, (k < 9)%nat -> w k = (score k / sum9 score)%R) /\
  (sum9 score = 0%R -> (exists k, (k < 9)%nat /\ not_land cn k) ->
     exists w, sed_weights (A:=RX) P g st b i j = Ok w /\
       forall k, (k < 9)%nat -> w k = (sed_aimless cn k / sum9 (sed_aimless cn))%R) /\
  ((forall k, (k < 9)%nat -> ~ not_land cn k) -> sed_weights (A:=RX) P g st b i j = Err RuntimeError).
Proof. exact @sed_formula. Qed.
Print Assumptions C59_sediment_rule.

(** A concrete case: straight flow down the rows on a level surface of depth
    one: one half straight on, one quarter to each side. *)
Local Open Scope R_scope.
Lemma straight_inertia : forall k, (k < 9)%nat -> k <> 4%nat ->
  inertia 1 0 k = nth k [0; 0; 0; 0; 0; 0; 1 / 2; 1; 1 / 2] 0.
Proof.
  intros k H N. unfold inertia.
  assert (D : ndist k <> 0) by (pose proof (ndist_pos k H N); lra).
  replace ((1 * (drow k / ndist k) + 0 * (dcol k / ndist k)) / ndist k) with (drow k / (ndist k * ndist k))
    by (field; exact D).
  unfold ndist. rewrite sqrt_sqrt by (apply Rplus_le_le_0_compat; apply Rle_0_sqr).
  apply lt9 in H; decompose [or] H; subst; try (exfalso; lia); unfold drow, dcol; cbn;
    match goal with |- Rmax 0 ?x = ?y => replace x with (if Rle_dec 0 y then (if Req_EM_T y 0 then x else y) else x) end;
    repeat match goal with
    | |- context [Rle_dec ?a ?b] => destruct (Rle_dec a b); try lra
    | |- context [Req_EM_T ?a ?b] => destruct (Req_EM_T a b); try lra
    end; try (apply Rmax_left; lra); try (apply Rmax_right; lra); try field.
Qed.

Example C59_straight : forall P : params R, (3 <= p_L P)%Z -> (3 <= p_W P)%Z ->
  0 <= p_gamma P < 1 -> p_dry_depth P <= 1 ->
  exists w, water_weight_cell (A:=RX) P (fun _ _ => 1) (fun _ _ => 0) (fun _ _ => 1) (fun _ _ => 1%Z)
      (fun _ _ => 1) (fun _ _ => 0) 1 1 = Ok w /\
    w 7%nat = 1 / 2 /\ w 6%nat = 1 / 4 /\ w 8%nat = 1 / 4 /\ w 1%nat = 0.
Proof.
  intros P HL HW Hg Hd.
  destruct (C59_water_rule P (fun _ _ => 1) (fun _ _ => 0) (fun _ _ => 1) (fun _ _ => 1%Z)
      (fun _ _ => 1) (fun _ _ => 0) 1 1) as (w & E & H & _); [split; lia|lra|].
  exists w. split; [exact E|].
  set (score := water_score _ _ _ _ _ _ _ _ _) in H.
  assert (I : forall k, (k < 9)%nat -> score k = (1 - p_gamma P) * (nth k [0; 0; 0; 0; 0; 0; 1 / 2; 1; 1 / 2] 0 / 2)).
  { assert (O : forall k, (k < 9)%nat -> only (wet P (fun _ _ => 1) (fun _ _ => 1%Z) 1 1) (wet_dec _ _ _ _ _) (inertia 1 0) k
       = nth k [0; 0; 0; 0; 0; 0; 1 / 2; 1; 1 / 2] 0).
    { intros k Hk. unfold only. destruct (wet_dec _ _ _ _ _ k) as [w0|n].
      - apply straight_inertia; auto. apply w0.
      - destruct (Nat.eq_dec k 4) as [->|N]; [reflexivity|]. exfalso. apply n.
        unfold wet, at_nb, nearest, LAND. repeat split; auto; lia. }
    assert (S0 : forall k, (k < 9)%nat -> only (wet P (fun _ _ => 1) (fun _ _ => 1%Z) 1 1) (wet_dec _ _ _ _ _)
        (fun k => slope (at_nb (p_L P) (p_W P) (fun _ _ => 0) 1 1 k) 0 k) k = 0).
    { intros k Hk. unfold only. destruct (wet_dec _ _ _ _ _ k); auto. unfold slope, at_nb, nearest.
      apply Rmax_left. unfold Rdiv. rewrite Rminus_0_r, Rmult_0_l. lra. }
    intros k Hk. unfold score, water_score, sfc_share, int_share.
    rewrite (share_ext _ (fun _ => 0) k S0 Hk), (share_ext _ _ k O Hk).
    replace (share (fun _ => 0) k) with 0 by (unfold share; destruct (Rlt_dec _ _); lra).
    unfold share. replace (sum9 _) with 2 by (unfold sum9; cbn; lra).
    destruct (Rlt_dec 0 2); [|lra]. unfold at_nb, nearest.
    replace (npow (1 * 1) (p_theta_water P)) with 1; [ring|].
    rewrite Rmult_1_l. unfold npow. destruct (Req_EM_T 1 0); [lra|]. destruct (Rlt_dec 0 1); [|lra].
    unfold Rpower. rewrite ln_1, Rmult_0_r, exp_0. reflexivity. }
  assert (Sm : sum9 score = 1 - p_gamma P) by (unfold sum9; rewrite !I by lia; cbn; lra).
  assert (Hp : 0 < sum9 score) by lra. specialize (H Hp). rewrite Sm in H.
  rewrite !H, !I by lia. cbn. repeat split; field; lra.
Qed.
