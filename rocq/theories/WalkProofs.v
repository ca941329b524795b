(** Water parcel walks: proofs for C08-C12. *)
From Coq Require Import ZArith List Bool Reals Lra Lia.
From Verif Require Import Base RLemmas Shared SharedSpec SharedProofs Params State Water
  VecLemmas WaterSpec WeightProofs.
Import ListNotations.
Local Open Scope Z_scope.

Lemma at_cell_div L W n i j : at_cell L W n i j -> n / W = i /\ n mod W = j.
Proof.
  intros [-> [Hi Hj]]. split.
  - rewrite Z.div_add_l by lia. rewrite (Z.div_small j) by lia. lia.
  - rewrite Z.add_comm, Z_mod_plus_full. apply Z.mod_small. lia.
Qed.

Lemma at_cell_range L W n i j : at_cell L W n i j -> 0 <= n < L * W.
Proof. intros [-> [Hi Hj]]. nia. Qed.

Lemma at_cell_unique L W n i j i' j' : at_cell L W n i j -> at_cell L W n i' j' ->
  i = i' /\ j = j'.
Proof.
  intros H H'. apply at_cell_div in H as [<- <-]. apply at_cell_div in H' as [<- <-]. auto.
Qed.

Lemma at_cell_exists L W n : 0 <= n < L * W -> 1 <= W -> at_cell L W n (n / W) (n mod W).
Proof.
  intros Hn HW. pose proof (Z.div_mod n W ltac:(lia)). pose proof (Z.mod_pos_bound n W ltac:(lia)).
  split; [lia|]. split; [|lia]. split; [apply Z.div_pos; lia|].
  apply Z.div_lt_upper_bound; lia.
Qed.

Lemma Forall2_imp {T U} (R1 R2 : T -> U -> Prop) l l' :
  (forall x y, R1 x y -> R2 x y) -> Forall2 R1 l l' -> Forall2 R2 l l'.
Proof. intros H. induction 1; constructor; auto. Qed.

Section Walk.
  Context (rnd : R -> R) {HR : Rounding rnd}.
  Notation A := (RA rnd).
  Context {S : Type} {G : Rng R S}.
  Context (P : params R).
  Notation L := (p_L P).
  Notation W := (p_W P).
  Context (ct : grid Z).
  Context (WD : walk_domain L W (p_L0 P) ct (p_inlet P)).
  Local Notation standing := (WaterSpec.standing P ct).
  Local Notation next_ok := (WaterSpec.next_ok P ct).
  Local Notation revisits := (WaterSpec.revisits P).
  Local Notation loop_rel := (WaterSpec.loop_rel rnd P).

  Lemma active_pos n : active L W ct n -> 0 < n.
  Proof.
    intros (i & j & [-> Hin] & Hl & He). pose proof (wd_interior _ _ _ _ _ WD i j Hin Hl He).
    destruct Hin. nia.
  Qed.

  Lemma flat_ix_ok n : 0 <= n < L * W -> flat_ix P n = Ok n.
  Proof.
    intros H. unfold flat_ix, wrap. destruct (Z.ltb_spec n 0); [lia|].
    destruct (Z.leb_spec 0 n); [|lia]. destruct (Z.ltb_spec n (L * W)); [|lia]. reflexivity.
  Qed.
  Lemma flat_ix_neg n : - (L * W) <= n < 0 -> flat_ix P n = Ok (n + L * W).
  Proof.
    intros H. unfold flat_ix, wrap. destruct (Z.ltb_spec n 0); [|lia].
    destruct (Z.leb_spec 0 (n + L * W)); [|lia].
    destruct (Z.ltb_spec (n + L * W) (L * W)); [|lia]. reflexivity.
  Qed.

  (** *** get_steps *)
  Lemma astep_spec k : (k < 9)%nat ->
    snd (get_steps (A:=A) k) = negb (Nat.eqb k 4).
  Proof.
    intros Hk. unfold get_steps. cbn [snd]. ra.
    assert (H1 : rnd (sqrt (rnd 1)) <> 0%R).
    { rewrite rnd_1, sqrt_1, rnd_1. lra. }
    assert (H2 : rnd (sqrt (rnd 2)) <> 0%R).
    { rewrite (rnd_small 2) by lia. apply Rgt_not_eq.
      apply Rlt_le_trans with 1%R; [lra|]. apply rnd_ge_1; auto.
      rewrite <- sqrt_1 at 1. apply sqrt_le_1; lra. }
    assert (H0 : rnd (sqrt (rnd 0)) = 0%R) by (rewrite rnd_0, sqrt_0; apply rnd_0).
    rewrite rnd_0. apply lt9 in Hk.
    decompose [or] Hk; subst k; cbn [iwalk_flat jwalk_flat nth Nat.eqb negb];
      match goal with |- context [IZR ?z] => let z' := eval compute in z in change z with z' end;
      try (rewrite H0; destruct (Reqb_spec 0 0); [reflexivity|contradiction]);
      match goal with |- negb (Reqb ?x 0) = true =>
        destruct (Reqb_spec x 0); [contradiction|reflexivity] end.
  Qed.

  (** *** Picking a direction *)

  Context (w : Z -> Z -> vec R).
  Local Notation move := (WaterSpec.move P ct w).
  Local Notation step_rel := (WaterSpec.step_rel rnd P ct w).
  Context (HW : forall i j, inb L W i j -> ct i j <> LAND ->
     (forall k, (k < 9)%nat -> (0 <= w i j k)%R) /\
     (forall k, (k < 9)%nat -> at_nb L W ct i j k = LAND -> w i j k = 0%R)).
  Context (HG : uniform_range G).
  Context (HP : forall i j s, inb L W i j -> ct i j <> LAND ->
     (0 < rnd (last (cumsum (A:=A) (map (w i j) D9)) 0 * fst (draw s)))%R).

  Lemma nth_D9 (v : vec R) k x : nth_error (map v D9) k = Some x -> (k < 9)%nat /\ x = v k.
  Proof.
    intros H. assert (Hk : (k < 9)%nat).
    { assert (Hl : (k < List.length (map v D9))%nat) by (apply nth_error_Some; congruence).
      rewrite map_length in Hl. exact Hl. }
    split; auto. rewrite nth_error_map in H. unfold D9 in H.
    rewrite (nth_error_nth' _ O) in H by (rewrite seq_length; auto).
    rewrite seq_nth in H by auto. cbn in H. congruence.
  Qed.

  Lemma pick_dir i j s : inb L W i j -> ct i j <> LAND ->
    exists k s', random_pick (A:=A) (map (w i j) D9) s = Ok (k, s') /\ (k < 9)%nat
      /\ (0 < w i j k)%R.
  Proof.
    intros Hin Hl. destruct (HW i j Hin Hl) as [H1 H2].
    destruct (random_pick_pos rnd (map (w i j) D9) s HG) as (k & s' & x & E & En & Hx).
    - unfold nonneg. rewrite Forall_map, Forall_forall. intros k Hk. apply H1, D9_In; auto.
    - apply HP; auto.
    - apply nth_D9 in En as [Hk ->]. eauto 6.
  Qed.

  (** Same parcel up to direction and next index. *)
  Definition same_rec (p p' : parcel) : Prop :=
    cur p' = cur p /\ walk p' = walk p /\ fflag p' = fflag p.

  Lemma choose_spec ps : Forall standing ps -> forall s,
    exists ps' s', choose_next_directions (A:=A) P w ps s = Ok (ps', s') /\
      Forall2 (fun p p' => same_rec p p' /\ (dir p' < 9)%nat /\
        (cur p = 0 -> dir p' = 4%nat) /\
        (forall i j, cur p <> 0 -> at_cell L W (cur p) i j -> (0 < w i j (dir p'))%R)) ps ps'.
  Proof.
    induction 1 as [|p ps Hp Hps IH]; intros s; cbn [choose_next_directions].
    - exists [], s. split; auto.
    - assert (Hd : exists d s1, (if cur p =? 0 then Ok (4%nat, s)
           else do n <- flat_ix P (cur p); random_pick (A:=A) (map (w (n / W) (n mod W)) D9) s)
           = Ok (d, s1) /\ (d < 9)%nat /\ (cur p = 0 -> d = 4%nat) /\
           (forall i j, cur p <> 0 -> at_cell L W (cur p) i j -> (0 < w i j d)%R)).
      { destruct (Z.eqb_spec (cur p) 0) as [E|E].
        - exists 4%nat, s. repeat split; auto; try lia.
        - destruct Hp as [Hp|(i & j & Hc & Hl & He)]; [contradiction|].
          rewrite flat_ix_ok by (eapply at_cell_range; eauto). cbn [rbind].
          destruct (at_cell_div _ _ _ _ _ Hc) as [-> ->]. destruct Hc as [Hn Hin].
          destruct (pick_dir i j s Hin Hl) as (k & s' & Ek & Hk & Hw).
          exists k, s'. repeat split; auto.
          + intros; contradiction.
          + intros i' j' _ Hc'. destruct (at_cell_unique _ _ _ _ _ _ _ (conj Hn Hin) Hc') as [<- <-].
            auto. }
      destruct Hd as (d & s1 & E & Hd9 & H0 & H1). rewrite E. cbn [rbind].
      destruct (IH s1) as (ps' & s2 & E' & HF). rewrite E'. cbn [rbind].
      eexists _, s2. split; [reflexivity|]. constructor; auto.
      cbn. repeat split; auto.
  Qed.

  Lemma nb_walk i k : (k < 9)%nat -> i + jwalk_flat k = nb_row i k.
  Proof. intros Hk. destruct (walk_steps k Hk) as [-> _]. unfold nb_row. lia. Qed.
  Lemma nb_walk_col j k : (k < 9)%nat -> j + iwalk_flat k = nb_col j k.
  Proof. intros Hk. destruct (walk_steps k Hk) as [_ ->]. unfold nb_col. lia. Qed.
  Lemma nb_row_bounds i k : (k < 9)%nat -> i - 1 <= nb_row i k <= i + 1
    /\ (nb_row i k < i -> (k < 3)%nat).
  Proof.
    intros Hk. apply lt9 in Hk. unfold nb_row. decompose [or] Hk; subst k; cbn; lia.
  Qed.
  Lemma nb_col_bounds j k : (k < 9)%nat -> j - 1 <= nb_col j k <= j + 1.
  Proof.
    intros Hk. apply lt9 in Hk. unfold nb_col. decompose [or] Hk; subst k; cbn; lia.
  Qed.

  Lemma move_spec p d : standing p -> (d < 9)%nat -> (cur p = 0 -> d = 4%nat) ->
    (forall i j, cur p <> 0 -> at_cell L W (cur p) i j -> (0 < w i j d)%R) ->
    move (cur p) d (calculate_new_ind P (cur p) d).
  Proof.
    intros Hp Hd H0 H1. unfold calculate_new_ind.
    destruct (Nat.eqb_spec d 4) as [->|Hd4].
    - destruct Hp as [Hp|(i & j & Hc & Hl & He)]; [apply move_retired; auto|].
      eapply move_stay; eauto. apply H1; auto.
      assert (0 < cur p); [|lia]. apply active_pos. exists i, j; auto.
    - destruct Hp as [Hp|(i & j & Hc & Hl & He)]; [apply H0 in Hp; contradiction|].
      assert (Hpos : 0 < cur p) by (apply active_pos; exists i, j; auto).
      specialize (H1 i j ltac:(lia) Hc). pose proof (proj1 Hc) as En. pose proof (proj2 Hc) as Hin.
      pose proof (wd_interior _ _ _ _ _ WD i j Hin Hl He) as [Hi Hj].
      pose proof (nb_row_bounds i d Hd) as [Hr Hr3]. pose proof (nb_col_bounds j d Hd) as Hcb.
      assert (E : cur p + ravel_walk_flat W d = nb_row i d * W + nb_col j d).
      { rewrite En. unfold ravel_walk_flat.
        rewrite <- (nb_walk i d Hd), <- (nb_walk_col j d Hd). ring. }
      destruct Hin as [Hi0 Hj0].
      destruct (Z_lt_le_dec (nb_row i d) 0) as [Hneg|Hnn].
      + assert (i = 0) by lia. subst i. assert (nb_row 0 d = -1) by lia.
        rewrite E, H. replace (-1 * W + nb_col j d) with (- W + nb_col j d) by lia.
        apply move_escape; auto; lia.
      + assert (Hin' : inb L W (nb_row i d) (nb_col j d)) by (split; lia).
        rewrite E. apply move_step; auto.
        intros Hl'. destruct (HW i j (conj Hi0 Hj0) Hl) as [_ H2].
        rewrite H2 in H1; auto; [lra|]. unfold at_nb. rewrite nearest_in; auto.
  Qed.

  (** After choosing and computing the new index. *)
  Lemma step_spec ps s : Forall standing ps ->
    exists ps' s', choose_next_directions (A:=A) P w ps s = Ok (ps', s') /\
      Forall2 (fun p p' => same_rec p p' /\ (dir p' < 9)%nat /\ move (cur p) (dir p') (new p'))
        ps (calculate_new_inds P ps').
  Proof.
    intros Hps. destruct (choose_spec ps Hps s) as (ps' & s' & E & HF).
    exists ps', s'. split; auto. unfold calculate_new_inds. clear E.
    induction HF as [|p p' ps ps' (Hs & Hd & H0 & H1) HF IH]; cbn [map]; constructor.
    - cbn. inversion Hps; subst. destruct Hs as (E1 & E2 & E3).
      split; [split; [|split]; auto|]. split; auto.
      rewrite E1. apply move_spec; auto.
    - apply IH. inversion Hps; auto.
  Qed.

  Lemma move_next_ok n d n' : move n d n' -> next_ok n'.
  Proof.
    intros H. destruct H; unfold next_ok; auto.
    - right; left. exists (nb_row i k), (nb_col j k). split; auto. split; auto.
    - right; right. lia.
  Qed.

  Lemma LW_pos : 0 < L /\ 0 < W /\ W <= L * W.
  Proof. pose proof (wd_L0 _ _ _ _ _ WD). pose proof (wd_W _ _ _ _ _ WD). nia. Qed.

  Lemma next_flat_ix n : next_ok n -> exists n', flat_ix P n = Ok n' /\ 0 <= n' < L * W
    /\ (n < 0 -> n' = n + L * W) /\ (0 <= n -> n' = n).
  Proof.
    pose proof LW_pos. intros [->|[(i & j & Hc & _)|Hn]].
    - exists 0. rewrite flat_ix_ok by nia. repeat split; auto; lia.
    - exists n. pose proof (at_cell_range _ _ _ _ _ Hc). rewrite flat_ix_ok by auto.
      repeat split; auto; lia.
    - exists (n + L * W). rewrite flat_ix_neg by lia. repeat split; auto; lia.
  Qed.

  (** Ghost row indices read the last row, which is edge. *)
  Lemma ghost_edge n : - W <= n < 0 ->
    ct ((n + L * W) / W) ((n + L * W) mod W) = EDGE.
  Proof.
    pose proof LW_pos. intros Hn.
    assert (Hc : at_cell L W (n + L * W) (L - 1) (n + W)).
    { split; [ring|]. split; lia. }
    destruct (at_cell_div _ _ _ _ _ Hc) as [-> ->]. apply (wd_last _ _ _ _ _ WD). lia.
  Qed.

  Lemma dirQ_ok q ix stp ps : Forall (fun p => (dir p < 9)%nat /\ (dir p <> 4%nat -> next_ok (ix p))) ps ->
    exists q', update_dirQfield (A:=A) P q ix stp ps = Ok q'.
  Proof.
    intros H; revert q. induction H as [|p ps [Hd Hn] HF IH]; intros q; cbn [update_dirQfield]; eauto.
    pose proof (astep_spec (dir p) Hd) as Ha.
    destruct (get_steps (A:=A) (dir p)) as [[[dist is] js] a] eqn:E. cbn in Ha. subst a.
    destruct (Nat.eqb_spec (dir p) 4); cbn [negb]; auto.
    destruct (next_flat_ix (ix p) (Hn n)) as (n' & E' & _). rewrite E'. cbn [rbind]. auto.
  Qed.
  Lemma absQ_ok q ix ps : Forall (fun p => (dir p < 9)%nat /\ (dir p <> 4%nat -> next_ok (ix p))) ps ->
    exists q', update_absQfield (A:=A) P q ix ps = Ok q'.
  Proof.
    intros H; revert q. induction H as [|p ps [Hd Hn] HF IH]; intros q; cbn [update_absQfield]; eauto.
    pose proof (astep_spec (dir p) Hd) as Ha.
    destruct (get_steps (A:=A) (dir p)) as [[[dist is] js] a] eqn:E. cbn in Ha. subst a.
    destruct (Nat.eqb_spec (dir p) 4); cbn [negb]; auto.
    destruct (next_flat_ix (ix p) (Hn n)) as (n' & E' & _). rewrite E'. cbn [rbind]. auto.
  Qed.
  Lemma update_Q_ok q ix ps : Forall (fun p => (dir p < 9)%nat /\ (dir p <> 4%nat -> next_ok (ix p))) ps ->
    exists q', update_Q (A:=A) P q ix ps = Ok q'.
  Proof.
    intros H. destruct q as [[a b] c]. unfold update_Q.
    destruct (dirQ_ok a ix jwalk_flat ps H) as [a' ->]. cbn [rbind].
    destruct (dirQ_ok b ix iwalk_flat ps H) as [b' ->]. cbn [rbind].
    destruct (absQ_ok c ix ps H) as [c' ->]. cbn [rbind]. eauto.
  Qed.

  (** *** Loop correction *)

  Lemma relocate_ok stale i j : 0 <= i -> (i, j) <> (1, p_CTR P) ->
    exists px py, relocate (A:=A) P stale i j = Ok (px, py) /\
      p_L0 P <= px <= L - 2 /\ 1 <= py <= W - 2.
  Proof.
    intros Hi Hne. unfold relocate. ra.
    set (n := (i - 1) * (i - 1) + (j - p_CTR P) * (j - p_CTR P)).
    assert (Hn : 1 <= n).
    { unfold n. assert (i <> 1 \/ j <> p_CTR P).
      { destruct (Z.eq_dec i 1); destruct (Z.eq_dec j (p_CTR P)); subst; tauto. }
      pose proof (Z.square_nonneg (i - 1)). pose proof (Z.square_nonneg (j - p_CTR P)).
      destruct H; [assert (0 < (i - 1) * (i - 1)) by nia|assert (0 < (j - p_CTR P) * (j - p_CTR P)) by nia]; lia. }
    assert (Hw : Reqb (rnd (sqrt (rnd (IZR n)))) (rnd 0) = false).
    { apply Reqb_false. rewrite rnd_0. apply Rgt_not_eq.
      apply Rlt_le_trans with 1%R; [lra|]. apply rnd_ge_1; auto.
      rewrite <- sqrt_1. apply sqrt_le_1_alt. apply rnd_ge_1; auto. apply (IZR_le 1); auto. }
    rewrite Hw. cbn [negb].
    pose proof (wd_L0 _ _ _ _ _ WD). pose proof (wd_W _ _ _ _ _ WD).
    eexists _, _. split; [reflexivity|]. lia.
  Qed.

  Lemma existsb_In n l : existsb (fun m => m =? n) l = true <-> In n l.
  Proof.
    rewrite existsb_exists. split.
    - intros (m & Hm & E). apply Z.eqb_eq in E. subst; auto.
    - intros H. exists n. split; auto. apply Z.eqb_refl.
  Qed.

  Lemma revisits_b n path :
    (0 <? n) && existsb (fun m => m =? n)
       (filter (fun m => (0 <? m) && (p_L0 P * W - 1 <? m)) path) = true <-> revisits n path.
  Proof.
    rewrite andb_true_iff, Z.ltb_lt, existsb_In, filter_In, andb_true_iff, !Z.ltb_lt.
    unfold revisits. intuition lia.
  Qed.

  (** Fields not touched by the loop check. *)
  Definition same_step (p p' : parcel) : Prop :=
    cur p' = cur p /\ walk p' = walk p /\ fflag p' = fflag p /\ dir p' = dir p.

  Lemma check_loops_ok stage H_SL ps :
    Forall (fun p => next_ok (new p) /\ (revisits (new p) (walk p) -> new p <> W + p_CTR P)) ps ->
    forall stale, exists ps', check_loops_from (A:=A) P stage H_SL stale ps = Ok ps' /\
      Forall2 (fun p p' => same_step p p' /\
        loop_rel stage H_SL (new p) (walk p) (new p') (looped p')) ps ps'.
  Proof.
    induction 1 as [|p ps [Hn Hc] HF IH]; intros stale; cbn [check_loops_from]; eauto.
    destruct ((0 <? new p) && existsb (fun m => m =? new p) _) eqn:E.
    - apply revisits_b in E. destruct E as (Hpos & HL0 & Hin).
      destruct Hn as [Hn|[(i & j & Hij & Hl)|Hn]]; [lia| |lia].
      destruct Hij as [En Hb]. 
      assert (Eu : custom_unravel (new p) (L, W) = Ok (i, j)) by (rewrite En; apply unravel_ok; auto).
      rewrite Eu. cbn [rbind].
      destruct (relocate_ok stale i j) as (px & py & Er & Hpx & Hpy).
      { apply Hb. }
      { intros Heq. inversion Heq; subst i j. apply Hc; [repeat split; auto|]. rewrite En. ring. }
      rewrite Er. cbn [rbind].
      pose proof (wd_L0 _ _ _ _ _ WD).
      rewrite ravel_ok by (split; lia). cbn [rbind].
      rewrite (proj2 (inbb_spec L W i j) Hb).
      destruct (IH (Some (px, py))) as (ps' & E' & HF'). rewrite E'. cbn [rbind].
      eexists. split; [reflexivity|]. constructor; auto. split; [repeat split|].
      cbn [new looped]. apply (loop_moved rnd P stage H_SL _ _ i j); auto; [repeat split; auto|split; auto].
    - destruct (IH stale) as (ps' & E' & HF'). rewrite E'. cbn [rbind].
      eexists. split; [reflexivity|]. constructor; auto. split; [repeat split|].
      cbn [new looped]. apply loop_none. intros Hr. apply revisits_b in Hr. congruence.
  Qed.

  Lemma check_for_loops_ok stage H_SL step ps :
    Forall (fun p => next_ok (new p) /\ (revisits (new p) (walk p) -> new p <> W + p_CTR P)) ps ->
    exists ps', check_for_loops (A:=A) P stage H_SL step ps = Ok ps' /\
      Forall2 (fun p p' => same_step p p' /\
        ((step <= p_L0 P /\ new p' = new p /\ looped p' = false) \/
         (p_L0 P < step /\ loop_rel stage H_SL (new p) (walk p) (new p') (looped p')))) ps ps'.
  Proof.
    intros H. unfold check_for_loops. destruct (Z.ltb_spec (p_L0 P) step).
    - destruct (check_loops_ok stage H_SL ps H None) as (ps' & E & HF).
      exists ps'. split; auto. eapply Forall2_imp; [|exact HF]. cbn. intros p p' [? ?]; auto.
    - eexists. split; [reflexivity|]. clear H. induction ps as [|p ps IH]; cbn [map]; constructor; auto.
      split; [repeat split|]. left. cbn. auto.
  Qed.

  Lemma loop_next_ok stage H_SL n path n' f : next_ok n -> loop_rel stage H_SL n path n' f ->
    next_ok n' /\ (0 < n' \/ n' = n).
  Proof.
    intros Hn H. destruct H; auto.
    pose proof (wd_L0 _ _ _ _ _ WD) as HL. pose proof (wd_W _ _ _ _ _ WD) as HWW.
    assert (Hb : inb L W px py) by (split; lia). split.
    - right; left. exists px, py. split; [split; auto|].
      intros Hl. apply (wd_land _ _ _ _ _ WD) in Hl; auto. lia.
    - left. nia.
  Qed.

  (** *** Recording the step *)

  (** The boundary test at a valid next index. *)
  Lemma at_boundary_ok n : next_ok n -> exists b, at_boundary P ct n = Ok b /\
    (n < 0 -> b = true) /\ (forall i j, at_cell L W n i j -> (b = true <-> ct i j = EDGE)).
  Proof.
    intros Hn. destruct (next_flat_ix n Hn) as (n' & E & Hr & Hneg & Hpos).
    unfold at_boundary. rewrite E. cbn [rbind]. eexists. split; [reflexivity|]. split.
    - intros Hn0. apply Z.eqb_eq. rewrite (Hneg Hn0). apply ghost_edge.
      destruct Hn as [Hn|[(i & j & Hc & _)|Hn]]; try lia.
      apply at_cell_range in Hc. lia.
    - intros i j Hc. rewrite Hpos by (apply at_cell_range in Hc; lia).
      destruct (at_cell_div _ _ _ _ _ Hc) as [-> ->]. apply Z.eqb_eq.
  Qed.

  (** Recording keeps direction and target; the parcel then stands at 0 or on
      an active cell. *)
  Lemma record_ok p : next_ok (new p) ->
    exists p' b, record_step P ct p = Ok (p', b) /\ standing p' /\
      dir p' = dir p /\ new p' = new p /\ looped p' = looped p /\
      fflag p' = fflag p && negb (looped p) /\
      cur p' = (if b then 0 else new p) /\
      walk p' = (if looped p && b then 0 else new p) :: walk p /\
      (new p < 0 -> b = true) /\
      (forall i j, at_cell L W (new p) i j -> (b = true <-> ct i j = EDGE)).
  Proof.
    intros Hn. destruct (at_boundary_ok (new p) Hn) as (b & E & H1 & H2).
    unfold record_step. rewrite E. cbn [rbind]. eexists _, b. split; [reflexivity|].
    cbn [cur walk fflag dir new looped].
    assert (Hcur : (if b then 0 else if looped p && b then 0 else new p) = (if b then 0 else new p)).
    { destruct b; auto. rewrite andb_false_r. reflexivity. }
    repeat split; auto; try apply H2; auto.
    unfold standing. cbn [cur]. rewrite Hcur. destruct b; auto.
    destruct Hn as [Hn|[(i & j & Hc & Hl)|Hn]]; auto.
    - right. exists i, j. split; auto. split; auto. intros He.
      apply (H2 i j Hc) in He. discriminate.
    - assert (new p < 0) by lia. apply H1 in H. discriminate.
  Qed.

  (** *** One step of all parcels *)

  Lemma move_revisits_L0 n d n' path : 2 <= p_L0 P -> move n d n' -> revisits n' path ->
    0 <= p_CTR P < W -> n' <> W + p_CTR P.
  Proof. intros HL Hm (Hp & Hr & _) Hc E. nia. Qed.

  Lemma Forall2_Forall_r {T U} (Rl : T -> U -> Prop) (Q : U -> Prop) l l' :
    Forall2 Rl l l' -> (forall x y, Rl x y -> Q y) -> Forall Q l'.
  Proof. induction 1; intros H'; constructor; eauto. Qed.

  Lemma Forall2_trans3 {T U V} (R1 : T -> U -> Prop) (R2 : U -> V -> Prop) (R3 : T -> V -> Prop) l l' l'' :
    Forall2 R1 l l' -> Forall2 R2 l' l'' -> (forall x y z, R1 x y -> R2 y z -> R3 x z) ->
    Forall2 R3 l l''.
  Proof.
    intros H. revert l''. induction H; intros l'' H2 H3; inversion H2; subst; constructor; eauto.
  Qed.

  Lemma mapM_ok {T U} (f : T -> result U) (Q : T -> U -> Prop) l :
    (forall x, In x l -> exists y, f x = Ok y /\ Q x y) ->
    exists ys, mapM f l = Ok ys /\ Forall2 Q l ys.
  Proof.
    induction l as [|x l IH]; intros H; cbn [mapM]; eauto.
    destruct (H x (or_introl eq_refl)) as (y & E & Hq). rewrite E. cbn [rbind].
    destruct IH as (ys & E' & HF); [intros; apply H; cbn; auto|]. rewrite E'. cbn [rbind].
    eauto.
  Qed.

  Lemma Forall_dirs ps : Forall (fun p => (dir p < 9)%nat /\ next_ok (new p)) ps ->
    Forall (fun p => (dir p < 9)%nat /\ (dir p <> 4%nat -> next_ok (new p))) ps.
  Proof. apply Forall_impl. intros p [? ?]; auto. Qed.

  Lemma standing_next p : standing p -> next_ok (cur p).
  Proof. intros [H|(i & j & Hc & Hl & He)]; [left; auto|right; left; eauto]. Qed.

  Context (HL0 : 2 <= p_L0 P) (HCTR : 0 <= p_CTR P < W).

  Lemma water_step_ok stage H_SL step ps q width s :
    Forall standing ps -> step < check_size_of_indices_matrix P width step ->
    exists ps' q' s', water_step (A:=A) P w stage H_SL ct step (ps, q, width, s)
        = Ok (ps', q', check_size_of_indices_matrix P width step, s') /\
      Forall2 (step_rel stage H_SL step) ps ps'.
  Proof.
    intros Hps Hwid. unfold water_step.
    destruct (step_spec ps s Hps) as (ps1 & s1 & E1 & F1). rewrite E1. cbn [rbind].
    set (ps2 := calculate_new_inds P ps1) in *.
    assert (Hcur : Forall (fun p => (dir p < 9)%nat /\ (dir p <> 4%nat -> next_ok (cur p))) ps2).
    { assert (Hx : Forall (fun p => (dir p < 9)%nat /\ next_ok (cur p)) ps2).
      { clear E1. revert Hps. induction F1 as [|p p' l l' Hr HF IH]; intros Hps; constructor.
        - inversion Hps; subst. destruct Hr as ((Ec & _) & Hd & _). split; auto.
          rewrite Ec. apply standing_next; auto.
        - apply IH. inversion Hps; auto. }
      eapply Forall_impl; [|exact Hx]. intros p [? ?]; auto. }
    assert (Hnew : Forall (fun p => (dir p < 9)%nat /\ next_ok (new p)) ps2).
    { eapply Forall2_Forall_r; [exact F1|]. cbn. intros p p' (_ & Hd & Hm). split; auto.
      eapply move_next_ok; eauto. }
    destruct (update_Q_ok q cur ps2 Hcur) as [q1 ->]. cbn [rbind].
    destruct (update_Q_ok q1 new ps2 (Forall_dirs _ Hnew)) as [q2 ->]. cbn [rbind].
    destruct (check_for_loops_ok stage H_SL step ps2) as (ps3 & E3 & F3).
    { assert (Hx : Forall (fun p' => exists n, move n (dir p') (new p')) ps2).
      { eapply Forall2_Forall_r; [exact F1|]. cbn. intros p p' (_ & _ & Hm). eauto. }
      eapply Forall_impl; [|exact Hx]. intros p [n Hm]. split.
      - eapply move_next_ok; eauto.
      - intros Hr. eapply move_revisits_L0; eauto. }
    rewrite E3. cbn [rbind].
    assert (F13 : Forall2 (fun p p3 => (cur p3 = cur p /\ walk p3 = walk p /\ fflag p3 = fflag p) /\
        (dir p3 < 9)%nat /\ next_ok (new p3) /\
        exists n1, move (cur p) (dir p3) n1 /\
        ((step <= p_L0 P /\ new p3 = n1 /\ looped p3 = false) \/
         (p_L0 P < step /\ loop_rel stage H_SL n1 (walk p) (new p3) (looped p3)))) ps ps3).
    { eapply Forall2_trans3; [exact F1|exact F3|]. cbn.
      intros x y z ((A1 & A2 & A3) & Ad & Am) ((B1 & B2 & B3 & B4) & Hl).
      split; [repeat split; congruence|]. split; [congruence|].
      pose proof (move_next_ok _ _ _ Am) as Hn. split.
      - destruct Hl as [(_ & -> & _)|(_ & Hl)]; auto. eapply loop_next_ok; eauto.
      - exists (new y). rewrite B4. split; auto. rewrite <- A2. destruct Hl; auto. }
    destruct (mapM_ok (record_step P ct)
      (fun p pb => standing (fst pb) /\
      dir (fst pb) = dir p /\ new (fst pb) = new p /\ looped (fst pb) = looped p /\
      fflag (fst pb) = fflag p && negb (looped p) /\
      cur (fst pb) = (if snd pb then 0 else new p) /\
      walk (fst pb) = (if looped p && snd pb then 0 else new p) :: walk p /\
      (new p < 0 -> snd pb = true) /\
      (forall i j, at_cell L W (new p) i j -> (snd pb = true <-> ct i j = EDGE))) ps3)
      as (pbs & E4 & F4).
    { intros p Hp.
      assert (Hn : next_ok (new p)).
      { assert (HA : Forall (fun p3 => next_ok (new p3)) ps3)
          by (eapply Forall2_Forall_r; [exact F13|]; cbn; tauto).
        rewrite Forall_forall in HA. auto. }
      destruct (record_ok p Hn) as (p' & b & E & HR'). exists (p', b). split; auto. }
    rewrite E4. cbn [rbind].
    destruct (Z.ltb_spec step (check_size_of_indices_matrix P width step)) as [_|]; [|lia].
    assert (F5 : Forall2 (step_rel stage H_SL step) ps (map fst pbs)).
    { assert (F4' : Forall2 (fun p p' => exists b : bool, standing p' /\
      dir p' = dir p /\ new p' = new p /\ looped p' = looped p /\
      fflag p' = fflag p && negb (looped p) /\
      cur p' = (if b then 0 else new p) /\
      walk p' = (if looped p && b then 0 else new p) :: walk p /\
      (new p < 0 -> b = true) /\
      (forall i j, at_cell L W (new p) i j -> (b = true <-> ct i j = EDGE))) ps3 (map fst pbs)).
      { clear - F4. induction F4; cbn [map]; constructor; eauto. }
      eapply Forall2_trans3; [exact F13|exact F4'|]. cbn.
      intros x y z ((A1 & A2 & A3) & Ad & An & n1 & Am & Al)
        (b & Hs & Ed & En & El & Ef & Ec & Ew & Hb1 & Hb2).
      constructor; auto.
      - congruence.
      - exists n1. rewrite Ed, En, El. auto.
      - congruence.
      - congruence.
      - exists b. rewrite En, El, Ew, A2. auto. }
    destruct (update_Q_ok q2 new (map fst (filter snd pbs))) as [q3 ->].
    { apply Forall_dirs. rewrite Forall_map.
      assert (HA : Forall (fun p' => (dir p' < 9)%nat /\ next_ok (new p')) (map fst pbs)).
      { eapply Forall2_Forall_r; [exact F5|]. cbn. intros x y Hr. destruct Hr; auto. }
      rewrite Forall_map in HA. rewrite Forall_forall in *. intros pb Hpb.
      apply filter_In in Hpb as [Hpb _]. auto. }
    cbn [rbind]. eauto 8.
  Qed.
End Walk.
