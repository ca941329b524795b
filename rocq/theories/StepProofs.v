(** The model takes a time step by the rules of StepSpec.v (C64, C65). *)
From Coq Require Import ZArith List Bool Reals Lra Lia.
From Verif Require Import Base RLemmas Shared SharedSpec SharedProofs Params State Water Sed VecLemmas
  WaterSpec WeightSpec WeightProofs WeightFormula WalkProofs RunProofs SurfaceProofs FlowProofs
  SurfaceSpec SurfaceFormula WaterRules WaterCor SedSpec SedProofs SedRules ChanceSpec ChanceProofs SedRulesProofs
  Diffusion Iter IterSpec FrameProofs IterProofs StepSpec.
Import ListNotations.
Local Open Scope R_scope.
Local Notation XA := (RA (fun x => x)).

Lemma F2_impl {T U} (Q Q' : T -> U -> Prop) l l' :
  (forall x y, Q x y -> Q' x y) -> Forall2 Q l l' -> Forall2 Q' l l'.
Proof. induction 2; constructor; auto. Qed.

Lemma F2_and {T U} (Q Q' : T -> U -> Prop) l l' :
  Forall2 Q l l' -> Forall2 Q' l l' -> Forall2 (fun x y => Q x y /\ Q' x y) l l'.
Proof. induction 1; intros H'; inversion H'; subst; constructor; auto. Qed.

(** ** Flooding *)
Section Flood.
  Context (P : params R).
  Notation L := (p_L P).
  Notation W := (p_W P).

  Definition inside (hi x : Z) : Z := Z.max 0 (Z.min hi x).

  Lemma fix_edges_inside (m : grid bool) n i j : (2 <= L)%Z -> (2 <= W)%Z -> inb L W i j -> (n < 8)%nat ->
    fix_edges P (shift_plane P false m) n i j = m (inside (L - 1) (i + nb_di n)) (inside (W - 1) (j + nb_dj n)).
  Proof.
    intros HL HW [Hi Hj] Hn.
    do 8 (destruct n as [|n]; [
      unfold fix_edges, copy_col, copy_row, shift_plane, inside; cbn [nb_di nb_dj nth];
      repeat match goal with |- context [if (?x =? ?y)%Z then _ else _] => destruct (Z.eqb_spec x y); subst; try lia end;
      match goal with |- context [inbb ?a ?b ?c ?d] =>
        let E := fresh in assert (E : inbb a b c d = true) by (apply inbb_spec; split; lia); rewrite E end;
      f_equal; lia|]). lia.
  Qed.

  (** The directions of the planes in the order of the windows. *)
  Definition plane_dir (n : nat) : nat := nth n [5; 2; 1; 0; 3; 6; 7; 8]%nat 4%nat.
  Lemma plane_row i n : (n < 8)%nat -> nb_row i (plane_dir n) = (i + nb_di n)%Z.
  Proof. intros H. do 8 (destruct n as [|n]; [unfold nb_row; cbn; lia|]). lia. Qed.
  Lemma plane_col j n : (n < 8)%nat -> nb_col j (plane_dir n) = (j + nb_dj n)%Z.
  Proof. intros H. do 8 (destruct n as [|n]; [unfold nb_col; cbn; lia|]). lia. Qed.

  Context (depth eta stage : grid R) (i j : Z) (HL : (2 <= L)%Z) (HW : (2 <= W)%Z) (Hin : inb L W i j).
  Notation wetf := (fun a b => fltb (Arith:=XA) (p_dry_depth P) (depth a b)).

  Lemma wetf_dec a b : inb L W a b -> wetf a b = is_wet P depth a b.
  Proof.
    intros H. unfold is_wet. apply inbb_spec in H. rewrite H. ra. cbn [andb].
    destruct (Rltb_spec (p_dry_depth P) (depth a b)), (Rlt_dec (p_dry_depth P) (depth a b)); auto; lra.
  Qed.

  Lemma inside_in a b : inb L W (inside (L - 1) a) (inside (W - 1) b).
  Proof. unfold inside. split; lia. Qed.
  Lemma inside_id a b : inb L W a b -> inside (L - 1) a = a /\ inside (W - 1) b = b.
  Proof. unfold inside. intros []. split; lia. Qed.

  Lemma cand_offered n : (n < 8)%nat ->
    fmul (Arith:=XA) (if fix_edges P (shift_plane P false wetf) n i j then fz (Arith:=XA) 1 else fz (Arith:=XA) 0)
      (shift_plane P (fz (Arith:=XA) 0) stage n i j) = offered P depth stage i j (plane_dir n).
  Proof.
    intros Hn. rewrite fix_edges_inside by auto. unfold shift_plane, offered, wet_at.
    rewrite plane_row, plane_col by auto. ra.
    destruct (inbb L W (i + nb_di n) (j + nb_dj n)) eqn:E.
    - apply inbb_spec in E. destruct (inside_id _ _ E) as [-> ->].
      pose proof (wetf_dec _ _ E) as Ew. ra_in Ew. rewrite Ew. destruct (is_wet _ _ _ _); lra.
    - unfold is_wet. rewrite E. cbn [andb]. lra.
  Qed.

  Lemma shore_dec : wetf i j = false ->
    existsb (fun n => fix_edges P (shift_plane P false wetf) n i j) D8
    = existsb (wet_at P depth i j) [0; 1; 2; 3; 5; 6; 7; 8]%nat.
  Proof.
    intros Hd. apply eq_true_iff_eq. rewrite !existsb_exists. split.
    - intros (n & Hn & E). apply in_seq in Hn. rewrite fix_edges_inside in E by (auto; lia).
      set (a := inside (L - 1) (i + nb_di n)) in *. set (b := inside (W - 1) (j + nb_dj n)) in *.
      assert (Hab : inb L W a b) by apply inside_in.
      destruct (nb_D8 n ltac:(lia)) as [[N1 N2] _].
      assert (Hne : (a - i, b - j)%Z <> (0, 0)%Z).
      { intros Q. injection Q as Q1 Q2. assert (a = i /\ b = j) as [-> ->] by lia. congruence. }
      destruct (nb_D8_all (a - i) (b - j)) as (m & Hm & M1 & M2); auto.
      { unfold a, inside. destruct Hin. lia. } { unfold b, inside. destruct Hin. lia. }
      exists (plane_dir m). split.
      + do 8 (destruct m as [|m]; [cbn; tauto|]). lia.
      + unfold wet_at. rewrite plane_row, plane_col, M1, M2 by auto.
        replace (i + (a - i))%Z with a by lia. replace (j + (b - j))%Z with b by lia.
        rewrite <- wetf_dec; auto.
    - intros (k & Hk & E).
      assert (Hm : exists m, (m < 8)%nat /\ plane_dir m = k).
      { cbn in Hk. decompose [or] Hk; subst; try contradiction;
          [exists 3%nat|exists 2%nat|exists 1%nat|exists 4%nat|exists 0%nat|exists 5%nat|exists 6%nat|exists 7%nat]; split; auto; lia. }
      destruct Hm as (m & Hm & <-). exists m. split; [apply in_seq; lia|].
      rewrite fix_edges_inside by auto. unfold wet_at in E. rewrite plane_row, plane_col in E by auto.
      assert (Hab : inb L W (i + nb_di m) (j + nb_dj m)).
      { unfold is_wet in E. apply andb_prop in E as [E _]. apply inbb_spec in E; auto. }
      destruct (inside_id _ _ Hab) as [-> ->]. rewrite wetf_dec; auto.
  Qed.

  Ltac in_max := match goal with
    | |- ?x <= ?x => apply Rle_refl
    | |- _ <= Rmax ?a ?b => first [apply Rle_trans with a; [in_max|apply Rmax_l]
                                  |apply Rle_trans with b; [in_max|apply Rmax_r]]
    end.
  Lemma highest_fold :
    fold_left (fmax (A:=XA)) (tl (cands (fun x => x) P depth stage i j)) (hd (fz (Arith:=XA) 0) (cands (fun x => x) P depth stage i j))
    = highest P depth stage i j /\
    existsb (fun x => Rltb (eta i j) x) (cands (fun x => x) P depth stage i j)
    = if Rlt_dec (eta i j) (highest P depth stage i j) then true else false.
  Proof.
    assert (E : cands (fun x => x) P depth stage i j = map (fun n => offered P depth stage i j (plane_dir n)) D8).
    { unfold cands. apply map_ext_in. intros n Hn. apply in_seq in Hn. apply cand_offered. lia. }
    rewrite E. cbn [map D8 seq plane_dir nth hd tl fold_left existsb]. rewrite !fmax_R.
    unfold highest. generalize (offered P depth stage i j). intros o. split.
    - apply Rle_antisym; repeat apply Rmax_lub; in_max.
    - match goal with |- context [Rlt_dec ?a ?b] => destruct (Rlt_dec a b) as [H|H] end.
      + apply not_false_iff_true. intros E'. repeat (apply orb_false_iff in E' as [?E E']).
        repeat match goal with Q : Rltb _ _ = false |- _ => apply Rltb_false in Q end.
        apply (Rlt_not_le _ _ H). repeat apply Rmax_lub; assumption.
      + apply not_true_iff_false. intros E'. apply H. clear H.
        repeat (apply orb_true_iff in E' as [E'|E']); try discriminate; apply Rltb_true in E';
          (eapply Rlt_le_trans; [exact E'|in_max]).
  Qed.

  Lemma flooding_formula :
    flooding_correction (A:=XA) P depth eta stage i j = flooded P depth eta stage i j.
  Proof.
    rewrite flooding_closed. unfold flooded. rewrite (proj2 (inbb_spec L W i j) Hin). cbn [andb].
    unfold is_shore. cbn [fst snd]. rewrite <- wetf_dec by auto.
    destruct (wetf i j) eqn:Ew; cbn [negb andb]; [reflexivity|]. rewrite shore_dec by auto.
    destruct (existsb (wet_at P depth i j) _); [|reflexivity].
    unfold flood_value. destruct highest_fold as [-> ->]. destruct (Rlt_dec _ _); reflexivity.
  Qed.
End Flood.

(** ** Routes *)
Section Routes.
  Context {S : Type} {G : Rng R S} (P : params R) (st : state R S).
  Notation L := (p_L P).
  Notation W := (p_W P).
  Notation ct := (s_cell_type st).
  Context (WD : walk_domain L W (p_L0 P) ct (p_inlet P)) (w : Z -> Z -> vec R).
  Context (HW : forall i j, inb L W i j -> ct i j <> LAND ->
     (forall k, (k < 9)%nat -> (0 <= w i j k)%R) /\
     (forall k, (k < 9)%nat -> at_nb L W ct i j k = LAND -> w i j k = 0%R)).
  Context (HG : uniform_range G).
  Context (HP : forall i j s, inb L W i j -> ct i j <> LAND ->
     (0 < last (cumsum (A:=XA) (map (w i j) D9)) 0 * fst (draw s))%R).
  Context (HL0 : (2 <= p_L0 P)%Z) (HCTR : (0 <= p_CTR P < W)%Z) (Hstep : (4 <= p_stepmax P)%Z).

  Lemma aim_ok n k : (k < 9)%nat ->
    calculate_new_ind P n k = if Nat.eqb k 4 then 0%Z else (n + (Z.of_nat k / 3 - 1) * W + (Z.of_nat k mod 3 - 1))%Z.
  Proof.
    intros H. unfold calculate_new_ind. destruct (Nat.eqb k 4); [reflexivity|].
    unfold ravel_walk_flat. destruct (walk_steps k H) as [-> ->]. lia.
  Qed.

  Lemma new_aim ps ps' : Forall2 (fun p p' : parcel => same_rec p p' /\ (dir p' < 9)%nat) ps ps' ->
    Forall2 (fun p p' => new p' = aim P p (dir p') /\ walk p' = walk p) ps (calculate_new_inds P ps').
  Proof.
    induction 1 as [|p p' ps ps' ((E1 & E2 & E3) & Hd) HF IH]; cbn [calculate_new_inds map]; constructor; [|exact IH].
    cbn [new dir walk]. split; auto. unfold aim. rewrite aim_ok by auto. rewrite E1. reflexivity.
  Qed.

  Context (Hu : forall s, 0 < fst (draw s)).
  Lemma drawn ps s ps' s' : Forall (standing P ct) ps ->
    choose_next_directions (A:=XA) P w ps s = Ok (ps', s') -> turns_drawn P w ps (map dir ps') s s'.
  Proof.
    intros Hps E. eapply directions_drawn; eauto.
    { pose proof (wd_W _ _ _ _ _ WD). lia. }
    eapply Forall_impl; [|exact Hps]. intros p [Hp|(i & j & Hc & Hl & _)]; [auto|]. right. exists i, j. split; auto.
    destruct (HW i j (proj2 Hc) Hl) as [H1 _]. split; auto.
    pose proof (HP i j s (proj2 Hc) Hl) as H2. specialize (Hu s).
    change (RA (fun x => x)) with RX in H2. unfold cumsum in H2. cbn [fz RA RX] in H2. rewrite cumsum_last_sum in H2.
    unfold upto. change (seq 0 9) with D9. nra.
  Qed.

  Lemma step_jumps step ps q width s ps' q' width' s' : Forall (standing P ct) ps ->
    water_step (A:=XA) P w (s_stage st) (s_H_SL st) ct step (ps, q, width, s) = Ok (ps', q', width', s') ->
    Forall2 (jumps_on P step) ps ps' /\ turns_drawn P w ps (map dir ps') s s'.
  Proof.
    intros Hps E. unfold water_step in E.
    destruct (choose_spec (fun x => x) P ct w HW HG HP ps Hps s) as (psc & sc & Ec & Fc).
    destruct (step_spec (fun x => x) P ct WD w HW HG HP ps s Hps) as (ps1 & s1 & E1 & F1).
    rewrite Ec in E1. injection E1 as <- <-. rewrite Ec in E. cbn [rbind] in E.
    pose proof (drawn ps s psc sc Hps Ec) as Dc.
    assert (Fa := new_aim ps psc ltac:(eapply F2_impl; [|exact Fc]; cbn; tauto)).
    set (ps2 := calculate_new_inds P psc) in *.
    apply rbind_Ok in E as (q1 & _ & E). apply rbind_Ok in E as (q2 & _ & E).
    apply rbind_Ok in E as (ps3 & E3 & E). apply rbind_Ok in E as (pbs & E4 & E).
    destruct (step <? _)%Z; [|discriminate]. apply rbind_Ok in E as (q3 & _ & E). injection E as <- _ _ ->.
    apply mapM_inv in E4.
    assert (Hdrawn : turns_drawn P w ps (map dir (map fst pbs)) s s').
    { replace (map dir (map fst pbs)) with (map dir psc); [exact Dc|].
      assert (Q1 : map dir ps2 = map dir psc) by (subst ps2; unfold calculate_new_inds; rewrite map_map; reflexivity).
      assert (Q2 : map dir ps3 = map dir ps2).
      { pose proof (check_for_loops_dirs P _ _ _ _ _ E3) as Fd. clear -Fd. induction Fd as [|x y l l' H F IH]; cbn [map]; [auto|].
        f_equal; [apply H|apply IH]. }
      assert (Q3 : map dir (map fst pbs) = map dir ps3).
      { clear -E4. induction E4 as [|x [p' b] l l' Hr HF IH]; cbn [map]; [auto|]. f_equal; auto.
        apply record_inv in Hr. cbn. tauto. }
      congruence. }
    split; [|exact Hdrawn]. clear Hdrawn Dc. clearbody ps2. clear Fc Ec psc.
    assert (F34 : Forall2 (fun p3 p' : parcel => dir p' = dir p3 /\ new p' = new p3) ps3 (map fst pbs)).
    { clear -E4. induction E4 as [|x [p' b] l l' Hr HF IH]; cbn [map]; constructor; auto.
      apply record_inv in Hr. cbn. tauto. }
    destruct (Z_lt_le_dec (p_L0 P) step) as [Hs|Hs].
    - pose proof (jumps P ct WD (s_stage st) (s_H_SL st) step ps2 ps3 Hs) as J.
      assert (Hpre : Forall (fun p => next_ok P ct (new p) /\ (revisits P (new p) (walk p) -> new p <> W + p_CTR P)%Z) ps2).
      { eapply Forall2_Forall_r; [exact F1|]. cbn. intros p p' (_ & _ & Hm). split.
        - eapply move_next_ok; eauto.
        - intros Hr. eapply move_revisits_L0; eauto. }
      specialize (J Hpre E3). pose proof (check_for_loops_dirs P _ _ _ _ _ E3) as Fd.
      assert (F24 : Forall2 (fun p p' => dir p' = dir p /\ forall i j, revisits P (new p) (walk p) -> at_cell L W (new p) i j ->
        exists px py, jump_target P i j px py /\ new p' = (px * W + py)%Z) ps2 (map fst pbs)).
      { eapply Forall2_trans3; [exact (F2_and _ _ _ _ Fd J)|exact F34|]. cbn.
        intros x y z ((D1 & _) & HJ) (D2 & D3). split; [congruence|]. intros i j Hr Hc.
        destruct (HJ i j Hr Hc) as (px & py & J1 & J2). exists px, py. split; auto. congruence. }
      eapply Forall2_trans3; [exact Fa|exact F24|]. cbn. intros p p2 p' (A1 & A2) (B1 & B2) _ Hr i j Hc.
      rewrite B1, <- A1 in Hr, Hc. rewrite <- A2 in Hr. apply (B2 i j Hr Hc).
    - assert (Hlen : List.length ps = List.length (map fst pbs)).
      { pose proof (check_for_loops_dirs P _ _ _ _ _ E3) as Fd.
        assert (Q : forall T U (Rl : T -> U -> Prop) l l', Forall2 Rl l l' -> List.length l = List.length l') by (induction 1; cbn; congruence).
        rewrite (Q _ _ _ _ _ Fa), (Q _ _ _ _ _ Fd), (Q _ _ _ _ _ F34). reflexivity. }
      clear -Hlen Hs. revert Hlen. generalize (map fst pbs). intros l. induction ps as [|p ps IH] in l |- *; destruct l; cbn; intros H;
        try discriminate; constructor; auto. intros Hs'. lia.
  Qed.

  Lemma any_active_true ps : any_active ps = true -> Exists (fun p : parcel => cur p <> 0%Z) ps.
  Proof.
    unfold any_active. intros H. apply Z.ltb_lt in H.
    destruct (Exists_dec (fun p : parcel => cur p <> 0%Z) ps) as [E|E]; auto.
    { intros p. destruct (Z.eq_dec (cur p) 0); [right; tauto|left; auto]. }
    exfalso. apply Forall_Exists_neg in E. clear -H E.
    assert (Q : forall acc, fold_left (fun acc p => (acc + cur p)%Z) ps acc = acc).
    { induction E as [|p ps Hp HF IH]; intros acc; cbn; auto. destruct (Z.eq_dec (cur p) 0) as [->|]; [|tauto].
      rewrite IH; [lia|]. clear -H Hp. cbn in H. destruct (Z.eq_dec (cur p) 0) as [E|]; [rewrite E in H; exact H|tauto]. }
    rewrite Q in H. lia.
  Qed.

  Lemma loop_routes fuel : forall step ps q width s,
    Forall (standing P ct) ps -> (0 <= step)%Z -> (step + 1 <= width)%Z -> (step + Z.of_nat fuel = p_stepmax P)%Z ->
    exists ps' q' width' s' tr,
      water_loop (A:=XA) P w (s_stage st) (s_H_SL st) ct fuel step (ps, q, width, s) = Ok (ps', q', width', s') /\
      chain (fun x => x) P ct w (s_stage st) (s_H_SL st) step (ps, q, width, s) tr (ps', q', width', s') /\
      routes P st w step ps s tr ps' s'.
  Proof.
    induction fuel as [|fuel IH]; intros step ps q width s Hps Hst Hw Hf; cbn [water_loop].
    - exists ps, q, width, s, []. split; auto. split; [constructor|]. constructor. left. lia.
    - cbn [fst]. destruct (any_active ps) eqn:Ea.
      + assert (Hw' := width_grows P Hstep width (step + 1) ltac:(lia)).
        destruct (water_step_ok (fun x => x) P ct WD w HW HG HP HL0 HCTR (s_stage st) (s_H_SL st) (step + 1) ps q width s Hps Hw')
          as (ps1 & q1 & s1 & E & F1).
        rewrite E. cbn [rbind].
        assert (Hps1 : Forall (standing P ct) ps1).
        { eapply Forall2_Forall_r; [exact F1|]. intros x y Hr. apply Hr. }
        destruct (IH (step + 1)%Z ps1 q1 (check_size_of_indices_matrix P width (step + 1)) s1 Hps1 ltac:(lia) ltac:(lia) ltac:(lia))
          as (ps' & q' & width' & s' & tr & E' & Hch & Hr).
        exists ps', q', width', s', (ps1 :: tr). split; [exact E'|]. split; [econstructor; eauto|].
        destruct (step_jumps _ _ _ _ _ _ _ _ _ Hps E) as [Hj Hdr].
        eapply routes_on; [lia|apply any_active_true; auto|exact Hdr| |exact Hr].
        apply F2_and; [exact F1|]. exact Hj.
      + exists ps, q, width, s, []. split; auto. split; [constructor|]. constructor. right.
        apply (any_active_false P ct WD); auto.
  Qed.

  Lemma routes_steps step ps s tr ps' s' : routes P st w step ps s tr ps' s' ->
    WaterSpec.steps (fun x => x) P ct w (s_stage st) (s_H_SL st) step ps tr ps'.
  Proof.
    induction 1 as [|step ps ps1 tr ps' s s1 s' Hl He Hdr HF Hr IH]; [constructor|]. econstructor; eauto.
    eapply F2_impl; [|exact HF]. intros a b []; auto.
  Qed.
End Routes.

(** ** A turn *)
Section Turn.
  Context {S : Type} {G : Rng R S} (P : params R).
  Notation L := (p_L P).
  Notation W := (p_W P).
  Context (HG : uniform_range G) (Hu : forall s, 0 < fst (draw s)).

  Lemma run_routes (st : state R S) : water_ready P st ->
    exists w starts s0 tr ps qx qy qw width s,
      run_water_iteration (A:=XA) P st = Ok (ps, (qx, qy, qw), width, s) /\
      by_rule P st w /\
      Z.of_nat (List.length starts) = p_Np_water P /\ Forall (fun c => In c (p_inlet P)) starts /\
      entries (p_inlet P) starts (s_rng st) s0 /\ routes P st w 0 (start_parcels starts) s0 tr ps s /\
      visits P (s_cell_type st) starts tr (fun i j => qx (i * W + j)%Z) (fun i j => qy (i * W + j)%Z)
        (fun i j => qw (i * W + j)%Z).
  Proof.
    intros Hr. pose proof Hr as [WD HL0 HC Hst Hwd HNp Hg].
    destruct (weights_ready (fun x => x) P st Hr) as (w & Ew & Hcell & HW).
    destruct (get_start_indices_ok (fun x => x) (p_inlet P) (get_inlet_weights (A:=XA) (p_inlet P))
                (p_Np_water P) (s_rng st) HG) as (starts & s0 & Es & Hlen & Hin); auto.
    { unfold nonneg, get_inlet_weights. rewrite Forall_map. apply Forall_forall. intros. ra. lra. }
    { unfold get_inlet_weights. apply map_length. }
    { apply (wd_inlet_ne _ _ _ _ _ WD). }
    destruct (start_standing P st starts Hr Hin) as [Hstand _].
    pose proof (exact_picks P st w Hu Ew Hg) as HP.
    destruct (loop_routes P st WD w HW HG HP HL0 HC Hst Hu
       (Z.to_nat (p_stepmax P)) 0 (start_parcels starts)
       (fancy_add (A:=XA) (zero_flat (A:=XA)) starts (fz (Arith:=XA) 1),
           fancy_add (A:=XA) (zero_flat (A:=XA)) starts (fz (Arith:=XA) 0),
           fancy_add (A:=XA) (zero_flat (A:=XA)) starts (half_flux (A:=XA) P))
       (s_width st) s0 Hstand ltac:(lia) ltac:(lia) ltac:(lia))
      as (ps & q & width & s & tr & El & Hch & Hro).
    destruct q as [[qx qy] qw].
    exists w, starts, s0, tr, ps, qx, qy, qw, width, s. split.
    { unfold run_water_iteration. rewrite Es. cbn [rbind].
      destruct (Z.leb_spec (s_width st) 0); [lia|]. rewrite Ew. cbn [rbind]. exact El. }
    split.
    { intros i j Hij. cbn zeta.
      destruct (water_formula P (s_depth st) (s_stage st) (s_mod_water_weight st) (s_cell_type st) (s_qx st) (s_qy st) i j Hij Hg)
        as (w' & E' & H1 & _ & H3).
      rewrite Hcell in E' by auto. injection E' as <-. auto. }
    split; auto. split; auto.
    split; [eapply entries_drawn; eauto; apply (wd_inlet_ne _ _ _ _ _ WD)|]. split; auto.
    pose proof (routes_steps P st w _ _ _ _ _ _ Hro) as Hsteps.
    pose proof (chain_directions P _ _ _ _ _ _ _ _ Hch (steps_dirs _ _ _ _ _ _ _ _ _ _ Hsteps)) as HD.
    split; intros i j; destruct (HD (i * W + j)%Z) as (H1 & H2 & H3); cbn [fst snd] in H1, H2, H3;
      rewrite start_field in *; unfold half_flux in *.
    - rewrite H1. ra. lra.
    - rewrite H2. ra. lra.
    - rewrite H3. ra. lra.
  Qed.

  Lemma directed_ok vx vy vq :
    qn_scaled (A:=XA) vx vy vq = (directed vx vy vq vx, directed vx vy vq vy).
  Proof.
    unfold qn_scaled, directed. rewrite hypot_X. ra. set (r := sqrt _).
    destruct (Rltb_spec 0 r), (Rlt_dec 0 r); try lra; f_equal; lra.
  Qed.

  Lemma turn_rules it (st : state R S) : water_ready P st -> 0 <= p_dry_depth P ->
    exists st', water_iteration (A:=XA) P it st = Ok st' /\ water_turn P it st st'.
  Proof.
    intros Hr Hd. pose proof Hr as [WD HL0 HC Hst Hwd HNp Hg].
    pose proof (wd_L0 _ _ _ _ _ WD). pose proof (wd_W _ _ _ _ _ WD).
    destruct (run_routes st Hr) as (w & starts & s0 & tr & ps & qx & qy & qw & width & s & Erun & Hrule & Hlen & Hin & Hent & Hro & Hvis).
    unfold water_iteration. rewrite Erun. cbn [rbind].
    set (st1 := set_width width _).
    assert (Hus : Forall (walk_usable P) ps).
    { eapply (steps_usable (fun x => x)); eauto. eapply routes_steps; eauto. }
    destruct (surface_is_mean P st1 ps ltac:(lia) Hus) as (st2 & E2 & Hsurf). change RX with XA in E2.
    rewrite E2. cbn [rbind].
    exists (finalize_water_iteration (A:=XA) P it st2). split; [reflexivity|].
    destruct (new_stage P st1 st2 ps E2) as (levels & Hlev & Estage).
    assert (F12 : st2 = set_stage (s_stage st2) (set_sfc_visit (s_sfc_visit st2) (set_sfc_sum (s_sfc_sum st2) (set_Hnew (s_Hnew st2) st1)))).
    { unfold compute_free_surface in E2. apply rbind_Ok in E2 as ([v t] & _ & E2). inversion E2; subst. reflexivity. }
    split.
    - exists w, starts, s0, tr, ps, (fun i j => qx (i * W + j)%Z), (fun i j => qy (i * W + j)%Z), (fun i j => qw (i * W + j)%Z),
        (s_Hnew st2), levels.
      split; [exact Hrule|]. split; [exact Hlen|]. split; [exact Hent|]. split; [rewrite F12; exact Hro|]. split; [exact Hvis|].
      split; [exact Hsurf|]. split; [exact Hlev|]. split.
      + intros i j Hij. cbn -[npmax velocity_cell gmemo]. rewrite gmemo_id, npmax_R, Estage.
        rewrite flooding_formula by (auto; lia). rewrite F12. reflexivity.
      + intros first omega i j. subst first omega. rewrite F12. unfold finalize_water_iteration, update_velocity_field, update_flow_field. rewrite ?gmemo_id.
        cbn [s_qx s_qy s_qxn s_qyn s_qwn s_time_iter set_uw set_ux set_uy set_qxn set_qyn set_qx set_qy set_qw set_depth set_stage
             set_sfc_visit set_sfc_sum set_Hnew]. rewrite ?gmemo_id.
        change (s_time_iter st1) with (s_time_iter st). change (s_qx st1) with (s_qx st). change (s_qy st1) with (s_qy st).
        change (s_qxn st1) with (fun i j => qx (i * W + j)%Z). change (s_qyn st1) with (fun i j => qy (i * W + j)%Z).
        change (s_qwn st1) with (fun i j => qw (i * W + j)%Z). cbv beta. rewrite directed_ok. cbn [fst snd].
        unfold entry, relax. unfold in_inlet. ra.
        destruct ((i =? 0)%Z && existsb (fun c : Z => (c =? j)%Z) (p_inlet P)); [auto|].
        destruct (0 <? s_time_iter st)%Z; cbn [negb]; [|auto]. destruct (it =? 0)%Z; split; ring.
    - intros i j. cbn -[npmax velocity_cell gmemo]. rewrite ?gmemo_id, !npmax_R. ra. rewrite F12. reflexivity.
    - intros i j. unfold finalize_water_iteration, update_velocity_field, update_flow_field. rewrite ?gmemo_id.
      cbn [s_qx s_qy s_qw s_qxn s_qyn s_qwn s_time_iter set_uw set_ux set_uy set_qxn set_qyn set_qx set_qy set_qw set_depth set_stage].
      unfold entry, in_inlet. rewrite ?gmemo_id.
      destruct ((i =? 0)%Z && existsb (fun c : Z => (c =? j)%Z) (p_inlet P)); [reflexivity|]. rewrite hypot_X. reflexivity.
    - intros i j. unfold finalize_water_iteration. apply velocity_rule; auto.
    - rewrite F12. unfold water_frame. repeat split.
  Qed.
End Turn.

(** ** A time step *)
Section Step.
  Context {S : Type} {G : Rng R S} (P : params R).
  Context (HG : uniform_range G) (Hu : forall s, 0 < fst (draw s)) (Hd : 0 <= p_dry_depth P).

  Lemma turns_rules n : forall it (st : state R S), water_ready P st ->
    exists st', water_iterations (A:=XA) P n it st = Ok st' /\ water_turns P n it st st' /\ water_ready P st'.
  Proof.
    induction n as [|n IH]; intros it st Hr; cbn [water_iterations].
    - exists st. split; auto. split; auto. constructor.
    - destruct (turn_rules P HG Hu it st Hr Hd) as (st1 & E1 & T1).
      destruct (water_iteration_ok (fun x => x) P it st Hr HG) as (st1' & E1' & Hr1).
      { intros w Ew. apply exact_picks; auto. apply Hr. }
      rewrite E1 in E1'. injection E1' as <-. rewrite E1. cbn [rbind].
      destruct (IH (it + 1)%Z st1 Hr1) as (st' & E & T & Hr'). exists st'. split; auto. split; auto.
      econstructor; eauto.
  Qed.

  Lemma finalize_rest (st : state R S) :
    let st' := advance_clock (A:=XA) P (finalize_timestep (A:=XA) P st) in
    s_rng st' = s_rng st /\ s_uw st' = s_uw st /\ s_ux st' = s_ux st /\ s_uy st' = s_uy st /\
    s_qw st' = s_qw st /\ s_qx st' = s_qx st /\ s_qy st' = s_qy st /\ s_qs st' = s_qs st /\
    s_Vp_dep_sand st' = s_Vp_dep_sand st /\ s_Vp_dep_mud st' = s_Vp_dep_mud st.
  Proof. repeat split. Qed.

  Lemma step_rules (st st' : state R S) o : model_ready P st ->
    (0 <= p_Np_sed P)%Z -> 0 <= p_f_bedload P <= 1 -> 0 <= p_active_layer_thickness P ->
    update (A:=XA) P st = Ok (st', o) -> time_step P st st'.
  Proof.
    intros (Hw & Hs & HD) HN Hf Ht E. split.
    2: exact (update_step_end (fun x => x) P _ _ _ E).
    2: intros i j Hij; exact (update_fraction_rule P _ _ _ i j E Ht Hij).
    apply update_inv in E as (sw & sd & E1 & E2 & E3).
    set (st0 := set_eta0 (s_eta st) st) in *.
    assert (Hw0 : water_ready P st0) by (destruct Hw; constructor; auto).
    destruct (turns_rules (Z.to_nat (p_itermax P)) 0 st0 Hw0) as (sw' & E1' & T & Hwr).
    unfold route_water in E1. rewrite E1 in E1'. injection E1' as <-.
    assert (F1 : water_frame st0 sw) by (apply (route_water_frame (A:=XA) P); exact E1).
    assert (Hsw : sed_ready P sw) by (apply (sed_ready_frame P st sw); auto; apply F1).
    destruct (sediment_step_rules P sw sd Hsw HD HG Hu HN Hf E2) as (s0 & s1 & s2 & C1 & C2 & C3 & C4).
    pose proof (route_sediment_frame (A:=XA) P _ _ E2) as F2.
    apply write_output_same in E3.
    assert (Eqs : s_qs st' = s_qs (advance_clock (A:=XA) P (finalize_timestep (A:=XA) P (apply_subsidence (A:=XA) P sd)))).
    { unfold same_but_counters in E3. apply (f_equal s_qs) in E3. symmetry. exact E3. }
    assert (Erg : s_rng st' = s_rng (advance_clock (A:=XA) P (finalize_timestep (A:=XA) P (apply_subsidence (A:=XA) P sd)))).
    { unfold same_but_counters in E3. apply (f_equal s_rng) in E3. symmetry. exact E3. }
    apply same_fields in E3.
    destruct E3 as (H1 & _ & H3 & _ & H5 & H6 & H7 & H8 & H9 & H10 & _ & _ & H13 & H14 & _).
    destruct (finalize_fields (fun x => x) P (apply_subsidence (A:=XA) P sd)) as (Q1 & Q2 & _).
    destruct (finalize_rest (apply_subsidence (A:=XA) P sd)) as (R0 & R1 & R2 & R3 & R4 & R5 & R6 & R7 & R8 & R9).
    destruct (finalize_levels_spec (fun x => x) P (apply_subsidence (A:=XA) P sd)) as (_ & L2 & _).
    exists sw, s0, s1, s2, sd, (s_eta (apply_subsidence (A:=XA) P sd)).
    split; [exact T|]. split; [exact C1|]. split; [exact C2|]. split; [exact C3|]. split; [exact C4|].
    assert (Htm : s_time sd = s_time st /\ s_H_SL sd = s_H_SL st).
    { unfold water_frame in F1. unfold sed_frame in F2. cbn in F1. intuition congruence. }
    destruct Htm as [Htm Hsl]. clear T C1 C2 C3 C4 F1 F2 E1 E2.
    split; [|split; [|split]].
    - intros i j. unfold subsided, subsides, apply_subsidence. cbn [fleb RA]. rewrite Htm.
      destruct (p_toggle_subsidence P); cbn [andb]; [|split; [intros []; discriminate|auto]].
      destruct (Rleb_spec (p_start_subsidence P) (s_time st)); [|split; [intros []; lra|auto]].
      cbn. rewrite gmemo_id. split; auto. tauto.
    - intros i j Hij. rewrite H3, Q2. unfold finalize_levels. cbn [s_stage set_depth set_eta set_stage].
      rewrite gmemo_id, npmax_R. cbn [s_stage set_stage].
      pose proof (wr_domain _ _ Hw) as WD. pose proof (wd_L0 _ _ _ _ _ WD). pose proof (wd_W _ _ _ _ _ WD).
      rewrite flooding_formula by (auto; lia).
      pose proof (subsidence_fields (A:=XA) P sd) as (F3 & F4 & _). cbn zeta in F3, F4. rewrite F4.
      f_equal; [|cbn [s_H_SL set_stage]; unfold sed_frame in F3; intuition congruence].
      unfold apply_subsidence. destruct (_ && _); reflexivity.
    - intros i j Hn. rewrite H1, Q1. apply L2; auto.
    - pose proof (subsidence_fields (A:=XA) P sd) as (F3 & _ & F5 & F6 & F7 & F8 & F9 & _).
      rewrite Erg, H10, H8, H9, H7, H5, H6, Eqs, H13, H14, R0, R1, R2, R3, R4, R5, R6, R7, R8, R9.
      unfold apply_subsidence. destruct (_ && _); repeat split.
  Qed.
End Step.

(** ** Numbers of variates *)
Section Counts.
  Context {S : Type} {G : Rng R S} (P : params R).

  Lemma after_add m n (s : S) : after n (after m s) = after (m + n) s.
  Proof.
    unfold after. induction n as [|n IH]; [rewrite Nat.add_0_r; reflexivity|].
    rewrite Nat.add_succ_r. change (snd (draw (after n (after m s))) = snd (draw (after (m + n) s))).
    f_equal. f_equal. exact IH.
  Qed.
  Lemma after_S n (s : S) : after n (snd (draw s)) = after (Datatypes.S n) s.
  Proof. exact (after_add 1 n s). Qed.

  Lemma entries_count inlet l (s s' : S) : entries inlet l s s' ->
    s' = after (List.length l) s /\ Forall (fun c => In c inlet) l.
  Proof.
    induction 1 as [|k c cs s s' Hc Hn He [IH1 IH2]]; [split; [reflexivity|constructor]|].
    split; [rewrite IH1; apply after_S|]. constructor; auto. eapply nth_error_In; eauto.
  Qed.
  Lemma turns_count w ps ds (s s' : S) : turns_drawn P w ps ds s s' -> s' = after (under_way ps) s.
  Proof.
    induction 1 as [|p ps ds s s' E0 He IH|p ps k ds i j s s' E0 Hc Hk He IH]; [reflexivity| |]; rewrite IH;
      unfold under_way; cbn [filter].
    - rewrite E0. reflexivity.
    - rewrite (proj2 (Z.eqb_neq _ _) E0). cbn [negb List.length]. apply after_S.
  Qed.
  Lemma routes_count (st : state R S) w step ps s tr ps' s' : routes P st w step ps s tr ps' s' ->
    s' = after (choices ps tr) s.
  Proof.
    induction 1 as [|step ps ps1 tr ps' s s1 s' Hl He Hd HF Hr IH]; [reflexivity|]. cbn [choices].
    rewrite IH, (turns_count _ _ _ _ _ Hd). apply after_add.
  Qed.
  Lemma journey_count g (st : state R S) n i j b V s es b' V' s' : journey P g st n i j b V s es b' V' s' ->
    s' = after (List.length es) s.
  Proof.
    induction 1 as [|n i j b V e es b' V' s s' E1 E2 Hm Hne Hn Hw IH]; [reflexivity|]. cbn [List.length].
    rewrite IH. apply after_S.
  Qed.
  Lemma journeys_count g (st : state R S) starts b s hs b' Vs s' : journeys P g st starts b s hs b' Vs s' ->
    s' = after (List.length (concat hs)) s.
  Proof.
    induction 1 as [|c cs b b0 es b1 V1 hs b' Vs s s1 s' He Hj Hh IH]; [reflexivity|]. cbn [concat].
    rewrite app_length, IH, (journey_count _ _ _ _ _ _ _ _ _ _ _ _ Hj). apply after_add.
  Qed.
End Counts.

(** Some alternative is always selected. *)
Lemma chosen_exists n v u : (forall a, (a < n)%nat -> 0 <= v a) -> 0 < upto v n -> 0 < u < 1 -> exists k, chosen n v u k.
Proof.
  intros Hv Hs Hu.
  assert (Q : forall m, (m <= n)%nat -> u * upto v n <= upto v m -> exists k, chosen n v u k).
  { induction m as [|m IH]; intros Hm H; [exfalso; unfold upto in H at 2; cbn in H; nra|].
    destruct (Rlt_dec (upto v m) (u * upto v n)) as [C|C].
    - exists m. split; [lia|]. split; auto.
    - apply IH; [lia|]. lra. }
  apply (Q n); [lia|]. nra.
Qed.
