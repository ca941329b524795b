(** Mirror images: the routing of all water parcels (C72). *)
From Coq Require Import ZArith List Bool Reals Lra Lia.
From Flocq Require Import Core.
From Verif Require Import Base RLemmas Shared SharedSpec SharedProofs Params State Water VecLemmas
  WaterSpec WeightProofs WalkProofs RunProofs ChanceSpec ChanceProofs StepProofs MirrorSpec MirrorProofs MirrorWalk.
Import ListNotations.
Local Open Scope Z_scope.

Lemma mirror_image_back {T} L W (g g' : grid T) i j : mirror_image L W g g' -> inb L W i j ->
  g' i j = g i (flip W j).
Proof. intros H Hi. rewrite <- (H i (flip W j)) by (apply flip_inb; auto). rewrite flip_flip. reflexivity. Qed.

Lemma at_nb_back {T} L W (g g' : grid T) i j k : inb L W i j -> (k < 9)%nat -> mirror_image L W g g' ->
  at_nb L W g' i j k = at_nb L W g i (flip W j) (flip_dir k).
Proof.
  intros Hi Hk H. rewrite <- (at_nb_mir L W g g' i (flip W j)); auto using fd_lt; try (destruct Hi; lia).
  rewrite fd_fd, flip_flip by auto. reflexivity.
Qed.

(** The mirror image of a domain fit for routing is fit for routing. *)
Lemma domain_mir L W L0 ct ct' inlet : walk_domain L W L0 ct inlet -> mirror_image L W ct ct' ->
  walk_domain L W L0 ct' (rev (map (flip W) inlet)).
Proof.
  intros WD H. pose proof WD as [A1 A2 A3 A4 A5 A6 A7]. constructor; auto.
  - intros i j Hi. rewrite (mirror_image_back _ _ _ _ _ _ H Hi). intros Hl He.
    apply A3 in Hl; auto using flip_inb. unfold flip in *. lia.
  - intros j Hj. rewrite (mirror_image_back _ _ _ _ _ _ H) by (split; lia). apply A4. unfold flip. lia.
  - intros i j Hi. rewrite (mirror_image_back _ _ _ _ _ _ H Hi). apply A5. apply flip_inb; auto.
  - intros c Hc. apply in_rev in Hc. apply in_map_iff in Hc as (c0 & <- & Hc).
    destruct (A6 c0 Hc) as (Hr & Hl & He). split; [unfold flip; lia|].
    rewrite (H 0 c0) by (split; lia). auto.
  - intros E. apply (f_equal (@rev Z)) in E. rewrite rev_involutive in E. destruct inlet; [auto|discriminate].
Qed.

Lemma water_ready_mir {S S'} (P : params R) (st : state R S) (st' : state R S') :
  water_ready P st -> mirror_state P st st' -> water_ready (mirror_params P) st'.
Proof.
  intros [] H. constructor; cbn [p_L p_W p_L0 p_CTR p_stepmax p_Np_water p_gamma p_inlet mirror_params]; auto.
  - apply (domain_mir _ _ _ (s_cell_type st)); auto. apply H.
  - unfold flip. lia.
  - rewrite (mi_width _ _ _ H). auto.
Qed.

Section Loop.
  Context {S : Type} {G : Rng R S} (P : params R).
  Notation L := (p_L P).
  Notation W := (p_W P).
  Notation P' := (mirror_params P).
  Context (ct ct' : grid Z).
  Context (WD : walk_domain L W (p_L0 P) ct (p_inlet P)).
  Context (Hct : mirror_image L W ct ct') (Hc0 : ct 0 0 = LAND) (Hc1 : ct 0 (W - 1) = LAND).
  Context (w w' : Z -> Z -> vec R).
  Context (HW : forall i j, inb L W i j -> ct i j <> LAND ->
     (forall k, (k < 9)%nat -> (0 <= w i j k)%R) /\
     (forall k, (k < 9)%nat -> at_nb L W ct i j k = LAND -> w i j k = 0%R)).
  Context (HG : uniform_range G).
  Context (HP : forall i j s, inb L W i j -> ct i j <> LAND ->
     (0 < last (cumsum (A:=XA) (map (w i j) D9)) 0 * fst (draw s))%R).
  Context (Hw' : forall i j, inb L W i j -> vmir (w i j) (w' i (flip W j))).
  Context (HL0 : 2 <= p_L0 P) (HCTR : 0 <= p_CTR P < W) (Hstep : 4 <= p_stepmax P).
  Context (stage stage' : grid R) (H_SL : R) (Hstage : mirror_image L W stage stage').
  Notation standing := (WaterSpec.standing P ct).
  Notation ixm := (ixm P).
  Notation pmir := (pmir P).
  Notation q3mir := (q3mir P).

  Let HW1 : 1 <= W. Proof. pose proof (wd_W _ _ _ _ _ WD). lia. Qed.

  Lemma active_count ps : Forall (fun p => 0 <= cur p) ps ->
    any_active ps = existsb (fun p => 0 <? cur p) ps.
  Proof.
    unfold any_active. intros H.
    assert (Q : forall acc, 0 <= acc -> (0 <? fold_left (fun acc p => acc + cur p) ps acc) =
        (0 <? acc) || existsb (fun p => 0 <? cur p) ps).
    { induction H as [|p ps Hp HF IH]; intros acc Ha; cbn [fold_left existsb].
      - rewrite orb_false_r. reflexivity.
      - rewrite IH by lia. rewrite orb_assoc. f_equal.
        destruct (Z.ltb_spec 0 (acc + cur p)), (Z.ltb_spec 0 acc), (Z.ltb_spec 0 (cur p)); auto; lia. }
    rewrite (Q 0) by lia. reflexivity.
  Qed.

  Lemma active_mir ps ps' : Forall2 pmir ps ps' -> Forall standing ps -> any_active ps' = any_active ps.
  Proof.
    intros HF Hs.
    assert (H1 : Forall (fun p => 0 <= cur p) ps).
    { eapply Forall_impl; [|exact Hs]. intros p [Hp|Hp]; [lia|]. apply (active_pos P ct WD) in Hp. lia. }
    rewrite (active_count ps) by auto. rewrite active_count.
    - clear Hs H1. induction HF as [|p p' ps ps' Hp HF IH]; cbn [existsb]; auto.
      rewrite (ixm_pos P HW1 _ _ (pm_cur _ _ _ Hp)), IH. reflexivity.
    - clear Hs. induction HF as [|p p' ps ps' Hp HF IH]; constructor; inversion H1; subst; auto.
      destruct (pm_cur _ _ _ Hp) as [[_ ->]|(_ & _ & ->)]; [lia|]. pose proof (proj1 (flip_ix_ge P HW1 0 (cur p))). lia.
  Qed.

  Lemma water_loop_mir fuel : forall step ps ps' q q' width s ps1 q1 width1 s1,
    Forall2 pmir ps ps' -> Forall standing ps -> q3mir q q' -> 0 <= step -> step + 1 <= width ->
    water_loop (A:=XA) P w stage H_SL ct fuel step (ps, q, width, s) = Ok (ps1, q1, width1, s1) ->
    exists us ps1' q1', variates us /\ Forall2 pmir ps1 ps1' /\ q3mir q1 q1' /\
      forall rest, water_loop (A:=XA) (G:=tape) P' w' stage' H_SL ct' fuel step (ps', q', width, us ++ rest)
        = Ok (ps1', q1', width1, rest).
  Proof.
    induction fuel as [|fuel IH]; intros step ps ps' q q' width s ps1 q1 width1 s1 HF Hs Hq Hst Hw E; cbn [water_loop] in *.
    - injection E as <- <- <- <-. exists [], ps', q'. split; [constructor|]. auto.
    - cbn [fst] in *. rewrite (active_mir _ _ HF Hs). destruct (any_active ps).
      + apply rbind_Ok in E as ([[[ps2 q2] width2] s2] & E1 & E2).
        destruct (water_step_mir P ct ct' WD Hct Hc0 Hc1 w w' HW HG HP Hw' HL0 HCTR stage stage' H_SL Hstage
          (step + 1) ps ps' q q' width s ps2 q2 width2 s2 HF Hs Hq E1) as (us1 & ps2' & q2' & Hu1 & HF2 & Hq2 & E1').
        pose proof (width_grows P Hstep width (step + 1) ltac:(lia)) as Hg.
        destruct (water_step_ok (fun x => x) P ct WD w HW HG HP HL0 HCTR stage H_SL (step + 1) ps q width s Hs Hg)
          as (psx & qx & sx & Ex & Fx).
        change (RA (fun x => x)) with XA in Ex. rewrite E1 in Ex. injection Ex as -> -> -> ->.
        assert (Hs2 : Forall standing psx).
        { eapply Forall2_Forall_r; [exact Fx|]. intros x y Hr. apply Hr. }
        pose proof (width_mono P Hstep width (step + 1)).
        destruct (IH (step + 1) psx ps2' qx q2' (check_size_of_indices_matrix P width (step + 1)) sx ps1 q1 width1 s1 HF2 Hs2 Hq2 ltac:(lia) ltac:(lia) E2)
          as (us2 & ps1' & q1' & Hu2 & HF1 & Hq1 & E2').
        exists (us1 ++ us2), ps1', q1'. split; [apply Forall_app; auto|]. split; auto. split; auto.
        intros rest. rewrite <- app_assoc, E1'. cbn [rbind]. apply E2'.
      + injection E as <- <- <- <-. exists [], ps', q'. split; [constructor|]. auto.
  Qed.
End Loop.

(** ** A turn of routing *)
Section Turn.
  Context {S : Type} {G : Rng R S} (P : params R).
  Notation L := (p_L P).
  Notation W := (p_W P).
  Notation P' := (mirror_params P).
  Context (HG : uniform_range G) (Hu : forall s, (0 < fst (draw s))%R).

  Lemma starts_q x starts : Forall (fun c => 0 <= c < W) starts -> 1 <= W ->
    qmir P 1 (fancy_add (A:=XA) (zero_flat (A:=XA)) starts x)
             (fancy_add (A:=XA) (zero_flat (A:=XA)) (map (flip W) starts) x).
  Proof.
    intros HF HW1 n Hn. unfold fancy_add, zero_flat.
    replace (existsb (fun m => m =? flip_ix P n) (map (flip W) starts)) with (existsb (fun m => m =? n) starts).
    { destruct (existsb _ starts); ra; ring. }
    clear x. induction HF as [|c starts Hc HF IH]; cbn [existsb map]; auto. rewrite IH. f_equal.
    replace (flip W c) with (flip_ix P c).
    - rewrite flip_ix_eqb by auto. reflexivity.
    - pose proof (flip_ix_cell P HW1 0 c Hc) as E. exact E.
  Qed.

  Lemma run_mir (st : state R S) (st' : state R (list R)) ps qx qy qw width s :
    water_ready P st -> mirror_state P st st' -> corners_land P st ->
    run_water_iteration (A:=XA) P st = Ok (ps, (qx, qy, qw), width, s) ->
    exists us ps' qx' qy' qw', variates us /\ Forall2 (pmir P) ps ps' /\
      qmir P 1 qx qx' /\ qmir P (-1) qy qy' /\ qmir P 1 qw qw' /\
      forall rest, run_water_iteration (A:=XA) (G:=tape) P' (set_rng (us ++ rest) st') = Ok (ps', (qx', qy', qw'), width, rest).
  Proof.
    intros Hr Hm [Hc0 Hc1] E. pose proof Hr as [WD HL0 HC Hst Hwd HNp Hg].
    pose proof (wd_W _ _ _ _ _ WD) as HWW.
    destruct (weights_ready (fun x => x) P st Hr) as (w & Ew & Hcell & HW).
    pose proof (water_ready_mir P st st' Hr Hm) as Hr'.
    destruct (weights_ready (fun x => x) P' st' Hr') as (w' & Ew' & Hcell' & _).
    unfold run_water_iteration in E. apply rbind_Ok in E as ([starts s0] & Es & E).
    destruct (Z.leb_spec (s_width st) 0); [discriminate|]. change XA with (RA (fun x => x)) in E. rewrite Ew in E. cbn [rbind] in E.
    destruct (starts_mir W (p_inlet P) (p_Np_water P) (s_rng st) starts s0 HG Hu (wd_inlet_ne _ _ _ _ _ WD) Es)
      as (us1 & Hus1 & Es').
    assert (Hin : Forall (fun c => In c (p_inlet P)) starts).
    { destruct (get_start_indices_ok (fun x => x) (p_inlet P) (get_inlet_weights (A:=XA) (p_inlet P))
                (p_Np_water P) (s_rng st) HG) as (starts' & s0' & Esx & Hlen & Hin); auto.
      { unfold nonneg, get_inlet_weights. rewrite Forall_map. apply Forall_forall. intros. ra. lra. }
      { unfold get_inlet_weights. apply map_length. }
      { apply (wd_inlet_ne _ _ _ _ _ WD). }
      change (RA (fun x => x)) with XA in Esx. rewrite Es in Esx. injection Esx as <- <-. auto. }
    assert (Hcol : Forall (fun c => 0 <= c < W /\ c <> 0 /\ c <> W - 1) starts).
    { eapply Forall_impl; [|exact Hin]. intros c Hc. destruct (wd_inlet _ _ _ _ _ WD c Hc) as (Hr0 & Hl & _).
      split; auto. split; intros ->; contradiction. }
    destruct (start_standing P st starts Hr Hin) as [Hstand _].
    pose proof (exact_picks P st w Hu Ew Hg) as HP.
    assert (Hww : forall i j, inb L W i j -> vmir (w i j) (w' i (flip W j))).
    { intros i j Hij. pose proof (water_cell_mir P (s_depth st) (s_depth st') (s_stage st) (s_stage st')
        (s_mod_water_weight st) (s_mod_water_weight st') (s_cell_type st) (s_cell_type st') (s_qx st) (s_qx st')
        (s_qy st) (s_qy st') i j (mi_depth _ _ _ Hm) (mi_stage _ _ _ Hm) (mi_mod_water_weight _ _ _ Hm) (mi_cell_type _ _ _ Hm)
        (mi_qx _ _ _ Hm) (mi_qy _ _ _ Hm) Hij) as Q.
      rewrite (Hcell i j Hij), (Hcell' i (flip W j)) in Q by (apply flip_inb; auto). exact Q. }
    assert (HFs : Forall2 (pmir P) (start_parcels starts) (start_parcels (map (flip W) starts))).
    { clear - Hcol HWW. unfold start_parcels. induction Hcol as [|c starts (Hc & H0 & H1) HF IH]; cbn [map]; constructor; auto.
      assert (Hix : ixm P c (flip W c)).
      { right. split; auto. split; auto. symmetry. apply (flip_ix_cell P ltac:(lia) 0 c Hc). }
      constructor; cbn [cur walk fflag dir new looped]; auto. left; auto. }
    assert (Hcol1 : Forall (fun c => 0 <= c < W) starts) by (eapply Forall_impl; [|exact Hcol]; tauto).
    destruct (water_loop_mir P (s_cell_type st) (s_cell_type st') WD (mi_cell_type _ _ _ Hm) Hc0 Hc1 w w' HW HG HP Hww
      HL0 HC Hst (s_stage st) (s_stage st') (s_H_SL st) (mi_stage _ _ _ Hm) (Z.to_nat (p_stepmax P)) 0
      (start_parcels starts) (start_parcels (map (flip W) starts))
      (fancy_add (A:=XA) (zero_flat (A:=XA)) starts (fz (Arith:=XA) 1),
           fancy_add (A:=XA) (zero_flat (A:=XA)) starts (fz (Arith:=XA) 0),
           fancy_add (A:=XA) (zero_flat (A:=XA)) starts (half_flux (A:=XA) P))
      (fancy_add (A:=XA) (zero_flat (A:=XA)) (map (flip W) starts) (fz (Arith:=XA) 1),
           fancy_add (A:=XA) (zero_flat (A:=XA)) (map (flip W) starts) (fz (Arith:=XA) 0),
           fancy_add (A:=XA) (zero_flat (A:=XA)) (map (flip W) starts) (half_flux (A:=XA) P))
      (s_width st) s0 ps (qx, qy, qw) width s HFs Hstand) as (us2 & ps' & [[qx' qy'] qw'] & Hus2 & HF & (Qx & Qy & Qw) & El); auto; try lia.
    { split; [|split]; cbn [fst snd]; try (apply starts_q; auto; lia).
      intros n Hn. rewrite (starts_q (fz (Arith:=XA) 0) starts Hcol1 ltac:(lia) n Hn). unfold fancy_add, zero_flat. ra.
      destruct (existsb _ _); ring. }
    cbn [fst snd] in *.
    exists (us1 ++ us2), ps', qx', qy', qw'. split; [apply Forall_app; auto|]. do 4 (split; auto).
    intros rest. unfold run_water_iteration.
    cbn [s_rng s_width s_depth s_stage s_mod_water_weight s_cell_type s_qx s_qy s_H_SL set_rng p_inlet p_Np_water p_stepmax mirror_params].
    rewrite <- app_assoc, Es'. cbn [rbind]. rewrite (mi_width _ _ _ Hm).
    destruct (Z.leb_spec (s_width st) 0); [lia|]. change (RA (fun x => x)) with XA in Ew'. rewrite Ew'. cbn [rbind].
    rewrite (mi_H_SL _ _ _ Hm). exact (El rest).
  Qed.
End Turn.
