(** Flow fields and whole water iterations: proofs for C15-C18. *)
From Coq Require Import ZArith List Bool Reals Lra Lia.
From Verif Require Import Base RLemmas Shared SharedSpec SharedProofs Params State Water
  VecLemmas WaterSpec WeightProofs WalkProofs RunProofs SurfaceProofs.
Import ListNotations.
Local Open Scope R_scope.

(** ** Value given by the flooding correction at an interior cell (exact) *)

Section FloodValue.
  Context (P : params R).
  Notation L := (p_L P).
  Notation W := (p_W P).
  Notation XA := (RA (fun x => x)).

  Lemma fold_fmax_In (l : list R) : forall acc,
    fold_left (fmax (A:=XA)) l acc = acc \/ In (fold_left (fmax (A:=XA)) l acc) l.
  Proof.
    induction l as [|y l IH]; intros acc; cbn [fold_left]; auto.
    destruct (IH (fmax (A:=XA) acc y)) as [E|E]; [|right; cbn; auto].
    rewrite E, fmax_R. unfold Rmax. destruct (Rle_dec acc y); cbn; auto.
  Qed.

  Local Notation interior := (WaterSpec.interior P).
  Lemma fix_edges_interior {T} (pl : nat -> grid T) n i j : interior i j ->
    fix_edges P pl n i j = pl n i j.
  Proof.
    intros [Hi Hj].
    do 8 (destruct n as [|n]; [unfold fix_edges, copy_col, copy_row;
      repeat match goal with |- context [if (?x =? ?y)%Z then _ else _] =>
        destruct (Z.eqb_spec x y); try lia end; reflexivity|]).
    reflexivity.
  Qed.

  Lemma shift_interior {T} (d : T) a n i j : interior i j -> (n < 8)%nat ->
    shift_plane P d a n i j = a (i + nb_di n)%Z (j + nb_dj n)%Z /\
    inb L W (i + nb_di n) (j + nb_dj n).
  Proof.
    intros [Hi Hj] Hn.
    assert (Hin : inb L W (i + nb_di n) (j + nb_dj n)).
    { do 8 (destruct n as [|n]; [cbn; unfold inb; lia|]). lia. }
    split; auto. unfold shift_plane. apply inbb_spec in Hin. rewrite Hin. reflexivity.
  Qed.

  Lemma nb_D8 n : (n < 8)%nat -> (Z.abs (nb_di n) <= 1 /\ Z.abs (nb_dj n) <= 1)%Z
    /\ (nb_di n, nb_dj n) <> (0, 0)%Z.
  Proof. intros H. do 8 (destruct n as [|n]; [cbn; split; [lia|congruence]|]). lia. Qed.

  Lemma nb_D8_all di dj : (Z.abs di <= 1)%Z -> (Z.abs dj <= 1)%Z -> (di, dj) <> (0, 0)%Z ->
    exists n, (n < 8)%nat /\ nb_di n = di /\ nb_dj n = dj.
  Proof.
    intros H1 H2 H3.
    assert (Hd : (di = -1 \/ di = 0 \/ di = 1)%Z) by lia.
    assert (He : (dj = -1 \/ dj = 0 \/ dj = 1)%Z) by lia.
    decompose [or] Hd; decompose [or] He; subst; try congruence;
      [exists 3%nat|exists 2%nat|exists 1%nat|exists 4%nat|exists 0%nat|exists 5%nat|exists 6%nat|exists 7%nat];
      (split; [lia|split; reflexivity]).
  Qed.

  Lemma cand_interior depth stage i j : interior i j ->
    cands (fun x => x) P depth stage i j
    = map (fun n => if Rltb (p_dry_depth P) (depth (i + nb_di n)%Z (j + nb_dj n)%Z)
                    then stage (i + nb_di n)%Z (j + nb_dj n)%Z else 0) D8.
  Proof.
    intros Hint. unfold cands. apply map_ext_in. intros n Hn. apply in_seq in Hn.
    rewrite fix_edges_interior by auto.
    destruct (shift_interior false (fun a b => fltb (Arith:=XA) (p_dry_depth P) (depth a b)) n i j Hint ltac:(lia)) as [-> _].
    destruct (shift_interior (fz (Arith:=XA) 0) stage n i j Hint ltac:(lia)) as [-> _].
    ra. destruct (Rltb _ _); lra.
  Qed.

  Lemma flooding_value depth eta stage i j : interior i j ->
    let s' := flooding_correction (A:=XA) P depth eta stage i j in
    s' <> stage i j ->
    (forall a b, neighbour i j a b -> wet P depth a b -> stage a b <= s') /\
    ((exists a b, neighbour i j a b /\ wet P depth a b /\ s' = stage a b) \/
     (s' = 0 /\ exists a b, neighbour i j a b /\ ~ wet P depth a b)).
  Proof.
    intros Hint s'. unfold s'. rewrite flooding_closed.
    destruct (inbb L W i j); [|intros Hx; exfalso; apply Hx; reflexivity].
    destruct (is_shore _ _ depth (i, j)); cbn [andb]; [|intros Hx; exfalso; apply Hx; reflexivity].
    unfold flood_value.
    destruct (existsb (fun x => Rltb (eta i j) x) _) eqn:Ex; [|congruence]. intros _.
    set (c := cands (fun x => x) P depth stage i j).
    assert (Hc : c = map (fun n => if Rltb (p_dry_depth P) (depth (i + nb_di n)%Z (j + nb_dj n)%Z)
                    then stage (i + nb_di n)%Z (j + nb_dj n)%Z else 0) D8) by (apply cand_interior; auto).
    set (v := fold_left _ _ _).
    assert (Hv : In v c).
    { unfold v. destruct c as [|y l] eqn:E; [rewrite Hc in E; discriminate|]. cbn [hd tl].
      destruct (fold_fmax_In l y) as [E'|E']; [left; auto|right; auto]. }
    assert (Hge : forall x, In x c -> x <= v).
    { intros x Hx. unfold v. destruct c as [|y l]; [contradiction|]. cbn [hd tl].
      apply (fold_fmax_ge (fun x => x)). destruct Hx as [->|Hx]; auto. left; lra. }
    split.
    - intros a b [[Ha Hb] Hne] Hw. apply Hge. rewrite Hc. apply in_map_iff.
      destruct (nb_D8_all (a - i) (b - j)) as (n & Hn & E1 & E2); auto.
      { intros E. inversion E. apply Hne. f_equal; lia. }
      exists n. rewrite E1, E2. replace (i + (a - i))%Z with a by lia.
      replace (j + (b - j))%Z with b by lia.
      apply Rltb_true in Hw. rewrite Hw. split; auto. apply in_seq. lia.
    - rewrite Hc in Hv. apply in_map_iff in Hv as (n & En & Hn). apply in_seq in Hn.
      destruct (nb_D8 n ltac:(lia)) as [Hd Hz].
      assert (Hnb : neighbour i j (i + nb_di n) (j + nb_dj n)).
      { split; [lia|]. intros E. inversion E. apply Hz. f_equal; lia. }
      destruct (Rltb_spec (p_dry_depth P) (depth (i + nb_di n)%Z (j + nb_dj n)%Z)) as [Hw|Hw].
      + left. eexists _, _. split; [exact Hnb|]. split; [exact Hw|]. auto.
      + right. split; auto. eexists _, _. split; [exact Hnb|]. exact Hw.
  Qed.
End FloodValue.

(** ** Velocity and discharge (C17, C18) *)

Section Velocity.
  Lemma velocity_bounds rnd {HR : Rounding rnd} dry um depth qw qx qy : 0 <= um -> 0 <= dry ->
    let uw := fst (fst (velocity_cell (A:=RA rnd) dry um depth qw qx qy)) in 0 <= uw <= um.
  Proof.
    intros Hum Hdry. unfold velocity_cell. ra. rewrite !rnd_0.
    destruct (Rltb_spec dry depth); cbn [andb]; [|cbn; lra].
    destruct (Rltb_spec 0 qw); cbn [fst]; [|lra].
    rewrite npmin_R. split; [|apply Rmin_l].
    apply Rmin_glb; auto. apply rnd_nonneg; auto. apply Rdiv_nonneg; lra.
  Qed.

  Lemma velocity_dry rnd {HR : Rounding rnd} dry um depth qw qx qy : depth <= dry ->
    velocity_cell (A:=RA rnd) dry um depth qw qx qy = (0, 0, 0).
  Proof.
    intros H. unfold velocity_cell. ra. rewrite !rnd_0.
    destruct (Rltb_spec dry depth); [lra|]. reflexivity.
  Qed.

  Lemma velocity_exact dry um depth qw qx qy : 0 <= um -> 0 <= dry -> 0 <= depth -> 0 <= qw ->
    qx * qx + qy * qy = qw * qw ->
    let '(uw, ux, uy) := velocity_cell (A:=RA (fun x => x)) dry um depth qw qx qy in
    uw * depth <= qw /\ ux * ux + uy * uy = uw * uw /\
    (exists c, 0 <= c /\ ux = c * qx /\ uy = c * qy).
  Proof.
    intros Hum Hdry Hd Hq Hn. unfold velocity_cell. ra.
    destruct (Rltb_spec dry depth) as [Hw|Hw]; cbn [andb];
      [destruct (Rltb_spec 0 qw) as [Hq0|Hq0]|].
    - rewrite npmin_R. set (u := Rmin um (qw / depth)).
      assert (Hu : 0 <= u).
      { apply Rmin_glb; auto. apply Rdiv_nonneg; lra. }
      split; [|split].
      + apply Rle_trans with (qw / depth * depth).
        * apply Rmult_le_compat_r; [lra|apply Rmin_r].
        * right. field. lra.
      + replace (u * qx / qw * (u * qx / qw) + u * qy / qw * (u * qy / qw))
          with (u * u * ((qx * qx + qy * qy) / (qw * qw))) by (field; lra).
        rewrite Hn. field. lra.
      + exists (u / qw). split; [apply Rdiv_nonneg; lra|]. split; field; lra.
    - repeat split; try lra. exists 0. lra.
    - repeat split; try lra. exists 0. lra.
  Qed.

  Lemma hypot_X a b : hypot (A:=RA (fun x => x)) a b = sqrt (a * a + b * b).
  Proof. reflexivity. Qed.
  Lemma hypot_sq a b : let h := hypot (A:=RA (fun x => x)) a b in
    0 <= h /\ a * a + b * b = h * h.
  Proof.
    cbn zeta. rewrite hypot_X. split; [apply sqrt_pos|]. rewrite sqrt_sqrt; auto. nra.
  Qed.

  (** The parcel field scaled so that its magnitude is the parcel discharge. *)
  Lemma qn_scaled_spec qxn qyn qwn : 0 <= qwn ->
    let '(nx, ny) := qn_scaled (A:=RA (fun x => x)) qxn qyn qwn in
    (exists c, 0 <= c /\ nx = c * qxn /\ ny = c * qyn) /\
    ((qxn, qyn) <> (0, 0) -> nx * nx + ny * ny = qwn * qwn) /\
    ((qxn, qyn) = (0, 0) -> nx = 0 /\ ny = 0).
  Proof.
    intros Hq. unfold qn_scaled. destruct (hypot_sq qxn qyn) as [Hh Hs]. cbn zeta in *.
    set (h := hypot (A:=RA (fun x => x)) qxn qyn) in *. ra.
    destruct (Rltb_spec 0 h) as [Hp|Hp].
    - split; [exists (qwn / h); split; [apply Rdiv_nonneg; lra|split; lra]|]. split.
      + intros _. replace (qxn * (qwn / h) * (qxn * (qwn / h)) + qyn * (qwn / h) * (qyn * (qwn / h)))
          with (qwn * qwn * ((qxn * qxn + qyn * qyn) / (h * h))) by (field; lra).
        rewrite Hs. field. lra.
      + intros E. inversion E; subst. lra.
    - split; [exists 1; lra|]. split.
      + intros Hne. exfalso. apply Hne. assert (h = 0) by lra. rewrite H in Hs.
        assert (qxn = 0) by nra. assert (qyn = 0) by nra. congruence.
      + intros E. inversion E; subst. lra.
  Qed.
End Velocity.

(** ** A whole water iteration *)

Section Iter.
  Context (rnd : R -> R) {HR : Rounding rnd}.
  Notation A := (RA rnd).
  Context {S : Type} {G : Rng R S}.
  Context (P : params R).
  Notation L := (p_L P).
  Notation W := (p_W P).

  Local Notation water_levels := (WaterSpec.water_levels rnd).
  Local Notation speed_ok := (WaterSpec.speed_ok P).

  Lemma finalize_post it (st : state R S) : 0 <= p_u_max P -> 0 <= p_dry_depth P ->
    let st' := finalize_water_iteration (A:=A) P it st in
    water_levels st' /\ speed_ok st' /\ water_frame st st'.
  Proof.
    intros Hum Hdry st'. subst st'. split; [|split].
    - intros i j. cbn -[npmax velocity_cell gmemo]. rewrite !gmemo_id, !npmax_R. ra. rewrite rnd_0. split; [apply Rmax_r|reflexivity].
    - intros i j. cbn -[npmax velocity_cell gmemo]. rewrite !gmemo_id. split.
      + apply velocity_bounds; auto.
      + intros Hd. rewrite velocity_dry by auto. auto.
    - repeat split.
  Qed.

  Lemma water_iteration_post it (st st' : state R S) : 0 <= p_u_max P -> 0 <= p_dry_depth P ->
    water_iteration (A:=A) P it st = Ok st' ->
    water_levels st' /\ speed_ok st' /\ water_frame st st'.
  Proof.
    intros Hum Hdry E. unfold water_iteration in E.
    apply rbind_Ok in E as ([[[ps [[qx qy] qw]] wd] s] & _ & E).
    apply rbind_Ok in E as (st1 & E1 & E). inversion E; subst; clear E.
    destruct (finalize_post it st1 Hum Hdry) as (H1 & H2 & H3). split; auto. split; auto.
    unfold compute_free_surface in E1. apply rbind_Ok in E1 as ([v t] & _ & E1).
    inversion E1; subst; clear E1. unfold water_frame in *. cbn in *. tauto.
  Qed.

  Lemma water_frame_refl (st : state R S) : water_frame st st.
  Proof. repeat split. Qed.
  Lemma water_frame_trans (a b c : state R S) : water_frame a b -> water_frame b c -> water_frame a c.
  Proof. unfold water_frame. intuition congruence. Qed.

  Lemma route_water_post (st st' : state R S) : 0 <= p_u_max P -> 0 <= p_dry_depth P -> (1 <= p_itermax P)%Z ->
    route_water (A:=A) P st = Ok st' ->
    water_levels st' /\ speed_ok st' /\ water_frame st st'.
  Proof.
    intros Hum Hdry Hit. unfold route_water.
    destruct (Z.to_nat (p_itermax P)) as [|n] eqn:En; [lia|]. clear En Hit.
    generalize 0%Z. revert st. induction n as [|n IH]; intros st it E.
    - cbn [water_iterations] in E. apply rbind_Ok in E as (st1 & E1 & E). inversion E; subst.
      eapply water_iteration_post; eauto.
    - cbn [water_iterations] in E. apply rbind_Ok in E as (st1 & E1 & E).
      apply IH in E as (H1 & H2 & H3). split; auto. split; auto.
      eapply water_frame_trans; eauto. eapply water_iteration_post; eauto.
  Qed.

  (** The parcels of a routed iteration give usable paths. *)
  Lemma steps_usable (st : state R S) w stage H_SL starts tr ps : water_ready P st ->
    Forall (fun c => In c (p_inlet P)) starts ->
    steps rnd P (s_cell_type st) w stage H_SL 0 (start_parcels starts) tr ps ->
    Forall (walk_usable P) ps.
  Proof.
    intros Hr Hin Hs. apply steps_walk in Hs. pose proof (start_standing P st starts Hr Hin) as [_ Hst].
    pose proof Hr as [WD _ _ _ _ _ _].
    remember (start_parcels starts) as ps0 eqn:E0. revert starts Hin Hst E0.
    induction Hs as [|p p' l l' (_ & ext & Ew & Hext) HF IH]; intros starts Hin Hst E0; constructor.
    - destruct starts as [|n starts]; [discriminate|]. unfold start_parcels in E0. cbn in E0.
      inversion E0; subst p l. cbn [walk] in Ew. inversion Hst as [|? ? Hn _]; subst.
      unfold walk_usable. rewrite Ew. split.
      + apply Forall_app. split; [|constructor; [lia|constructor]].
        eapply Forall_impl; [|exact Hext]. intros m Hm Hpos.
        destruct Hm as [->|[(i & j & Hc & _)|Hneg]]; [lia| |lia].
        apply at_cell_range in Hc. lia.
      + apply Exists_app. right. constructor. lia.
    - destruct starts as [|n starts]; [discriminate|]. unfold start_parcels in E0. cbn in E0.
      inversion E0; subst. inversion Hin; inversion Hst; subst. eapply IH; eauto.
  Qed.

  (** Water routing never raises an exception. *)
  Lemma water_iteration_ok it (st : state R S) : water_ready P st -> uniform_range G ->
    (forall w, get_water_weight_array (A:=A) P (s_depth st) (s_stage st)
       (s_mod_water_weight st) (s_cell_type st) (s_qx st) (s_qy st) = Ok w -> positive_picks rnd P st w) ->
    exists st', water_iteration (A:=A) P it st = Ok st' /\ water_ready P st'.
  Proof.
    intros Hr HG HPP.
    destruct (run_ok rnd P st Hr HG HPP)
      as (w & starts & s0 & tr & ps & q & width & s & Ew & Es & Hlen & Hin & Erun & Hch & Hst & H1 & H2 & H3).
    destruct q as [[qx qy] qw]. unfold water_iteration. rewrite Erun. cbn [rbind].
    set (st1 := set_width _ _).
    assert (Hu : Forall (walk_usable P) ps) by (eapply steps_usable; eauto).
    assert (HW1 : (1 <= W)%Z).
    { destruct Hr as [WD _ _ _ _ _ _]. pose proof (wd_W _ _ _ _ _ WD). lia. }
    destruct (compute_surface_ok rnd P HW1 st1 ps Hu) as (st2 & E2 & _). rewrite E2. cbn [rbind].
    eexists. split; [reflexivity|].
    pose proof Hr as [WD HL0 HC Hs Hw HN Hg].
    unfold compute_free_surface in E2. apply rbind_Ok in E2 as ([v t] & _ & E2). inversion E2; subst st2.
    constructor; cbn; auto. lia.
  Qed.
End Iter.

Lemma route_water_ok {S} {G : Rng R S} (P : params R) st :
  water_ready P st -> uniform_range G -> (forall s, 0 < fst (draw s)) ->
  exists st', route_water (A:=RX) P st = Ok st' /\ water_ready P st'.
Proof.
  intros Hr HG Hu. unfold route_water. change RX with (RA (fun x => x)).
  generalize 0%Z. revert st Hr. induction (Z.to_nat (p_itermax P)) as [|n IH]; intros st Hr it;
    cbn [water_iterations]; eauto.
  destruct (water_iteration_ok (fun x => x) P it st Hr HG) as (st1 & E1 & Hr1).
  { intros w Ew. apply exact_picks; auto. apply Hr. }
  rewrite E1. cbn [rbind]. apply IH; auto.
Qed.

(** ** Discharge update and velocities of a whole state *)

Section FlowState.
  Context {S : Type} {G : Rng R S} (P : params R).
  Notation XA := (RA (fun x => x)).

  Lemma in_inlet_spec j : in_inlet P j = true <-> In j (p_inlet P).
  Proof. unfold in_inlet. apply existsb_In. Qed.

  Lemma flow_update it (st : state R S) i j :
    let st' := update_flow_field (A:=XA) P it st in
    let omega := if (it =? 0)%Z then p_omega_flow P else p_omega_flow_iter P in
    (i = 0%Z /\ In j (p_inlet P) ->
       s_qx st' i j = p_qw0 P /\ s_qy st' i j = 0 /\ s_qw st' i j = p_qw0 P) /\
    (~ (i = 0%Z /\ In j (p_inlet P)) ->
       let (nx, ny) := qn_scaled (A:=XA) (s_qxn st i j) (s_qyn st i j) (s_qwn st i j) in
       s_qw st' i j = sqrt (s_qx st' i j * s_qx st' i j + s_qy st' i j * s_qy st' i j) /\
       ((0 < s_time_iter st)%Z ->
          s_qx st' i j = omega * nx + (1 - omega) * s_qx st i j /\
          s_qy st' i j = omega * ny + (1 - omega) * s_qy st i j) /\
       ((s_time_iter st <= 0)%Z -> s_qx st' i j = nx /\ s_qy st' i j = ny)).
  Proof.
    cbn -[qn_scaled gmemo hypot]. rewrite !gmemo_id. split.
    - intros [-> Hj]. apply in_inlet_spec in Hj. rewrite Hj. cbn [Z.eqb andb]. auto.
    - intros Hn. assert (E : (i =? 0)%Z && in_inlet P j = false).
      { apply andb_false_iff. destruct (Z.eqb_spec i 0); auto. right.
        apply not_true_is_false. rewrite in_inlet_spec. tauto. }
      rewrite E. destruct (qn_scaled _ _ _) as [nx ny]. cbn [fst snd]. rewrite hypot_X.
      split; [reflexivity|]. destruct (Z.ltb_spec 0 (s_time_iter st)).
      + split; [|lia]. intros _. lra.
      + split; [lia|]. auto.
  Qed.

  Lemma flow_norm it (st : state R S) i j : 0 <= p_qw0 P ->
    let st' := update_flow_field (A:=XA) P it st in
    0 <= s_qw st' i j /\
    s_qx st' i j * s_qx st' i j + s_qy st' i j * s_qy st' i j = s_qw st' i j * s_qw st' i j.
  Proof.
    intros Hq st'. destruct (flow_update it st i j) as [H1 H2]. fold st' in H1, H2.
    destruct (Z.eq_dec i 0) as [Hi|Hi]; [destruct (in_dec Z.eq_dec j (p_inlet P)) as [Hj|Hj]|].
    - destruct H1 as (-> & -> & ->); auto. split; [auto|ring].
    - specialize (H2 ltac:(tauto)). destruct (qn_scaled _ _ _). destruct H2 as [-> _].
      split; [apply sqrt_pos|]. rewrite sqrt_sqrt; nra.
    - specialize (H2 ltac:(tauto)). destruct (qn_scaled _ _ _). destruct H2 as [-> _].
      split; [apply sqrt_pos|]. rewrite sqrt_sqrt; nra.
  Qed.

  Lemma velocity_state (st : state R S) i j : 0 <= p_u_max P -> 0 <= p_dry_depth P ->
    0 <= s_depth st i j -> 0 <= s_qw st i j ->
    s_qx st i j * s_qx st i j + s_qy st i j * s_qy st i j = s_qw st i j * s_qw st i j ->
    let st' := update_velocity_field (A:=XA) P st in
    s_uw st' i j * s_depth st' i j <= s_qw st' i j /\
    s_ux st' i j * s_ux st' i j + s_uy st' i j * s_uy st' i j = s_uw st' i j * s_uw st' i j /\
    exists c, 0 <= c /\ s_ux st' i j = c * s_qx st' i j /\ s_uy st' i j = c * s_qy st' i j.
  Proof.
    intros Hum Hdry Hd Hq Hn. cbn -[velocity_cell gmemo]. rewrite !gmemo_id.
    pose proof (velocity_exact (p_dry_depth P) (p_u_max P) _ _ _ _ Hum Hdry Hd Hq Hn) as H.
    destruct (velocity_cell (A:=XA) _ _ _ _ _ _) as [[uw ux] uy]. exact H.
  Qed.

  (** Flow consistency of a state (exact arithmetic). *)
  Lemma water_iteration_flow it (st st' : state R S) :
    0 <= p_u_max P -> 0 <= p_dry_depth P -> 0 <= p_qw0 P ->
    water_iteration (A:=XA) P it st = Ok st' -> flow_consistent P st'.
  Proof.
    intros Hum Hdry Hq0 E. unfold water_iteration in E.
    apply rbind_Ok in E as ([[[ps [[qx qy] qw]] wd] s] & _ & E).
    apply rbind_Ok in E as (st1 & _ & E). inversion E; subst; clear E.
    unfold finalize_water_iteration.
    set (st2 := set_depth _ _).
    intros i j.
    destruct (flow_norm it st2 i j Hq0) as [Hq Hn]. cbn zeta in Hq, Hn.
    set (st3 := update_flow_field P it st2) in *.
    assert (Hd : 0 <= s_depth st3 i j).
    { unfold st3, st2. cbn -[npmax]. rewrite gmemo_id, npmax_R. apply Rmax_r. }
    destruct (velocity_state st3 i j Hum Hdry Hd Hq Hn) as (H1 & H2 & H3).
    cbn zeta in H1, H2, H3. set (st4 := update_velocity_field P st3) in *.
    split; auto. split; auto. split; auto. split.
    - exact Hq.
    - split; [exact Hn|]. intros Hi Hj.
      destruct (flow_update it st2 i j) as [H4 _].
      cbn zeta in H4. fold st3 in H4. exact (H4 (conj Hi Hj)).
  Qed.

  Lemma route_water_flow (st st' : state R S) :
    0 <= p_u_max P -> 0 <= p_dry_depth P -> 0 <= p_qw0 P -> (1 <= p_itermax P)%Z ->
    route_water (A:=RX) P st = Ok st' -> flow_consistent P st'.
  Proof.
    intros Hum Hdry Hq Hit. unfold route_water. change RX with XA.
    destruct (Z.to_nat (p_itermax P)) as [|n] eqn:En; [lia|]. clear En Hit.
    generalize 0%Z. revert st. induction n as [|n IH]; intros st it E.
    - cbn [water_iterations] in E. apply rbind_Ok in E as (st1 & E1 & E). inversion E; subst.
      eapply water_iteration_flow; eauto.
    - cbn [water_iterations] in E. apply rbind_Ok in E as (st1 & E1 & E). eauto.
  Qed.
End FlowState.
