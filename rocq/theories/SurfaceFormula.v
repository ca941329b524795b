(** The free surface follows its specification (exact arithmetic). *)
From Coq Require Import ZArith List Bool Reals Lra Lia Arith.
From Verif Require Import Base RLemmas Shared SharedSpec SharedProofs Params State Water
  VecLemmas WaterSpec WeightSpec WeightProofs WalkProofs RunProofs SurfaceProofs FlowProofs SurfaceSpec.
Import ListNotations.
Local Open Scope R_scope.
Notation XA := (RA (fun x => x)).

Section Path.
  Context {S : Type} (P : params R) (st : state R S).
  Notation L := (p_L P).
  Notation W := (p_W P).

  Lemma same_cell_spec a b : same_cell a b = true <-> a = b.
  Proof.
    unfold same_cell. destruct a as [i j], b as [i' j']. cbn. rewrite andb_true_iff, !Z.eqb_eq.
    split; [intros [-> ->]; auto|intros E; inversion E; auto].
  Qed.

  Section OnePath.
    Context (c : nat -> Z * Z).
    Notation inland := (inland P st c).
    Notation rise := (rise P st c).
    Notation level := (level P st c).

    Lemma inland_S k : inland (Datatypes.S (Datatypes.S k)) = inland (Datatypes.S k)
      || (moved_to c (Datatypes.S k) && onshore P st (c (Datatypes.S k))).
    Proof.
      unfold SurfaceSpec.inland. cbn [Nat.sub]. rewrite Nat.sub_0_r.
      change (seq 1 (Datatypes.S k)) with (seq 1 (Datatypes.S k)).
      replace (Datatypes.S k) with (k + 1)%nat at 1 by lia. rewrite seq_app, existsb_app.
      cbn [seq existsb]. rewrite orb_false_r. replace (1 + k)%nat with (Datatypes.S k) by lia. reflexivity.
    Qed.

    Lemma rise_sea k : inland (Datatypes.S k) = false -> rise k = 0.
    Proof.
      destruct k as [|k]; [reflexivity|]. intros H. rewrite inland_S in H. apply orb_false_iff in H as [H _].
      cbn [SurfaceSpec.rise]. rewrite H. reflexivity.
    Qed.

    Lemma onshore_code i j :
      onshore P st (i, j) =
      fltb (Arith:=XA) (fmul (Arith:=XA) (p_u0 P) (flit (A:=XA) 1 2)) (s_uw st i j)
      || fltb (Arith:=XA) (s_depth st i j) (fmul (Arith:=XA) (flit (A:=XA) 1 10) (p_h0 P)).
    Proof.
      unfold onshore, flit. cbn [fst snd]. ra.
      destruct (Rlt_dec (p_u0 P / 2) (s_uw st i j)); destruct (Rltb_spec (p_u0 P * (1 / 2)) (s_uw st i j)); cbn [orb];
        try reflexivity; try (exfalso; lra).
      destruct (Rlt_dec (s_depth st i j) (p_h0 P / 10)); destruct (Rltb_spec (s_depth st i j) (1 / 10 * p_h0 P));
        try reflexivity; exfalso; lra.
    Qed.

    Lemma climb_code i j ip jp :
      (if feqb (Arith:=XA) (s_uw st i j) (fz (Arith:=XA) 0) then fz (Arith:=XA) 0
       else fdiv (Arith:=XA) (fmul (Arith:=XA) (p_S0 P)
              (fadd (Arith:=XA) (fmul (Arith:=XA) (fmul (Arith:=XA) (s_ux st i j) (fz (Arith:=XA) (ip - i))) (p_dx P))
                                (fmul (Arith:=XA) (fmul (Arith:=XA) (s_uy st i j) (fz (Arith:=XA) (jp - j))) (p_dx P))))
              (s_uw st i j))
      = climb P st (i, j) (ip, jp).
    Proof.
      unfold climb. ra. destruct (Req_EM_T (s_uw st i j) 0); destruct (Reqb_spec (s_uw st i j) 0); try contradiction; try reflexivity.
      unfold Rdiv. ring.
    Qed.

    Notation back := (walk_back (A:=XA) (p_u0 P) (p_h0 P) (p_S0 P) (p_dx P) (s_uw st) (s_ux st) (s_uy st) (s_depth st)).

    (** Walking back from the k-th cell. *)
    Lemma back_spec n : forall k H visit total,
      H (fst (c k)) (snd (c k)) = level k ->
      let vt := back (negb (inland (Datatypes.S k))) (rise k) (fst (c k)) (snd (c k))
                  (map c (seq (Datatypes.S k) n)) H visit total in
      forall i j,
      let ks := filter (fun m => same_cell (c m) (i, j)) (seq (Datatypes.S k) n) in
      fst vt i j = visit i j + INR (List.length ks) /\ snd vt i j = total i j + rsum (map level ks).
    Proof.
      induction n as [|n IH]; intros k H visit total HH; cbn [seq map walk_back]; cbn zeta.
      - intros i j. cbn. split; lra.
      - intros i j. destruct (c (Datatypes.S k)) as [a b] eqn:Ec. cbn [walk_back]. cbn zeta.
        rewrite <- onshore_code, <- Ec. rewrite climb_code. rewrite <- surjective_pairing, <- Ec.
        assert (Em : negb (a =? fst (c k))%Z || negb (b =? snd (c k))%Z = moved_to c (Datatypes.S k)).
        { unfold moved_to, same_cell. rewrite Ec. cbn [fst snd Nat.sub]. rewrite Nat.sub_0_r.
          destruct (a =? fst (c k))%Z, (b =? snd (c k))%Z; reflexivity. }
        rewrite Em.
        assert (Eo : (if moved_to c (Datatypes.S k) && negb (inland (Datatypes.S k)) && onshore P st (c (Datatypes.S k))
                      then false else negb (inland (Datatypes.S k))) = negb (inland (Datatypes.S (Datatypes.S k)))).
        { rewrite inland_S. destruct (moved_to c (Datatypes.S k)), (inland (Datatypes.S k)), (onshore P st (c (Datatypes.S k))); reflexivity. }
        rewrite Eo.
        assert (Er : (if moved_to c (Datatypes.S k) && negb (negb (inland (Datatypes.S k)))
                      then climb P st (c (Datatypes.S k)) (c k) else rise k) = rise (Datatypes.S k)).
        { cbn [SurfaceSpec.rise]. rewrite negb_involutive. destruct (inland (Datatypes.S k)) eqn:Ei.
          - rewrite andb_true_r. reflexivity.
          - rewrite andb_false_r. apply rise_sea, Ei. }
        rewrite Er. rewrite HH. set (H' := gset H a b _).
        assert (HH' : H' a b = level (Datatypes.S k)).
        { unfold H', gset. rewrite !Z.eqb_refl. cbn [andb]. ra. reflexivity. }
        specialize (IH (Datatypes.S k) H' (gset visit a b (fadd (Arith:=XA) (visit a b) (fz (Arith:=XA) 1)))
           (gset total a b (fadd (Arith:=XA) (total a b) (H' a b)))). rewrite Ec in IH. cbn [fst snd] in IH.
        specialize (IH HH'). cbn zeta in IH. destruct (IH i j) as [-> ->].
        cbn [filter]. rewrite Ec. change (same_cell (a, b) (i, j)) with ((a =? i)%Z && (b =? j)%Z). unfold gset. ra. rewrite HH'.
        rewrite (Z.eqb_sym i a), (Z.eqb_sym j b).
        destruct (Z.eqb_spec a i) as [->|]; destruct (Z.eqb_spec b j) as [->|]; cbn [andb]; try (split; reflexivity).
        cbn [List.length map rsum]. rewrite S_INR. split; lra.
    Qed.
  End OnePath.

  Lemma level_ext c c' n : (forall k, (k <= n)%nat -> c k = c' k) -> level P st c n = level P st c' n.
  Proof.
    assert (HI : forall n, (forall k, (k <= n)%nat -> c k = c' k) -> inland P st c (Datatypes.S n) = inland P st c' (Datatypes.S n)).
    { intros m. induction m as [|m IH]; intros H; [reflexivity|]. rewrite !inland_S.
      rewrite IH by (intros; apply H; lia). unfold moved_to. rewrite !H by lia. reflexivity. }
    assert (HR : forall n, (forall k, (k <= n)%nat -> c k = c' k) -> rise P st c n = rise P st c' n).
    { intros m. induction m as [|m IH]; intros H; [reflexivity|]. cbn [rise].
      rewrite HI by (intros; apply H; lia). rewrite IH by (intros; apply H; lia).
      unfold moved_to. rewrite !H by lia. reflexivity. }
    induction n as [|n IH]; intros H; [reflexivity|]. cbn [level].
    rewrite IH by (intros; apply H; lia). rewrite HR by exact H. reflexivity.
  Qed.

  (** One parcel. *)
  Lemma accumulate_spec p v t : (1 <= W)%Z -> walk_usable P p ->
    exists vt, accumulate_one (A:=XA) P st p (v, t) = Ok vt /\
    forall i j, fst vt i j = v i j + INR (List.length (levels_of P st p i j)) /\
                snd vt i j = t i j + rsum (levels_of P st p i j).
  Proof.
    intros HW Hu. destruct (usable_path P HW p Hu) as (n & rest & Ef & Em & _).
    unfold accumulate_one. rewrite Em. cbn [rbind].
    assert (Ep : path P p = (n / W, n mod W)%Z :: map (fun n => (n / W, n mod W)%Z) rest).
    { unfold path. rewrite Ef. reflexivity. }
    assert (E0 : path_cell P p 0 = (n / W, n mod W)%Z) by (unfold path_cell; rewrite Ep; reflexivity).
    unfold levels_of, qualifies. rewrite E0. cbn [fst snd].
    change (-1)%Z with EDGE. rewrite (andb_comm (fflag p)).
    destruct ((s_cell_type st (n / W) (n mod W) =? EDGE)%Z && fflag p) eqn:Q.
    - eexists. split; [reflexivity|]. intros i j. cbn [fst snd].
      set (c := path_cell P p) in *.
      assert (El : map (fun n => (n / W, n mod W)%Z) rest = map c (seq 1 (List.length (path P p) - 1))).
      { rewrite Ep. cbn [List.length Nat.sub]. rewrite Nat.sub_0_r. unfold c, path_cell. rewrite Ep.
        set (l := map _ rest). clearbody l. rewrite <- seq_shift, map_map. cbn [nth].
        apply nth_ext with (d := (0, 0)%Z) (d' := (0, 0)%Z); [rewrite map_length, seq_length; reflexivity|].
        intros k Hk. rewrite (nth_indep (map _ _) (0,0)%Z (nth 0 l (0,0)%Z)) by (rewrite map_length, seq_length; exact Hk).
        rewrite (map_nth (fun x => nth x l (0, 0)%Z) (seq 0 (List.length l)) 0%nat k).
        rewrite seq_nth by exact Hk. reflexivity. }
      rewrite El.
      set (H := gset (fun _ _ => fz (Arith:=XA) 0) (n / W)%Z (n mod W)%Z (s_H_SL st)).
      pose proof (back_spec c (List.length (path P p) - 1) 0 H v t) as B. rewrite E0 in B. cbn [fst snd] in B.
      assert (HH : H (n / W)%Z (n mod W)%Z = level P st c 0).
      { unfold H, gset. rewrite !Z.eqb_refl. reflexivity. }
      specialize (B HH i j). cbn zeta in B. cbn [SurfaceSpec.rise] in B.
      change (negb (inland P st c 1)) with true in B. rewrite map_length. exact B.
    - exists (v, t). split; [reflexivity|]. intros i j. cbn. split; lra.
  Qed.

  Lemma rsum_app l l' : rsum (l ++ l') = rsum l + rsum l'.
  Proof. induction l as [|x l IH]; cbn; [lra|]. rewrite IH. lra. Qed.

  Lemma accumulate_all ps : (1 <= W)%Z -> Forall (walk_usable P) ps -> forall v t,
    exists vt, accumulate_free_surface_walks (A:=XA) P st ps (v, t) = Ok vt /\
    forall i j, fst vt i j = v i j + INR (List.length (levels_at P st ps i j)) /\
                snd vt i j = t i j + rsum (levels_at P st ps i j).
  Proof.
    intros HW H. induction H as [|p ps Hp Hps IH]; intros v t; cbn [accumulate_free_surface_walks].
    - exists (v, t). split; [reflexivity|]. intros i j. cbn. split; lra.
    - destruct (accumulate_spec p v t HW Hp) as ([v1 t1] & E & E1). rewrite E. cbn [rbind]. rewrite !gmemo_id.
      destruct (IH v1 t1) as (vt & E2 & E3). exists vt. split; [exact E2|]. intros i j.
      destruct (E3 i j) as [-> ->]. destruct (E1 i j) as [H1 H2]. cbn [fst snd] in H1, H2. rewrite H1, H2.
      unfold levels_at. cbn [flat_map]. rewrite app_length, plus_INR, rsum_app. split; lra.
  Qed.

  Lemma hnew_max eta depth visit total H_SL :
    hnew_cell (A:=XA) eta depth visit total H_SL
    = Rmax (Rmax (if Rlt_dec 0 visit then total / visit else eta + depth) H_SL) eta.
  Proof.
    unfold hnew_cell. ra.
    set (h := if Rlt_dec 0 visit then total / visit else eta + depth).
    replace (if Rltb 0 visit then total / visit else eta + depth) with h.
    2: { unfold h. destruct (Rlt_dec 0 visit), (Rltb_spec 0 visit); auto; contradiction. }
    destruct (Rltb_spec h H_SL) as [H1|H1].
    - rewrite (Rmax_right h H_SL) by lra. destruct (Rltb_spec H_SL eta); unfold Rmax; destruct (Rle_dec H_SL eta); lra.
    - rewrite (Rmax_left h H_SL) by lra. destruct (Rltb_spec h eta); unfold Rmax; destruct (Rle_dec h eta); lra.
  Qed.

  Lemma surface_is_mean ps : (1 <= W)%Z -> Forall (walk_usable P) ps ->
    exists st', compute_free_surface (A:=XA) P ps st = Ok st' /\
    forall i j, s_Hnew st' i j = Rmax (Rmax (mean_level P st ps i j) (s_H_SL st)) (s_eta st i j).
  Proof.
    intros HW H. unfold compute_free_surface.
    destruct (accumulate_all ps HW H (fun _ _ => fz (Arith:=XA) 0) (fun _ _ => fz (Arith:=XA) 0)) as ([v t] & E & E1).
    match goal with |- context [accumulate_free_surface_walks P st ps ?vt] =>
      assert (E' : accumulate_free_surface_walks P st ps vt = Ok (v, t)) by exact E; rewrite E'; clear E' end. cbn [rbind]. eexists. split; [reflexivity|]. intros i j.
    cbn [s_Hnew set_stage set_sfc_visit set_sfc_sum set_Hnew]. rewrite gmemo_id, hnew_max. destruct (E1 i j) as [H1 H2].
    cbn [fst snd] in H1, H2. rewrite H1, H2. unfold mean_level. ra.
    destruct (levels_at P st ps i j) as [|x l].
    - cbn [List.length INR]. destruct (Rlt_dec 0 (0 + 0)); [lra|reflexivity].
    - assert (0 < INR (List.length (x :: l))) by (apply lt_0_INR; cbn; lia).
      destruct (Rlt_dec 0 (0 + INR (List.length (x :: l)))); [|lra]. rewrite !Rplus_0_l. reflexivity.
  Qed.
End Path.

(** ** Smoothing *)
Section Smooth.
  Context (P : params R).
  Notation L := (p_L P).
  Notation W := (p_W P).

  Lemma rsum_mask (b : nat -> bool) (v : nat -> R) l :
    rsum (map (fun k => if b k then 0 else v k) l) = rsum (map v (filter (fun k => negb (b k)) l)).
  Proof. induction l as [|k l IH]; cbn; [reflexivity|]. destruct (b k); cbn; rewrite IH; lra. Qed.

  Lemma sum9_rsum v : sum9 v = rsum (map v (seq 0 9)).
  Proof. unfold sum9. cbn. lra. Qed.

  Lemma vcount_length b : vcount b = Z.of_nat (List.length (filter b (seq 0 9))).
  Proof.
    unfold vcount. change D9 with (seq 0 9).
    assert (H : forall l acc, fold_left (fun acc k => if b k then acc + 1 else acc)%Z l acc = (acc + Z.of_nat (List.length (filter b l)))%Z).
    { induction l as [|k l IH]; intros acc; cbn; [lia|]. rewrite IH. destruct (b k); cbn [List.length]; lia. }
    rewrite H. lia.
  Qed.

  Lemma at_nb_window {T} (d : T) g i j k : inb L W i j -> (k < 9)%nat ->
    window (custom_pad d L W g) i j k = at_nb L W g i j k.
  Proof.
    intros Hin Hk. destruct Hin as [Hi Hj]. rewrite pad_window by (try split; auto; lia). reflexivity.
  Qed.

  Lemma smooth_cell_spec C ct H i j : inb L W i j ->
    smooth_cell (A:=XA) P C ct H i j = smoothed L W C ct H i j.
  Proof.
    intros Hin. unfold smooth_cell, smoothed. change (-1)%Z with EDGE.
    destruct (ct i j =? EDGE)%Z; [reflexivity|].
    set (inv := fun k => (window (custom_pad 0%Z L W ct) i j k =? -2)%Z || isctr k).
    set (nbrs := filter _ (seq 0 9)).
    assert (En : filter (fun k => negb (inv k)) (seq 0 9) = nbrs).
    { unfold nbrs. apply filter_ext_in. intros k Hk. apply in_seq in Hk. unfold inv.
      rewrite at_nb_window by (auto; lia). change (-2)%Z with LAND. unfold isctr. rewrite negb_orb. apply andb_comm. }
    change (fun k => negb ((window (custom_pad 0%Z L W ct) i j k =? -2)%Z || isctr k)) with (fun k => negb (inv k)).
    change (vsum (A:=XA)) with (vsum (A:=RX)). rewrite vsum_X, vcount_length, sum9_rsum. unfold vset.
    change (fz (Arith:=XA) 0) with 0. rewrite rsum_mask, !En. ra. rewrite <- INR_IZR_INZ.
    assert (Em : map (window (custom_pad 0 L W H) i j) nbrs = map (at_nb L W H i j) nbrs).
    { apply map_ext_in. intros k Hk. apply filter_In in Hk as [Hk _]. apply in_seq in Hk.
      apply at_nb_window; [exact Hin|lia]. }
    rewrite Em. destruct nbrs as [|n l]; [reflexivity|]. cbn [List.length]. reflexivity.
  Qed.

  Lemma at_nb_in {T} (g g' : grid T) i j k : inb L W i j -> (forall a b, inb L W a b -> g a b = g' a b) ->
    at_nb L W g i j k = at_nb L W g' i j k.
  Proof. intros [Hi Hj] H. unfold at_nb, nearest. apply H. unfold clamp, inb. lia. Qed.

  Lemma smoothed_ext C ct H H' i j : inb L W i j -> (forall a b, inb L W a b -> H a b = H' a b) ->
    smoothed L W C ct H i j = smoothed L W C ct H' i j.
  Proof.
    intros Hin E. unfold smoothed. rewrite (E i j Hin). set (nbrs := filter _ _).
    rewrite (map_ext (at_nb L W H i j) (at_nb L W H' i j)); [reflexivity|]. intros k. apply at_nb_in; auto.
  Qed.

  Lemma iter_in {T} n (f : T -> T) x : Nat.iter n f (f x) = f (Nat.iter n f x).
  Proof. induction n as [|n IH]; [reflexivity|]. change (f (Nat.iter n f (f x)) = f (f (Nat.iter n f x))). now rewrite IH. Qed.

  Lemma smooth_passes_spec C ct n : forall H H', (forall i j, inb L W i j -> H i j = H' i j) ->
    forall i j, inb L W i j ->
    smooth_passes (A:=XA) P C ct n H i j = Nat.iter n (smoothed L W C ct) H' i j.
  Proof.
    induction n as [|n IH]; intros H H' E i j Hin; [apply E, Hin|].
    cbn [smooth_passes]. rewrite gmemo_id.
    rewrite (IH _ (smoothed L W C ct H')).
    - rewrite iter_in. reflexivity.
    - intros a b Hab. rewrite smooth_cell_spec by exact Hab. apply smoothed_ext; auto.
    - exact Hin.
  Qed.
End Smooth.

(** ** Flooding *)
Section Flooded.
  Context (P : params R).
  Notation L := (p_L P).
  Notation W := (p_W P).

  Lemma flooded_value depth eta stage i j a b : interior P i j ->
    ~ WaterSpec.wet P depth i j -> neighbour i j a b -> WaterSpec.wet P depth a b -> eta i j < stage a b ->
    let s' := flooding_correction (A:=XA) P depth eta stage i j in
    (forall a b, neighbour i j a b -> WaterSpec.wet P depth a b -> stage a b <= s') /\
    ((exists a b, neighbour i j a b /\ WaterSpec.wet P depth a b /\ s' = stage a b) \/
     (s' = 0 /\ exists a b, neighbour i j a b /\ ~ WaterSpec.wet P depth a b)).
  Proof.
    intros Hint Hd Hnb Hw He. cbn zeta.
    assert (Hin : inbb L W i j = true) by (apply inbb_spec; destruct Hint; split; lia).
    pose proof Hnb as [[Ha Hb] Hne].
    destruct (nb_D8_all (a - i) (b - j)) as (n & Hn & E1 & E2); auto.
    { intros E. inversion E. apply Hne. f_equal; lia. }
    assert (Hsh : is_shore (fun x => x) P depth (i, j) = true).
    { unfold is_shore. cbn [fst snd]. apply andb_true_intro. split.
      - apply negb_true_iff. ra. destruct (Rltb_spec (p_dry_depth P) (depth i j)); [contradiction|reflexivity].
      - apply existsb_exists. exists n. split; [apply in_seq; lia|].
        rewrite fix_edges_interior by exact Hint.
        destruct (shift_interior P false (fun a b => fltb (Arith:=XA) (p_dry_depth P) (depth a b)) n i j Hint Hn) as [-> _].
        rewrite E1, E2. replace (i + (a - i))%Z with a by lia. replace (j + (b - j))%Z with b by lia.
        ra. apply Rltb_true. exact Hw. }
    assert (Ex : existsb (fun x => Rltb (eta i j) x) (cands (fun x => x) P depth stage i j) = true).
    { apply existsb_exists. exists (stage a b). split; [|apply Rltb_true; exact He].
      rewrite cand_interior by exact Hint. apply in_map_iff. exists n. split; [|apply in_seq; lia].
      rewrite E1, E2. replace (i + (a - i))%Z with a by lia. replace (j + (b - j))%Z with b by lia.
      apply Rltb_true in Hw. rewrite Hw. reflexivity. }
    (* the same with a stage that differs at the cell itself only *)
    set (v := flooding_correction (A:=XA) P depth eta stage i j).
    set (stage' := gset stage i j (v - 1)).
    assert (Enb : forall c d, (c, d) <> (i, j) -> stage' c d = stage c d).
    { intros c d Hcd. unfold stage', gset. destruct (Z.eqb_spec c i) as [->|]; destruct (Z.eqb_spec d j) as [->|]; cbn [andb];
        try reflexivity. contradiction. }
    assert (Ec : cands (fun x => x) P depth stage' i j = cands (fun x => x) P depth stage i j).
    { rewrite !cand_interior by exact Hint. apply map_ext_in. intros m Hm. apply in_seq in Hm.
      destruct (nb_D8 m ltac:(lia)) as [_ Hz]. rewrite Enb; [reflexivity|].
      intros E. inversion E. apply Hz. f_equal; lia. }
    assert (Ev : flooding_correction (A:=XA) P depth eta stage' i j = v).
    { unfold v. rewrite !flooding_closed, Hin, Hsh. cbn [andb]. unfold flood_value. rewrite Ec, Ex. reflexivity. }
    assert (Es : stage' i j = v - 1) by (unfold stage', gset; rewrite !Z.eqb_refl; reflexivity).
    destruct (flooding_value P depth eta stage' i j Hint) as [F1 F2]; [rewrite Ev, Es; lra|].
    rewrite Ev in F1, F2. split.
    - intros c d Hcd Hwcd. rewrite <- Enb by (apply Hcd). apply F1; assumption.
    - destruct F2 as [(c & d & Hcd & Hwcd & E)|F2]; [left|right; exact F2].
      exists c, d. rewrite <- Enb by (apply Hcd). auto.
  Qed.
End Flooded.

(** ** The new stage *)
Lemma new_stage {S} (P : params R) (st st' : state R S) ps :
  compute_free_surface (A:=XA) P ps st = Ok st' ->
  exists relaxed : grid R,
  (forall i j, inb (p_L P) (p_W P) i j -> relaxed i j =
     if (0 <? s_time_iter st)%Z then
       (1 - p_omega_sfc P) * s_stage st i j + p_omega_sfc P *
         Nat.iter (Z.to_nat (p_Nsmooth P)) (smoothed (p_L P) (p_W P) (p_Csmooth P) (s_cell_type st)) (s_Hnew st') i j
     else s_stage st i j) /\
  s_stage st' = flooding_correction (A:=XA) P (s_depth st) (s_eta st) relaxed.
Proof.
  unfold compute_free_surface. intros E. apply rbind_Ok in E as ([v t] & _ & E).
  inversion E; subst; clear E. eexists. split; [|reflexivity].
  intros i j Hin. cbn [s_stage s_Hnew s_cell_type s_time_iter set_stage set_sfc_visit set_sfc_sum set_Hnew].
  destruct (0 <? s_time_iter st)%Z; [|reflexivity]. rewrite !gmemo_id. ra. unfold smooth_free_surface.
  rewrite (smooth_passes_spec P _ _ _ _ _ (fun _ _ _ => eq_refl) i j Hin). reflexivity.
Qed.

(** ** Directions *)
Section Directions.
  Context {S : Type} {G : Rng R S} (P : params R).
  Notation L := (p_L P).
  Notation W := (p_W P).

  Definition unit_of (stp : nat -> Z) (k : nat) : R := IZR (stp k) / ndist k.

  Lemma steps_dist k : (k < 9)%nat -> fst (fst (fst (get_steps (A:=XA) k))) = ndist k.
  Proof.
    intros Hk. unfold get_steps, ndist, drow, dcol. cbn [fst]. ra.
    rewrite plus_IZR, !mult_IZR.
    f_equal. apply lt9 in Hk. decompose [or] Hk; subst; cbn; ring.
  Qed.

  Lemma dirQ_cell stp ps : Forall (fun p => (dir p < 9)%nat) ps -> forall q ix q' m,
    update_dirQfield (A:=XA) P q ix stp ps = Ok q' ->
    q' m = q m + rsum (map (fun p => if moved p && denotes P (ix p) m then unit_of stp (dir p) else 0) ps).
  Proof.
    induction 1 as [|p ps Hd Hps IH]; intros q ix q' m; cbn [update_dirQfield].
    - intros E; inversion E; subst. cbn. lra.
    - pose proof (astep_spec (fun x => x) (dir p) Hd) as Ha. pose proof (steps_dist (dir p) Hd) as Hs.
      destruct (get_steps (A:=XA) (dir p)) as [[[dist is] js] a] eqn:E. cbn in Ha, Hs. subst a dist.
      cbn [map rsum]. unfold moved at 1. destruct (Nat.eqb (dir p) 4); cbn [negb andb].
      + intros Eq. rewrite (IH _ _ _ m Eq). lra.
      + destruct (flat_ix P (ix p)) as [n|] eqn:En; [|discriminate]. cbn [rbind].
        intros Eq. apply (IH _ _ _ m) in Eq. rewrite Eq. apply flat_ix_inv in En as [-> _].
        unfold fset, denotes at 2. ra. rewrite (Z.eqb_sym m).
        destruct (Z.eqb_spec (wrap (L * W) (ix p)) m) as [->|]; unfold unit_of; lra.
  Qed.

  Lemma rsum_filter {T} (f : T -> R) (b : T -> bool) l : rsum (map f (filter b l)) = rsum (map (fun x => if b x then f x else 0) l).
  Proof. induction l as [|x l IH]; cbn; [reflexivity|]. destruct (b x); cbn; rewrite IH; lra. Qed.

  Lemma step_directions w stage H_SL ct step ps qx qy qw width s ps' qx' qy' qw' width' s' :
    water_step (A:=XA) P w stage H_SL ct step (ps, (qx, qy, qw), width, s)
      = Ok (ps', (qx', qy', qw'), width', s') ->
    Forall (fun p => (dir p < 9)%nat) ps' ->
    forall m, qx' m = qx m + credited P ct drow ps ps' m /\ qy' m = qy m + credited P ct dcol ps ps' m.
  Proof.
    unfold water_step. intros E Hd'.
    apply rbind_Ok in E as ([ps1 s1] & E1 & E).
    set (ps2 := calculate_new_inds P ps1) in *.
    apply rbind_Ok in E as ([[qx1 qy1] qw1] & EQ1 & E).
    apply rbind_Ok in E as ([[qx2 qy2] qw2] & EQ2 & E).
    apply rbind_Ok in E as (ps3 & E3 & E).
    apply rbind_Ok in E as (pbs & E4 & E).
    destruct (step <? _)%Z; [|discriminate].
    apply rbind_Ok in E as ([[qx3 qy3] qw3] & EQ3 & E). inversion E; subst; clear E.
    apply check_for_loops_dirs in E3. apply mapM_inv in E4.
    assert (F4 : Forall2 (fun p3 pb => dir (fst pb) = dir p3 /\ snd pb = edge_at P ct (new (fst pb))) ps3 pbs).
    { eapply Forall2_imp; [|exact E4]. intros p3 [p' b] Hr. apply record_inv in Hr as (Ha & Hb & Hc). auto. }
    assert (F24 : Forall2 (fun p2 p' => dir p' = dir p2) ps2 (map fst pbs)).
    { assert (F4' : Forall2 (fun p3 p' => dir p' = dir p3) ps3 (map fst pbs)).
      { clear - F4. induction F4 as [|x y l l' [Hxy _] H IH]; cbn; constructor; auto. }
      eapply Forall2_trans3; [exact E3|exact F4'|]. cbn. intros x y z [Ha _] Hb. congruence. }
    assert (Hdir2 : Forall (fun p => (dir p < 9)%nat) ps2) by (eapply dirs_back; eauto).
    assert (Hb : Forall (fun pb : parcel * bool => snd pb = edge_at P ct (new (fst pb))) pbs).
    { eapply Forall2_Forall_r; [exact F4|]. intros x y [_ Hy]; exact Hy. }
    assert (F02 : Forall2 (fun p p2 => cur p2 = cur p /\ new p2 = calculate_new_ind P (cur p) (dir p2)) ps ps2).
    { apply choose_same in E1. clear - E1. unfold ps2, calculate_new_inds.
      induction E1 as [|x y l l' [Hc _] H IH]; cbn [map]; constructor; auto. cbn. rewrite Hc. auto. }
    assert (Qinv : forall q q' ix ps, update_Q (A:=XA) P q ix ps = Ok q' ->
       update_dirQfield (A:=XA) P (fst (fst q)) ix jwalk_flat ps = Ok (fst (fst q')) /\
       update_dirQfield (A:=XA) P (snd (fst q)) ix iwalk_flat ps = Ok (snd (fst q'))).
    { intros [[a b] c] [[a' b'] c'] ix l E. unfold update_Q in E.
      apply rbind_Ok in E as (? & Ea & E). apply rbind_Ok in E as (? & Eb & E).
      apply rbind_Ok in E as (? & Ec & E). inversion E; subst. cbn [fst snd]. rewrite !fmemo_id. split; assumption. }
    apply Qinv in EQ1, EQ2, EQ3. cbn [fst snd] in *.
    assert (Hdir3 : Forall (fun p => (dir p < 9)%nat) (map fst (filter snd pbs))).
    { rewrite Forall_map in *. rewrite Forall_forall in *. intros pb Hpb.
      apply filter_In in Hpb as [Hpb _]. apply Hd'; auto. }
    assert (K : forall stp comp q q1 q2 q3, (forall k, (k < 9)%nat -> IZR (stp k) = comp k) ->
      update_dirQfield (A:=XA) P q cur stp ps2 = Ok q1 ->
      update_dirQfield (A:=XA) P q1 new stp ps2 = Ok q2 ->
      update_dirQfield (A:=XA) P q2 new stp (map fst (filter snd pbs)) = Ok q3 ->
      forall m, q3 m = q m + credited P ct comp ps (map fst pbs) m).
    { intros stp comp q q1 q2 q3 Hc D1 D2 D3 m.
      rewrite (dirQ_cell _ _ Hdir3 _ _ _ m D3), (dirQ_cell _ _ Hdir2 _ _ _ m D2), (dirQ_cell _ _ Hdir2 _ _ _ m D1).
      rewrite !Rplus_assoc. f_equal. unfold credited. rewrite map_map, rsum_filter.
      clear - F02 F24 Hb Hc Hd'. clearbody ps2. revert pbs F24 Hb Hd'.
      induction F02 as [|p p2 ps ps2 [Ec En] HF IH]; intros pbs H2 Hb Hd'; destruct pbs as [|[p' b] pbs];
        cbn [map fst] in H2; inversion H2 as [|? ? ? ? Ed H2']; subst; [cbn; lra|].
      inversion Hb as [|? ? Eb Hb']; subst. cbn [fst snd] in Eb. cbn [map fst] in Hd'. inversion Hd' as [|? ? Hd1 Hd2]; subst.
      cbn [map fst snd combine rsum]. rewrite <- (IH _ H2' Hb' Hd2).
      unfold gain, arrived, unit_of. rewrite Ec, En. unfold moved. rewrite Ed in *. unfold calculate_new_ind.
      rewrite Hc by exact Hd1.
      destruct (Nat.eqb (dir p2) 4); cbn [negb andb].
      - destruct (edge_at P ct (new p')); cbn [IZR Z.add]; lra.
      - destruct (denotes P (cur p) m), (denotes P (cur p + ravel_walk_flat W (dir p2)) m), (edge_at P ct (new p')),
          (denotes P (new p') m); cbn [andb Z.add Pos.add Pos.succ]; lra. }
    intros m. split.
    - apply (K jwalk_flat drow _ qx1 qx2); [|apply EQ1|apply EQ2|apply EQ3].
      intros k Hk. apply lt9 in Hk. decompose [or] Hk; subst; reflexivity.
    - apply (K iwalk_flat dcol _ qy1 qy2); [|apply EQ1|apply EQ2|apply EQ3].
      intros k Hk. apply lt9 in Hk. decompose [or] Hk; subst; reflexivity.
  Qed.
End Directions.

Lemma chain_directions {S} {G : Rng R S} (P : params R) ct w stage H_SL step st tr st' :
  chain (fun x => x) P ct w stage H_SL step st tr st' ->
  Forall (Forall (fun p => (dir p < 9)%nat)) tr ->
  forall m,
  fst (fst (snd (fst (fst st')))) m = fst (fst (snd (fst (fst st)))) m
    + trace_sum (fun a b => credited P ct drow a b m) (fst (fst (fst st))) tr /\
  snd (fst (snd (fst (fst st')))) m = snd (fst (snd (fst (fst st)))) m
    + trace_sum (fun a b => credited P ct dcol a b m) (fst (fst (fst st))) tr /\
  snd (snd (fst (fst st'))) m = snd (snd (fst (fst st))) m
    + half_flux (A:=XA) P * trace_sum (fun a b => credits P ct a b m) (fst (fst (fst st))) tr.
Proof.
  induction 1 as [|step st ps1 q1 wd1 s1 tr st' E Hc IH]; intros Hd m.
  - cbn. repeat split; lra.
  - inversion Hd as [|? ? Hd1 Hd2]; subst. destruct (IH Hd2 m) as (H1 & H2 & H3). rewrite H1, H2, H3. clear IH H1 H2 H3.
    destruct st as [[[ps [[qx qy] qw]] wd] s]. destruct q1 as [[qx1 qy1] qw1]. cbn [fst snd trace_sum].
    destruct (step_directions P _ _ _ _ _ _ _ _ _ _ _ _ _ _ _ _ _ E Hd1 m) as [-> ->].
    apply step_budget in E as [E _]; auto. rewrite E. fold (credits P ct ps ps1 m). repeat split; lra.
Qed.

Lemma start_field (starts : list Z) x m :
  fancy_add (A:=XA) (zero_flat (A:=XA)) starts x m = x * at_start starts m.
Proof.
  unfold fancy_add, zero_flat, at_start. ra. destruct (existsb (fun k => k =? m)%Z starts) eqn:E.
  - apply existsb_In in E. destruct (in_dec Z.eq_dec m starts); [lra|contradiction].
  - destruct (in_dec Z.eq_dec m starts) as [H|H]; [|lra]. apply existsb_In in H. congruence.
Qed.

Lemma run_directions {S} {G : Rng R S} (P : params R) (st : state R S) :
  water_ready P st -> uniform_range G -> (forall s, 0 < fst (draw s))%R ->
  exists starts tr ps qx qy qw width s,
    run_water_iteration (A:=RX) P st = Ok (ps, (qx, qy, qw), width, s) /\
    Z.of_nat (List.length starts) = p_Np_water P /\
    Forall (fun c => In c (p_inlet P)) starts /\
    (exists w, steps (fun x => x) P (s_cell_type st) w (s_stage st) (s_H_SL st) 0
        (start_parcels starts) tr ps) /\
    forall m,
      qx m = at_start starts m + trace_sum (fun a b => credited P (s_cell_type st) drow a b m) (start_parcels starts) tr /\
      qy m = trace_sum (fun a b => credited P (s_cell_type st) dcol a b m) (start_parcels starts) tr /\
      qw m = p_Qp_water P / p_dx P / 2 *
        (at_start starts m + trace_sum (fun a b => credits P (s_cell_type st) a b m) (start_parcels starts) tr).
Proof.
  intros Hr HG Hu. change RX with XA.
  destruct (run_ok (fun x => x) P st Hr HG)
    as (w & starts & s0 & tr & ps & q & width & s & Ew & Es & Hlen & Hin & Erun & Hch & Hst & _).
  { intros w Ew. apply exact_picks; auto. apply Hr. }
  destruct q as [[qx qy] qw].
  exists starts, tr, ps, qx, qy, qw, width, s. split; [exact Erun|]. split; [exact Hlen|]. split; [exact Hin|].
  split; [exists w; exact Hst|]. intros m.
  destruct (chain_directions P _ _ _ _ _ _ _ _ Hch (steps_dirs _ _ _ _ _ _ _ _ _ _ Hst) m) as (H1 & H2 & H3).
  cbn [fst snd] in H1, H2, H3. rewrite H1, H2, H3, !start_field. unfold half_flux. ra. repeat split; lra.
Qed.
