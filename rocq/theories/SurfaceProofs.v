(** Free surface, smoothing, flooding and flow fields: proofs for C13-C18. *)
From Coq Require Import ZArith List Bool Reals Lra Lia Permutation FunctionalExtensionality.
From Verif Require Import Base RLemmas Shared SharedSpec SharedProofs Params State Water
  VecLemmas WaterSpec WeightProofs WalkProofs RunProofs.
Import ListNotations.
Local Open Scope R_scope.

(** ** Free surface from paths (C13) *)

Section Surface.
  Context (rnd : R -> R) {HR : Rounding rnd}.
  Notation A := (RA rnd).
  Context {S : Type} {G : Rng R S}.
  Context (P : params R).
  Notation L := (p_L P).
  Notation W := (p_W P).

  Lemma hnew_bounds eta depth visit total H_SL :
    let h := hnew_cell (A:=A) eta depth visit total H_SL in H_SL <= h /\ eta <= h.
  Proof.
    unfold hnew_cell. ra. set (h1 := if Rltb _ visit then _ else _).
    destruct (Rltb_spec h1 H_SL) as [H1|H1];
      [destruct (Rltb_spec H_SL eta)|destruct (Rltb_spec h1 eta)]; lra.
  Qed.

  Lemma hnew_unvisited eta depth total H_SL :
    hnew_cell (A:=A) eta depth 0 total H_SL = Rmax (Rmax (rnd (eta + depth)) H_SL) eta.
  Proof.
    unfold hnew_cell. ra. rewrite rnd_0. destruct (Rltb_spec 0 0); [lra|].
    destruct (Rltb_spec (rnd (eta + depth)) H_SL).
    - rewrite (Rmax_right (rnd _)) by lra. destruct (Rltb_spec H_SL eta).
      + rewrite Rmax_right; lra.
      + rewrite Rmax_left; lra.
    - rewrite (Rmax_left (rnd _)) by lra. destruct (Rltb_spec (rnd (eta + depth)) eta).
      + rewrite Rmax_right; lra.
      + rewrite Rmax_left; lra.
  Qed.

  Lemma walk_back_visit u0 h0 S0 dx uw ux uy depth rest : forall io dH ip jp H visit total i j,
    ~ In (i, j) rest ->
    let vt := walk_back (A:=A) u0 h0 S0 dx uw ux uy depth io dH ip jp rest H visit total in
    fst vt i j = visit i j /\ snd vt i j = total i j.
  Proof.
    induction rest as [|[a b] rest IH]; intros io dH ip jp H visit total i j Hn; cbn [walk_back]; auto.
    cbn zeta.
    match goal with |- context [walk_back (A:=A) _ _ _ _ _ _ _ _ ?io' ?dH' ?ip' ?jp' rest ?H' ?v' ?t'] =>
      destruct (IH io' dH' ip' jp' H' v' t' i j (fun Hin => Hn (or_intror Hin))) as [E1 E2] end.
    rewrite E1, E2. unfold gset.
    destruct (Z.eqb_spec i a) as [->|]; [destruct (Z.eqb_spec j b) as [->|]|]; cbn [andb]; auto.
    exfalso. apply Hn. left; auto.
  Qed.

  Local Notation on_path := (WaterSpec.on_path P).
  Local Notation walk_usable := (WaterSpec.walk_usable P).
  Context (HWpos : (1 <= W)%Z).

  Lemma unravel_in_ok n : (0 <= n < L * W)%Z -> unravel_in P n = Ok (n / W, n mod W)%Z.
  Proof.
    intros Hn. unfold unravel_in, custom_unravel.
    destruct (Z.ltb_spec (W * L) n); [lia|]. cbn [rbind].
    destruct (at_cell_exists L W n Hn HWpos) as [_ Hin]. apply inbb_spec in Hin. rewrite Hin. auto.
  Qed.

  Lemma mapM_unravel l : Forall (fun n => 0 <= n < L * W)%Z l ->
    mapM (unravel_in P) l = Ok (map (fun n => (n / W, n mod W)%Z) l).
  Proof.
    induction 1 as [|n l Hn Hl IH]; cbn [mapM map]; auto.
    rewrite unravel_in_ok by auto. cbn [rbind]. rewrite IH. reflexivity.
  Qed.

  Lemma usable_path p : walk_usable p -> exists n rest,
    filter (fun n => 0 <? n)%Z (walk p) = n :: rest /\
    mapM (unravel_in P) (filter (fun n => 0 <? n)%Z (walk p))
      = Ok ((n / W, n mod W)%Z :: map (fun n => (n / W, n mod W)%Z) rest) /\
    Forall (fun n => 0 < n < L * W)%Z (n :: rest).
  Proof.
    intros [H1 H2].
    assert (HF : Forall (fun n => 0 < n < L * W)%Z (filter (fun n => 0 <? n)%Z (walk p))).
    { apply Forall_forall. intros n Hn. apply filter_In in Hn as [Hn Hp].
      apply Z.ltb_lt in Hp. rewrite Forall_forall in H1. split; auto. }
    destruct (filter (fun n => 0 <? n)%Z (walk p)) as [|n rest] eqn:E.
    - exfalso. apply Exists_exists in H2 as (n & Hn & Hp).
      assert (Hin : In n (filter (fun n => 0 <? n)%Z (walk p))).
      { apply filter_In. split; auto. apply Z.ltb_lt; auto. }
      rewrite E in Hin. contradiction.
    - exists n, rest. split; auto. split; auto. rewrite mapM_unravel; auto.
      eapply Forall_impl; [|exact HF]. cbn. intros; lia.
  Qed.

  Lemma accumulate_ok (st : state R S) ps : Forall walk_usable ps -> forall vt,
    exists vt', accumulate_free_surface_walks (A:=A) P st ps vt = Ok vt' /\
      forall i j, (forall p, In p ps -> ~ on_path (s_cell_type st) p i j) ->
        fst vt' i j = fst vt i j /\ snd vt' i j = snd vt i j.
  Proof.
    induction 1 as [|p ps Hp Hps IH]; intros vt; cbn [accumulate_free_surface_walks].
    - exists vt. split; auto.
    - destruct (usable_path p Hp) as (n & rest & Ef & Em & HF).
      assert (Hone : exists v, accumulate_one (A:=A) P st p vt = Ok v /\
         forall i j, ~ on_path (s_cell_type st) p i j -> fst v i j = fst vt i j /\ snd v i j = snd vt i j).
      { unfold accumulate_one. rewrite Em. cbn [rbind].
        destruct (s_cell_type st (n / W) (n mod W) =? -1)%Z eqn:Ee; cbn [andb];
          [destruct (fflag p) eqn:Efl|]; eexists; (split; [reflexivity|]); auto.
        intros i j Hno. apply walk_back_visit. intros Hin. apply Hno.
        split; auto. exists n, rest. split; auto. split; [apply Z.eqb_eq; auto|].
        apply in_map_iff in Hin as (m & Em' & Hm). exists m. split; auto.
        inversion Em'; subst. apply at_cell_exists; auto.
        inversion HF as [|? ? _ HF']; subst. rewrite Forall_forall in HF'. specialize (HF' m Hm). lia. }
      destruct Hone as ([v t] & Eo & Ho). rewrite Eo. cbn [rbind]. rewrite !gmemo_id.
      destruct (IH (v, t)) as (vt' & E' & H'). exists vt'. split; auto.
      intros i j Hno. destruct (H' i j) as [E1 E2]; [intros; apply Hno; cbn; auto|].
      destruct (Ho i j) as [E3 E4]; [apply Hno; cbn; auto|]. cbn [fst snd] in *.
      rewrite E1, E2. auto.
  Qed.

  Lemma compute_surface_ok (st : state R S) ps : Forall walk_usable ps ->
    exists st', compute_free_surface (A:=A) P ps st = Ok st' /\
      (forall i j, s_H_SL st <= s_Hnew st' i j /\ s_eta st i j <= s_Hnew st' i j) /\
      (forall i j, (forall p, In p ps -> ~ on_path (s_cell_type st) p i j) ->
        s_Hnew st' i j = Rmax (Rmax (rnd (s_eta st i j + s_depth st i j)) (s_H_SL st)) (s_eta st i j)).
  Proof.
    intros H. unfold compute_free_surface. 
    destruct (accumulate_ok st ps H ((fun _ _ => fz (Arith:=A) 0), (fun _ _ => fz (Arith:=A) 0)))
      as ([v t] & E & Hv).
    rewrite E. cbn [rbind]. eexists. split; [reflexivity|]. cbn. split.
    - intros i j. rewrite gmemo_id. apply hnew_bounds.
    - intros i j Hno. rewrite gmemo_id. destruct (Hv i j Hno) as [E1 _]. cbn in E1.
      rewrite E1, rnd_0. apply hnew_unvisited.
  Qed.

  (** What computing the free surface leaves alone. *)
  Lemma compute_surface_frame (st st' : state R S) ps :
    compute_free_surface (A:=A) P ps st = Ok st' ->
    s_eta st' = s_eta st /\ s_depth st' = s_depth st /\ s_H_SL st' = s_H_SL st /\
    s_cell_type st' = s_cell_type st /\ s_time_iter st' = s_time_iter st.
  Proof.
    unfold compute_free_surface. intros E. apply rbind_Ok in E as ([v t] & _ & E).
    inversion E; subst. cbn. auto.
  Qed.
End Surface.

(** ** Smoothing (C14) *)

Section Smooth.
  Context (P : params R).
  Notation L := (p_L P).
  Notation W := (p_W P).
  Notation XA := (RA (fun x => x)).

  Lemma sum9_le v v' : (forall k, (k < 9)%nat -> v k <= v' k) -> sum9 v <= sum9 v'.
  Proof.
    intros H. unfold sum9.
    pose proof (H 0%nat ltac:(lia)). pose proof (H 1%nat ltac:(lia)).
    pose proof (H 2%nat ltac:(lia)). pose proof (H 3%nat ltac:(lia)).
    pose proof (H 4%nat ltac:(lia)). pose proof (H 5%nat ltac:(lia)).
    pose proof (H 6%nat ltac:(lia)). pose proof (H 7%nat ltac:(lia)).
    pose proof (H 8%nat ltac:(lia)). lra.
  Qed.

  Lemma nearest_bounds (H : grid R) m M i j : (1 <= L)%Z -> (1 <= W)%Z ->
    (forall i j, inb L W i j -> m <= H i j <= M) -> m <= nearest L W H i j <= M.
  Proof. intros HL HW Hb. apply Hb. unfold clamp, inb. lia. Qed.

  Lemma smooth_cell_bounds C ct H m M i j : 0 <= C <= 1 -> inb L W i j ->
    (forall i j, inb L W i j -> m <= H i j <= M) ->
    m <= smooth_cell (A:=XA) P C ct H i j <= M.
  Proof.
    intros HC Hin Hb. unfold smooth_cell.
    destruct (ct i j =? -1)%Z; [apply Hb; auto|].
    set (inv := fun k => (window (custom_pad 0%Z L W ct) i j k =? -2)%Z || isctr k).
    set (b := fun k => negb (inv k)).
    change (fun k => negb ((window (custom_pad 0%Z L W ct) i j k =? -2)%Z || isctr k)) with b.
    destruct (Z.ltb_spec 0 (vcount b)) as [Hc|Hc]; [|apply Hb; auto].
    assert (HcR : 0 < IZR (vcount b)) by (apply IZR_lt; auto).
    change (vsum (A:=XA)) with (vsum (A:=RX)). rewrite vsum_X. ra.
    set (v := vset _ _ _).
    assert (Hv : IZR (vcount b) * m <= sum9 v <= IZR (vcount b) * M).
    { destruct Hin as [Hi Hj].
      assert (Hk : forall k, (k < 9)%nat -> (if b k then m else 0) <= v k <= (if b k then M else 0)).
      { intros k Hk. unfold v, vset, b. destruct (inv k); cbn [negb]; [lra|].
        rewrite pad_window by (auto; split; lia). apply nearest_bounds; auto; lia. }
      rewrite <- !sum9_indicator. split; apply sum9_le; intros k Hk'; apply Hk; auto. }
    assert (Hd : m <= sum9 v / IZR (vcount b) <= M).
    { split.
      - apply Rmult_le_reg_r with (IZR (vcount b)); auto. unfold Rdiv.
        rewrite Rmult_assoc, Rinv_l by lra. lra.
      - apply Rmult_le_reg_r with (IZR (vcount b)); auto. unfold Rdiv.
        rewrite Rmult_assoc, Rinv_l by lra. lra. }
    specialize (Hb i j Hin). set (d := sum9 v / IZR (vcount b)) in *. nra.
  Qed.

  Lemma smooth_bounds C ct m M : 0 <= C <= 1 -> forall n H,
    (forall i j, inb L W i j -> m <= H i j <= M) ->
    forall i j, inb L W i j -> m <= smooth_passes (A:=XA) P C ct n H i j <= M.
  Proof.
    intros HC n. induction n as [|n IH]; intros H Hb i j Hin; cbn [smooth_passes]; auto.
    rewrite gmemo_id. apply IH; auto. intros a b Hab. apply smooth_cell_bounds; auto.
  Qed.

  Lemma smooth_edge rnd C ct n : forall H i j, ct i j = EDGE ->
    smooth_passes (A:=RA rnd) P C ct n H i j = H i j.
  Proof.
    induction n as [|n IH]; intros H i j He; cbn [smooth_passes]; auto.
    rewrite gmemo_id, IH by auto. unfold smooth_cell. rewrite He. reflexivity.
  Qed.
End Smooth.

(** ** Flooding correction (C15) *)

Section Flood.
  Context (rnd : R -> R) {HR : Rounding rnd}.
  Notation A := (RA rnd).
  Context (P : params R).
  Notation L := (p_L P).
  Notation W := (p_W P).

  Lemma fold_fmax_ge (l : list R) : forall acc x, x <= acc \/ In x l ->
    x <= fold_left (fmax (A:=A)) l acc.
  Proof.
    induction l as [|y l IH]; intros acc x H; cbn [fold_left].
    - destruct H as [|[]]; auto.
    - apply IH. rewrite fmax_R. destruct H as [H|[->|H]].
      + left. pose proof (Rmax_l acc y). lra.
      + left. apply Rmax_r.
      + auto.
  Qed.
  Lemma fold_fmax_le (l : list R) : forall acc M, acc <= M -> (forall x, In x l -> x <= M) ->
    fold_left (fmax (A:=A)) l acc <= M.
  Proof.
    induction l as [|y l IH]; intros acc M Ha H; cbn [fold_left]; auto.
    apply IH; [|intros; apply H; cbn; auto]. rewrite fmax_R. apply Rmax_lub; auto.
    apply H; cbn; auto.
  Qed.

  Local Notation wet := (WaterSpec.wet P).
  Lemma wet_nh_real depth i j n : (2 <= L)%Z -> (2 <= W)%Z -> inb L W i j -> (n < 8)%nat ->
    fix_edges P (shift_plane P false (fun a b => fltb (Arith:=A) (p_dry_depth P) (depth a b))) n i j = true ->
    exists a b, inb L W a b /\ (Z.abs (a - i) <= 1)%Z /\ (Z.abs (b - j) <= 1)%Z /\ wet depth a b.
  Proof.
    intros HL HW Hin Hn H.
    assert (Hs : forall m a b, shift_plane P false (fun a b => fltb (Arith:=A) (p_dry_depth P) (depth a b)) m a b = true ->
      inb L W (a + nb_di m) (b + nb_dj m) /\ wet depth (a + nb_di m) (b + nb_dj m)).
    { intros m a b. unfold shift_plane. destruct (inbb L W _ _) eqn:E; [|discriminate].
      apply inbb_spec in E. ra. intros Ht. apply Rltb_true in Ht. split; auto. }
    set (pl := shift_plane P false _) in *.
    assert (Hcases : (n = 0 \/ n = 1 \/ n = 2 \/ n = 3 \/ n = 4 \/ n = 5 \/ n = 6 \/ n = 7)%nat) by lia.
    destruct Hin as [Hi Hj].
    decompose [or] Hcases; subst n; clear Hcases; unfold fix_edges, copy_col, copy_row in H;
      repeat (match type of H with context [if (?x =? ?y)%Z then _ else _] =>
        destruct (Z.eqb_spec x y) end);
      apply Hs in H; destruct H as [[Hb1 Hb2] Hw]; cbn [nb_di nb_dj nth] in *;
      (eexists; eexists; split; [split; [exact Hb1|exact Hb2]|];
        split; [lia|split; [lia|exact Hw]]).
  Qed.

  Notation wetm depth := (fun a b => fltb (Arith:=A) (p_dry_depth P) (depth a b)).

  (** Candidate stages seen by a shore cell. *)
  Definition cands (depth stage : grid R) (i j : Z) : list R :=
    map (fun n => fmul (Arith:=A) (if fix_edges P (shift_plane P false (wetm depth)) n i j
                     then fz (Arith:=A) 1 else fz (Arith:=A) 0)
                  (shift_plane P (fz (Arith:=A) 0) stage n i j)) D8.
  Definition is_shore (depth : grid R) (ij : Z * Z) : bool :=
    negb (wetm depth (fst ij) (snd ij))
    && existsb (fun n => fix_edges P (shift_plane P false (wetm depth)) n (fst ij) (snd ij)) D8.
  Definition flood_value (depth eta stage : grid R) (i j : Z) : R :=
    if existsb (fun x => Rltb (eta i j) x) (cands depth stage i j)
    then fold_left (fmax (A:=A)) (tl (cands depth stage i j)) (hd (fz (Arith:=A) 0) (cands depth stage i j))
    else stage i j.

  (** One visit changes only the visited cell, to a value that does not depend
      on earlier visits. *)
  Lemma flood_fold depth eta stage l : forall s,
    (forall i j, s i j = stage i j \/ (s i j = flood_value depth eta stage i j)) ->
    forall i j,
    fold_left (fun s ij => flood_one (A:=A) (fix_edges P (shift_plane P false (wetm depth)))
        (shift_plane P (fz (Arith:=A) 0) stage) eta (fst ij) (snd ij) s) l s i j
    = if existsb (fun ij => (fst ij =? i)%Z && (snd ij =? j)%Z) l
      then (if existsb (fun x => Rltb (eta i j) x) (cands depth stage i j)
            then flood_value depth eta stage i j else s i j)
      else s i j.
  Proof.
    induction l as [|[a b] l IH]; intros s Hs i j; cbn [fold_left existsb fst snd]; auto.
    set (s1 := flood_one _ _ _ _ _ _).
    assert (E1 : forall i j, s1 i j = if (a =? i)%Z && (b =? j)%Z &&
        existsb (fun x => Rltb (eta i j) x) (cands depth stage i j)
        then flood_value depth eta stage i j else s i j).
    { intros i' j'. unfold s1, flood_one.
      change (map _ D8) with (cands depth stage a b).
      change (existsb (fun x => fltb (Arith:=A) (eta a b) x)) with (existsb (fun x => Rltb (eta a b) x)).
      unfold flood_value.
      destruct (existsb (fun x => Rltb (eta a b) x) (cands depth stage a b)) eqn:Ex.
      - unfold gset. rewrite (Z.eqb_sym i'), (Z.eqb_sym j').
        destruct (Z.eqb_spec a i') as [->|]; destruct (Z.eqb_spec b j') as [->|]; cbn [andb]; auto.
        rewrite Ex. reflexivity.
      - destruct (Z.eqb_spec a i') as [->|]; destruct (Z.eqb_spec b j') as [->|]; cbn [andb]; auto.
        rewrite Ex. reflexivity. }
    rewrite IH.
    - rewrite E1. destruct ((a =? i)%Z && (b =? j)%Z); cbn [orb andb].
      + destruct (existsb (fun x => Rltb (eta i j) x) (cands depth stage i j)) eqn:Ex; auto.
        * destruct (existsb _ l); auto.
        * destruct (existsb _ l); auto.
      + auto.
    - intros i' j'. rewrite E1. destruct (_ && _ && _); auto.
  Qed.

  Lemma flooding_closed depth eta stage i j :
    flooding_correction (A:=A) P depth eta stage i j
    = if inbb L W i j && is_shore depth (i, j) then flood_value depth eta stage i j else stage i j.
  Proof.
    unfold flooding_correction. rewrite gmemo_id.
    rewrite (flood_fold depth eta stage) by auto.
    assert (Eq : existsb (fun ij => (fst ij =? i)%Z && (snd ij =? j)%Z)
        (filter (fun ij => negb (wetm depth (fst ij) (snd ij))
          && existsb (fun n => fix_edges P (shift_plane P false (wetm depth)) n (fst ij) (snd ij)) D8)
          (cells L W)) = inbb L W i j && is_shore depth (i, j)).
    { apply eq_true_iff_eq. rewrite existsb_exists, andb_true_iff. split.
      - intros ([a b] & Hin & E). cbn [fst snd] in E. apply andb_prop in E as [E1 E2].
        apply Z.eqb_eq in E1, E2. subst. apply filter_In in Hin as [Hin Hs].
        apply cells_In in Hin. split; [apply inbb_spec; auto|exact Hs].
      - intros [Hin Hs]. exists (i, j). split.
        + apply filter_In. split; [apply cells_In, inbb_spec; auto|exact Hs].
        + cbn [fst snd]. rewrite !Z.eqb_refl. reflexivity. }
    rewrite Eq. destruct (inbb L W i j && is_shore depth (i, j)); auto.
    unfold flood_value.
    destruct (existsb (fun x => Rltb (eta i j) x) (cands depth stage i j)); auto.
  Qed.

  Lemma flood_value_gt depth eta stage i j :
    flood_value depth eta stage i j <> stage i j -> eta i j < flood_value depth eta stage i j.
  Proof.
    unfold flood_value. destruct (existsb _ _) eqn:E; [|congruence]. intros _.
    apply existsb_exists in E as (x & Hin & Hx). apply Rltb_true in Hx.
    apply Rlt_le_trans with x; auto. apply fold_fmax_ge.
    destruct (cands depth stage i j) as [|y l]; [contradiction|]. cbn [hd tl].
    destruct Hin as [->|Hin]; auto. left; lra.
  Qed.

  Lemma flooding_changes depth eta stage i j : (2 <= L)%Z -> (2 <= W)%Z ->
    flooding_correction (A:=A) P depth eta stage i j <> stage i j ->
    inb L W i j /\ ~ wet depth i j /\
    (exists a b, inb L W a b /\ (Z.abs (a - i) <= 1)%Z /\ (Z.abs (b - j) <= 1)%Z
        /\ (a, b) <> (i, j) /\ wet depth a b) /\
    eta i j < flooding_correction (A:=A) P depth eta stage i j.
  Proof.
    intros HL HW. rewrite flooding_closed.
    destruct (inbb L W i j) eqn:Ein; [|intros Hx; exfalso; apply Hx; reflexivity].
    destruct (is_shore depth (i, j)) eqn:Es; cbn [andb]; [|intros Hx; exfalso; apply Hx; reflexivity].
    intros Hne. apply inbb_spec in Ein. split; auto.
    unfold is_shore in Es. apply andb_prop in Es as [E1 E2]. cbn [fst snd] in *.
    apply negb_true_iff in E1. ra_in E1. apply Rltb_false in E1.
    assert (Hdry : ~ wet depth i j) by (unfold wet; lra).
    split; auto. split.
    - apply existsb_exists in E2 as (n & Hn & E2). unfold D8 in Hn. apply in_seq in Hn.
      destruct (wet_nh_real depth i j n HL HW Ein ltac:(lia) E2) as (a & b & Hin & Ha & Hb & Hw).
      exists a, b. repeat split; auto; try apply Hin. intros E; inversion E; subst; contradiction.
    - apply flood_value_gt; auto.
  Qed.

  (** Any order of visiting the shore cells gives the same stage. *)
  Lemma flood_order depth eta stage l :
    Permutation l (cells L W) ->
    fold_left (fun s ij => flood_one (A:=A) (fix_edges P (shift_plane P false (wetm depth)))
        (shift_plane P (fz (Arith:=A) 0) stage) eta (fst ij) (snd ij) s)
      (filter (is_shore depth) l) stage
    = flooding_correction (A:=A) P depth eta stage.
  Proof.
    intros Hp. apply functional_extensionality; intro i. apply functional_extensionality; intro j.
    rewrite flooding_closed. rewrite (flood_fold depth eta stage) by auto.
    assert (Eq : existsb (fun ij => (fst ij =? i)%Z && (snd ij =? j)%Z)
        (filter (is_shore depth) l) = inbb L W i j && is_shore depth (i, j)).
    { apply eq_true_iff_eq. rewrite existsb_exists, andb_true_iff. split.
      - intros ([a b] & Hin & E). cbn [fst snd] in E. apply andb_prop in E as [E1 E2].
        apply Z.eqb_eq in E1, E2. subst. apply filter_In in Hin as [Hin Hs].
        apply (Permutation_in _ Hp) in Hin.
        apply cells_In in Hin. split; [apply inbb_spec; auto|exact Hs].
      - intros [Hin Hs]. exists (i, j). split.
        + apply filter_In. split; auto. apply (Permutation_in _ (Permutation_sym Hp)).
          apply cells_In, inbb_spec; auto.
        + cbn [fst snd]. rewrite !Z.eqb_refl. reflexivity. }
    rewrite Eq. destruct (inbb L W i j && is_shore depth (i, j)); auto.
    unfold flood_value.
    destruct (existsb (fun x => Rltb (eta i j) x) (cands depth stage i j)); auto.
  Qed.
End Flood.
