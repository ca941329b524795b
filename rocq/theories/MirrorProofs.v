(** Mirror images: routing weights and the pure parts of a step (C72). *)
From Coq Require Import ZArith List Bool Reals Lra Lia FunctionalExtensionality.
From Verif Require Import Base RLemmas Shared SharedSpec SharedProofs Params State Water Sed Iter VecLemmas
  WaterSpec WeightProofs WalkProofs RunProofs ChanceSpec ChanceProofs MirrorSpec.
Import ListNotations.
Local Open Scope Z_scope.
Notation XA := (RA (fun x => x)).

Lemma flip_flip W j : flip W (flip W j) = j.
Proof. unfold flip. lia. Qed.
Lemma flip_inb L W i j : inb L W i j -> inb L W i (flip W j).
Proof. unfold inb, flip. lia. Qed.
Lemma flip_inbb L W i j : inbb L W i (flip W j) = inbb L W i j.
Proof.
  apply eq_true_iff_eq. rewrite !inbb_spec. unfold inb, flip. lia.
Qed.
Lemma fd_lt k : (k < 9)%nat -> (flip_dir k < 9)%nat.
Proof. intros H. apply lt9 in H. decompose [or] H; subst k; cbn; lia. Qed.
Lemma fd_fd k : (k < 9)%nat -> flip_dir (flip_dir k) = k.
Proof. intros H. apply lt9 in H. decompose [or] H; subst k; reflexivity. Qed.
Lemma fd_ctr k : (k < 9)%nat -> Nat.eqb (flip_dir k) 4 = Nat.eqb k 4.
Proof. intros H. apply lt9 in H. decompose [or] H; subst k; reflexivity. Qed.
Lemma fd_top k : (k < 9)%nat -> Nat.ltb (flip_dir k) 3 = Nat.ltb k 3.
Proof. intros H. apply lt9 in H. decompose [or] H; subst k; reflexivity. Qed.
Lemma fd_row k : (k < 9)%nat -> jwalk_flat (flip_dir k) = jwalk_flat k.
Proof. intros H. apply lt9 in H. decompose [or] H; subst k; reflexivity. Qed.
Lemma fd_col k : (k < 9)%nat -> iwalk_flat (flip_dir k) = - iwalk_flat k.
Proof. intros H. apply lt9 in H. decompose [or] H; subst k; reflexivity. Qed.
Lemma fd_nb_row i k : (k < 9)%nat -> nb_row i (flip_dir k) = nb_row i k.
Proof. intros H. apply lt9 in H. decompose [or] H; subst k; reflexivity. Qed.
Lemma fd_nb_col W j k : (k < 9)%nat -> nb_col (flip W j) (flip_dir k) = flip W (nb_col j k).
Proof. intros H. unfold nb_col, flip. apply lt9 in H. decompose [or] H; subst k; cbn; lia. Qed.

(** ** Vectors of the nine directions *)
Definition vmir {T} (v v' : nat -> T) : Prop := forall k, (k < 9)%nat -> v' (flip_dir k) = v k.

Lemma vmir_all {T} (v v' : nat -> T) (Q : T -> T -> Prop) : vmir v v' -> forall k, (k < 9)%nat -> v' k = v (flip_dir k).
Proof. intros H k Hk. rewrite <- (H (flip_dir k)) by (apply fd_lt; auto). rewrite fd_fd; auto. Qed.
Lemma vmir_sum v v' : vmir v v' -> sum9 v' = sum9 v.
Proof.
  intros H. unfold sum9.
  rewrite <- (H 0%nat), <- (H 1%nat), <- (H 2%nat), <- (H 3%nat), <- (H 4%nat), <- (H 5%nat), <- (H 6%nat), <- (H 7%nat), <- (H 8%nat) by lia.
  cbn [flip_dir nth]. lra.
Qed.
Lemma vmir_vsum v v' : vmir v v' -> vsum (A:=XA) v' = vsum (A:=XA) v.
Proof. intros H. change XA with RX. rewrite !vsum_X. apply vmir_sum; auto. Qed.
Lemma vmir_count v v' : vmir v v' -> vcount v' = vcount v.
Proof.
  intros H. unfold vcount, D9. cbn [seq fold_left].
  rewrite <- (H 0%nat), <- (H 1%nat), <- (H 2%nat), <- (H 3%nat), <- (H 4%nat), <- (H 5%nat), <- (H 6%nat), <- (H 7%nat), <- (H 8%nat) by lia.
  cbn [flip_dir nth].
  destruct (v' 0%nat), (v' 1%nat), (v' 2%nat), (v' 3%nat), (v' 4%nat), (v' 5%nat), (v' 6%nat), (v' 7%nat), (v' 8%nat); reflexivity.
Qed.
Lemma vmir_set {T} (v v' : vec T) m m' x : vmir v v' -> vmir m m' -> vmir (vset v m x) (vset v' m' x).
Proof. intros H Hm k Hk. unfold vset. rewrite H, Hm by auto. reflexivity. Qed.
Lemma vmir_ctr : vmir isctr isctr.
Proof. intros k Hk. unfold isctr. apply fd_ctr; auto. Qed.
Lemma vmir_const {T} (x : T) : vmir (fun _ => x) (fun _ => x).
Proof. intros k Hk. reflexivity. Qed.
Lemma vmir_map {T U} (f : T -> U) v v' : vmir v v' -> vmir (fun k => f (v k)) (fun k => f (v' k)).
Proof. intros H k Hk. rewrite H; auto. Qed.
Lemma vmir_map2 {T U V} (f : T -> U -> V) v v' u u' : vmir v v' -> vmir u u' ->
  vmir (fun k => f (v k) (u k)) (fun k => f (v' k) (u' k)).
Proof. intros H Hu k Hk. rewrite H, Hu; auto. Qed.

(** Results: both fail in the same way, or both give related values. *)
Definition rmir {T U} (Q : T -> U -> Prop) (r : result T) (r' : result U) : Prop :=
  match r, r' with
  | Ok x, Ok x' => Q x x'
  | Err e, Err e' => e' = e
  | _, _ => False
  end.

Lemma rebalance_mir v v' : vmir v v' -> vmir (rebalance (A:=XA) v) (rebalance (A:=XA) v').
Proof.
  intros H. unfold rebalance. rewrite (vmir_vsum v v' H), !vmemo_id.
  destruct (fltb (fz 0) (vsum (A:=XA) v)); auto.
  apply (vmir_map (fun x => fdiv (Arith:=XA) x (vsum (A:=XA) v))); auto.
Qed.
Lemma clear_mir v v' m m' : vmir v v' -> vmir m m' -> vmir (clear_dirs (A:=XA) v m) (clear_dirs (A:=XA) v' m').
Proof. intros H Hm. unfold clear_dirs. apply vmir_set; [apply vmir_set; auto|apply vmir_ctr]. Qed.

Lemma norm_mir v v' : vmir v v' ->
  vmir (fun k => fdiv (Arith:=XA) (v k) (vsum (A:=XA) v)) (fun k => fdiv (Arith:=XA) (v' k) (vsum (A:=XA) v')).
Proof. intros H k Hk. rewrite (vmir_vsum v v' H), H; auto. Qed.

Lemma fallback_mir dry dry' wall wall' inv inv' : vmir dry dry' -> vmir wall wall' -> vmir inv inv' ->
  rmir vmir (water_fallback (A:=XA) dry wall inv) (water_fallback (A:=XA) dry' wall' inv').
Proof.
  intros Hd Hw Hi. unfold water_fallback.
  assert (H1 : vmir (fun k => negb (dry k) && negb (inv k)) (fun k => negb (dry' k) && negb (inv' k))).
  { intros k Hk. rewrite Hd, Hi; auto. }
  assert (H2 : vmir (fun k => negb (wall k)) (fun k => negb (wall' k))).
  { intros k Hk. rewrite Hw; auto. }
  rewrite (vmir_count _ _ H1), (vmir_count _ _ H2).
  destruct (0 <? vcount (fun k => negb (dry k) && negb (inv k))); [|destruct (0 <? vcount (fun k => negb (wall k))); [|reflexivity]];
    cbn [rbind rmir]; rewrite !vmemo_id; apply norm_mir; apply vmir_set; auto using vmir_const.
Qed.

Lemma weight_cell_mir row0 ws ws' wi wi' dn dn' mw mw' ct ct' dry gamma theta :
  vmir ws ws' -> vmir wi wi' -> vmir dn dn' -> vmir mw mw' -> vmir ct ct' ->
  rmir vmir (get_weight_at_cell_water (A:=XA) row0 ws wi dn mw ct dry gamma theta)
            (get_weight_at_cell_water (A:=XA) row0 ws' wi' dn' mw' ct' dry gamma theta).
Proof.
  intros Hs Hi Hd Hm Hc. unfold get_weight_at_cell_water. rewrite !vanynan_R. cbn [orb].
  set (dr := fun k => fltb (dn k) dry). set (dr' := fun k => fltb (dn' k) dry).
  set (wa := fun k => ct k =? -2). set (wa' := fun k => ct' k =? -2).
  assert (Hdr : vmir dr dr') by (intros k Hk; unfold dr, dr'; rewrite Hd; auto).
  assert (Hwa : vmir wa wa') by (intros k Hk; unfold wa, wa'; rewrite Hc; auto).
  set (iv := fun k => wa k || isctr k || row0 && Nat.ltb k 3). set (iv' := fun k => wa' k || isctr k || row0 && Nat.ltb k 3).
  assert (Hiv : vmir iv iv').
  { intros k Hk. unfold iv, iv'. rewrite Hwa, fd_top, vmir_ctr; auto. }
  assert (Hdw : vmir (fun k => dr k || wa k) (fun k => dr' k || wa' k)) by (apply vmir_map2; auto).
  set (cw := combined_weight _ _ dn mw gamma theta). set (cw' := combined_weight _ _ dn' mw' gamma theta).
  assert (Hcw : vmir cw cw').
  { unfold cw, cw', combined_weight. rewrite !vmemo_id. apply vmir_set; [|apply vmir_ctr].
    intros k Hk. rewrite Hd, Hm by auto.
    rewrite (rebalance_mir _ _ (clear_mir _ _ _ _ Hs Hdw)) by auto.
    rewrite (rebalance_mir _ _ (clear_mir _ _ _ _ Hi Hdw)) by auto. reflexivity. }
  rewrite (vmir_vsum _ _ Hcw). assert (H4 : wa' 4%nat = wa 4%nat) by (apply (Hwa 4%nat); lia).
  destruct (fltb (fz 0) (vsum (A:=XA) cw)); cbn [rbind].
  - rewrite !vanynan_R. cbn [rmir]. rewrite !vmemo_id.
    apply (vmir_map (fun x => fdiv (Arith:=XA) x (vsum (A:=XA) cw))); auto.
  - destruct (feqb (vsum (A:=XA) cw) (fz 0)); cbn [rbind]; [|reflexivity].
    change (ct 4%nat =? -2) with (wa 4%nat). change (ct' 4%nat =? -2) with (wa' 4%nat). rewrite H4.
    destruct (wa 4%nat); cbn [rbind]; [rewrite !vanynan_R; cbn [rmir]; apply vmir_const|].
    pose proof (fallback_mir _ _ _ _ _ _ Hdr Hwa Hiv) as Q. fold iv iv'.
    change (fun k : nat => (ct k =? -2) || isctr k || row0 && (k <? 3)%nat) with iv.
    change (fun k : nat => (ct' k =? -2) || isctr k || row0 && (k <? 3)%nat) with iv'.
    destruct (water_fallback dr wa iv), (water_fallback dr' wa' iv'); cbn [rmir rbind] in *; try tauto.
Qed.

(** ** Windows *)
Lemma nearest_mir {T} L W (g g' : grid T) i j : 1 <= L -> 1 <= W -> mirror_image L W g g' ->
  nearest L W g' i (flip W j) = nearest L W g i j.
Proof.
  intros HL HW H. unfold nearest.
  replace (clamp 0 (W - 1) (flip W j)) with (flip W (clamp 0 (W - 1) j)) by (unfold clamp, flip; lia).
  apply H. unfold inb, clamp. lia.
Qed.
Lemma at_nb_mir {T} L W (g g' : grid T) i j : 1 <= L -> 1 <= W -> mirror_image L W g g' ->
  vmir (at_nb L W g i j) (at_nb L W g' i (flip W j)).
Proof.
  intros HL HW H k Hk. unfold at_nb. rewrite fd_nb_row, fd_nb_col by auto. apply nearest_mir; auto.
Qed.
Lemma window_mir {T} (d : T) L W g g' i j : inb L W i j -> mirror_image L W g g' ->
  vmir (window (custom_pad d L W g) i j) (window (custom_pad d L W g') i (flip W j)).
Proof.
  intros Hi H k Hk. rewrite !pad_window by (auto using flip_inb, fd_lt).
  apply (at_nb_mir L W g g' i j); auto; destruct Hi; lia.
Qed.

Lemma dist_mir : vmir (distances_flat (A:=XA)) (distances_flat (A:=XA)).
Proof. intros k Hk. apply lt9 in Hk. decompose [or] Hk; subst k; reflexivity. Qed.
Lemma jvec_mir : vmir (jvec_flat (A:=XA)) (jvec_flat (A:=XA)).
Proof. intros k Hk. apply lt9 in Hk. decompose [or] Hk; subst k; reflexivity. Qed.
Lemma ivec_mir k : (k < 9)%nat -> ivec_flat (A:=XA) (flip_dir k) = (- ivec_flat (A:=XA) k)%R.
Proof. intros Hk. unfold ivec_flat, flit. ra. apply lt9 in Hk. decompose [or] Hk; subst k; cbn; lra. Qed.

Lemma sfc_mir s v v' : vmir v v' -> vmir (get_weight_sfc (A:=XA) s v) (get_weight_sfc (A:=XA) s v').
Proof. intros H k Hk. unfold get_weight_sfc. rewrite H, dist_mir; auto. Qed.
Lemma int_mir qx qy : vmir (get_weight_int (A:=XA) qx qy) (get_weight_int (A:=XA) qx (- qy)%R).
Proof.
  intros k Hk. unfold get_weight_int. rewrite jvec_mir, ivec_mir, dist_mir by auto. f_equal. f_equal. ra. ring.
Qed.

Section WaterWeights.
  Context (P : params R).
  Notation L := (p_L P).
  Notation W := (p_W P).
  Notation P' := (mirror_params P).

  Lemma water_cell_mir depth depth' stage stage' mw mw' ct ct' qx qx' qy qy' i j :
    mirror_image L W depth depth' -> mirror_image L W stage stage' -> mirror_image L W mw mw' ->
    mirror_image L W ct ct' -> mirror_image L W qx qx' -> mirror_vector L W qy qy' -> inb L W i j ->
    rmir vmir (water_weight_cell (A:=XA) P depth stage mw ct qx qy i j)
              (water_weight_cell (A:=XA) P' depth' stage' mw' ct' qx' qy' i (flip W j)).
  Proof.
    intros Hd Hs Hm Hc Hx Hy Hi. unfold water_weight_cell. rewrite !vmemo_id.
    cbn [p_L p_W p_dry_depth p_gamma p_theta_water mirror_params].
    rewrite (Hx i j Hi), (Hy i j Hi), (Hs i j Hi).
    apply weight_cell_mir; auto using window_mir, int_mir, sfc_mir.
  Qed.
End WaterWeights.

(** ** Sediment weights *)
Lemma sed_cell_mir wi wi' dn dn' ct ct' dry theta ms ms' :
  vmir wi wi' -> vmir dn dn' -> vmir ct ct' -> vmir ms ms' ->
  rmir vmir (get_weight_at_cell_sediment (A:=XA) wi dn ct dry theta ms)
            (get_weight_at_cell_sediment (A:=XA) wi' dn' ct' dry theta ms').
Proof.
  intros Hi Hd Hc Hm. unfold get_weight_at_cell_sediment. rewrite !vanynan_R, !vmemo_id.
  set (w1 := vset (vset (fun k => fmul _ (vset wi _ _ k)) _ _) _ _).
  set (w1' := vset (vset (fun k => fmul _ (vset wi' _ _ k)) _ _) _ _).
  assert (H1 : vmir w1 w1').
  { intros k Hk. unfold w1, w1', vset. rewrite Hd, Hm, Hi, Hc, vmir_ctr by auto. reflexivity. }
  rewrite (vmir_vsum _ _ H1).
  set (w2 := vset (if feqb _ _ then _ else w1) _ _). set (w2' := vset (if feqb _ _ then _ else w1') _ _).
  assert (H2 : vmir w2 w2').
  { unfold w2, w2'. destruct (feqb (vsum (A:=XA) w1) (fz 0)).
    - intros k Hk. unfold vset. rewrite vmir_ctr, Hc, dist_mir by auto. reflexivity.
    - apply vmir_set; auto. apply vmir_ctr. }
  rewrite (vmir_vsum _ _ H2). destruct (feqb (vsum (A:=XA) w2) (fz 0)); cbn [rmir]; auto.
  apply (vmir_map (fun x => fdiv (Arith:=XA) x (vsum (A:=XA) w2))); auto.
Qed.
