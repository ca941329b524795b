(** Proofs for C88: an update reads and keeps nothing outside the domain. *)
From Coq Require Import ZArith List Bool Lia FunctionalExtensionality.
From Verif Require Import Base Shared Params State Water WaterSpec Sed SedSpec RunProofs Iter IterSpec
  Session SessionSpec ResumeProofs DomainSpec.
Import ListNotations.
Local Open Scope Z_scope.

Section Domain.
  Context {F : Type} {A : Arith F} {S : Type} {G : Rng F S} (P : params F).
  Notation L := (p_L P).
  Notation W := (p_W P).
  Hypothesis HL : 1 <= p_L P.
  Hypothesis HW : 1 <= p_W P.
  Notation ong := (on_grid (p_L P) (p_W P)).

  Ltac sub1 :=
    match goal with
    | H : same_inside _ ?a _, K : inb _ _ ?i ?j |- context [s_eta ?a ?i ?j] => rewrite (si_eta _ _ _ H i j (proj1 K) (proj2 K))
    | H : same_inside _ ?a _, K : inb _ _ ?i ?j |- context [s_eta0 ?a ?i ?j] => rewrite (si_eta0 _ _ _ H i j (proj1 K) (proj2 K))
    | H : same_inside _ ?a _, K : inb _ _ ?i ?j |- context [s_stage ?a ?i ?j] => rewrite (si_stage _ _ _ H i j (proj1 K) (proj2 K))
    | H : same_inside _ ?a _, K : inb _ _ ?i ?j |- context [s_depth ?a ?i ?j] => rewrite (si_depth _ _ _ H i j (proj1 K) (proj2 K))
    | H : same_inside _ ?a _, K : inb _ _ ?i ?j |- context [s_qx ?a ?i ?j] => rewrite (si_qx _ _ _ H i j (proj1 K) (proj2 K))
    | H : same_inside _ ?a _, K : inb _ _ ?i ?j |- context [s_qy ?a ?i ?j] => rewrite (si_qy _ _ _ H i j (proj1 K) (proj2 K))
    | H : same_inside _ ?a _, K : inb _ _ ?i ?j |- context [s_qw ?a ?i ?j] => rewrite (si_qw _ _ _ H i j (proj1 K) (proj2 K))
    | H : same_inside _ ?a _, K : inb _ _ ?i ?j |- context [s_qxn ?a ?i ?j] => rewrite (si_qxn _ _ _ H i j (proj1 K) (proj2 K))
    | H : same_inside _ ?a _, K : inb _ _ ?i ?j |- context [s_qyn ?a ?i ?j] => rewrite (si_qyn _ _ _ H i j (proj1 K) (proj2 K))
    | H : same_inside _ ?a _, K : inb _ _ ?i ?j |- context [s_qwn ?a ?i ?j] => rewrite (si_qwn _ _ _ H i j (proj1 K) (proj2 K))
    | H : same_inside _ ?a _, K : inb _ _ ?i ?j |- context [s_ux ?a ?i ?j] => rewrite (si_ux _ _ _ H i j (proj1 K) (proj2 K))
    | H : same_inside _ ?a _, K : inb _ _ ?i ?j |- context [s_uy ?a ?i ?j] => rewrite (si_uy _ _ _ H i j (proj1 K) (proj2 K))
    | H : same_inside _ ?a _, K : inb _ _ ?i ?j |- context [s_uw ?a ?i ?j] => rewrite (si_uw _ _ _ H i j (proj1 K) (proj2 K))
    | H : same_inside _ ?a _, K : inb _ _ ?i ?j |- context [s_qs ?a ?i ?j] => rewrite (si_qs _ _ _ H i j (proj1 K) (proj2 K))
    | H : same_inside _ ?a _, K : inb _ _ ?i ?j |- context [s_sand_frac ?a ?i ?j] => rewrite (si_sand_frac _ _ _ H i j (proj1 K) (proj2 K))
    | H : same_inside _ ?a _, K : inb _ _ ?i ?j |- context [s_active_layer ?a ?i ?j] => rewrite (si_active_layer _ _ _ H i j (proj1 K) (proj2 K))
    | H : same_inside _ ?a _, K : inb _ _ ?i ?j |- context [s_Vp_dep_sand ?a ?i ?j] => rewrite (si_Vp_dep_sand _ _ _ H i j (proj1 K) (proj2 K))
    | H : same_inside _ ?a _, K : inb _ _ ?i ?j |- context [s_Vp_dep_mud ?a ?i ?j] => rewrite (si_Vp_dep_mud _ _ _ H i j (proj1 K) (proj2 K))
    | H : same_inside _ ?a _, K : inb _ _ ?i ?j |- context [s_mod_water_weight ?a ?i ?j] => rewrite (si_mod_water_weight _ _ _ H i j (proj1 K) (proj2 K))
    | H : same_inside _ ?a _, K : inb _ _ ?i ?j |- context [s_mod_sed_weight ?a ?i ?j] => rewrite (si_mod_sed_weight _ _ _ H i j (proj1 K) (proj2 K))
    | H : same_inside _ ?a _, K : inb _ _ ?i ?j |- context [s_mod_erosion ?a ?i ?j] => rewrite (si_mod_erosion _ _ _ H i j (proj1 K) (proj2 K))
    | H : same_inside _ ?a _, K : inb _ _ ?i ?j |- context [s_sfc_visit ?a ?i ?j] => rewrite (si_sfc_visit _ _ _ H i j (proj1 K) (proj2 K))
    | H : same_inside _ ?a _, K : inb _ _ ?i ?j |- context [s_sfc_sum ?a ?i ?j] => rewrite (si_sfc_sum _ _ _ H i j (proj1 K) (proj2 K))
    | H : same_inside _ ?a _, K : inb _ _ ?i ?j |- context [s_Hnew ?a ?i ?j] => rewrite (si_Hnew _ _ _ H i j (proj1 K) (proj2 K))
    | H : same_inside _ ?a _, K : inb _ _ ?i ?j |- context [s_cf ?a ?i ?j] => rewrite (si_cf _ _ _ H i j (proj1 K) (proj2 K))
    | H : same_inside _ ?a _, K : inb _ _ ?i ?j |- context [s_cell_type ?a ?i ?j] => rewrite (si_cell_type _ _ _ H i j (proj1 K) (proj2 K))
    | H : same_inside _ ?a _ |- context [s_H_SL ?a] => rewrite (si_H_SL _ _ _ H)
    | H : same_inside _ ?a _ |- context [s_time ?a] => rewrite (si_time _ _ _ H)
    | H : same_inside _ ?a _ |- context [s_time_iter ?a] => rewrite (si_time_iter _ _ _ H)
    | H : same_inside _ ?a _ |- context [s_save_time_since_data ?a] => rewrite (si_save_time_since_data _ _ _ H)
    | H : same_inside _ ?a _ |- context [s_save_time_since_checkpoint ?a] => rewrite (si_save_time_since_checkpoint _ _ _ H)
    | H : same_inside _ ?a _ |- context [s_save_iter ?a] => rewrite (si_save_iter _ _ _ H)
    | H : same_inside _ ?a _ |- context [s_width ?a] => rewrite (si_width _ _ _ H)
    | H : same_inside _ ?a _ |- context [s_rng ?a] => rewrite (si_rng _ _ _ H)
    end.

  Ltac subst_inside := repeat sub1.

  Lemma ong_refl {T} (f : grid T) : ong f f.
  Proof. intros i j _ _. reflexivity. Qed.
  Lemma ong_in {T} (f g : grid T) i j : ong f g -> inb L W i j -> f i j = g i j.
  Proof. intros H [K1 K2]. apply H; assumption. Qed.
  Lemma ong_inb {T} (f g : grid T) : (forall i j, inb L W i j -> f i j = g i j) -> ong f g.
  Proof. intros H i j K1 K2. apply H. split; assumption. Qed.
  Lemma ong_set {T} (f g : grid T) i j x : ong f g -> ong (gset f i j x) (gset g i j x).
  Proof. intros H a b K1 K2. unfold gset. destruct (_ && _); [reflexivity|apply H; assumption]. Qed.
  Lemma ong_memo {T} (f g : grid T) : ong f g -> ong (gmemo L W f) (gmemo L W g).
  Proof. rewrite !gmemo_id. auto. Qed.

  Lemma pad_on {T} (d : T) f g : ong f g -> custom_pad d L W f = custom_pad d L W g.
  Proof.
    intros H. extensionality a. extensionality b. unfold custom_pad, slice_write.
    repeat match goal with
    | |- (if ?c then _ else _) = (if ?c then _ else _) => destruct c eqn:?
    end; try reflexivity; apply H;
    repeat match goal with E : _ && _ = true |- _ => apply andb_true_iff in E; destruct E end;
    repeat match goal with E : (_ <=? _) = true |- _ => apply Z.leb_le in E | E : (_ <? _) = true |- _ => apply Z.ltb_lt in E end;
    lia.
  Qed.

  (** ** Routing of the water *)
  Lemma weight_cell_on d d' s s' m m' (c c' : grid Z) qx qx' qy qy' i j :
    ong d d' -> ong s s' -> ong m m' -> ong c c' -> ong qx qx' -> ong qy qy' -> inb L W i j ->
    water_weight_cell P d s m c qx qy i j = water_weight_cell P d' s' m' c' qx' qy' i j.
  Proof.
    intros H1 H2 H3 H4 H5 H6 K. unfold water_weight_cell.
    rewrite (pad_on _ _ _ H1), (pad_on _ _ _ H2), (pad_on _ _ _ H3), (pad_on _ _ _ H4).
    rewrite (ong_in _ _ _ _ H2 K), (ong_in _ _ _ _ H5 K), (ong_in _ _ _ _ H6 K). reflexivity.
  Qed.
  Lemma first_err_on {T} (f g : Z -> Z -> result T) l :
    (forall i j, In (i, j) l -> f i j = g i j) -> first_err f l = first_err g l.
  Proof.
    induction l as [|[i j] l IH]; intros H; [reflexivity|]. cbn [first_err].
    rewrite (H i j (or_introl eq_refl)), IH; [reflexivity|]. intros a b K. apply H. right. exact K.
  Qed.
  Lemma weights_on d d' s s' m m' (c c' : grid Z) qx qx' qy qy' :
    ong d d' -> ong s s' -> ong m m' -> ong c c' -> ong qx qx' -> ong qy qy' ->
    alike (on_grid L W) (get_water_weight_array P d s m c qx qy) (get_water_weight_array P d' s' m' c' qx' qy').
  Proof.
    intros H1 H2 H3 H4 H5 H6. unfold get_water_weight_array. rewrite !gmemo_id.
    assert (K : forall i j, inb L W i j ->
      water_weight_cell P d s m c qx qy i j = water_weight_cell P d' s' m' c' qx' qy' i j)
      by (intros; apply weight_cell_on; assumption).
    rewrite (first_err_on _ (water_weight_cell P d' s' m' c' qx' qy')).
    - destruct (first_err _ _); [reflexivity|]. cbn [alike]. apply ong_inb. intros i j Kij. rewrite (K i j Kij). reflexivity.
    - intros i j Hin. apply K, cells_In, Hin.
  Qed.

  Lemma flat_in n n' : flat_ix P n = Ok n' -> inb L W (n' / W) (n' mod W).
  Proof.
    unfold flat_ix. destruct (_ && _) eqn:E; [|discriminate]. intros H. injection H as <-.
    apply andb_true_iff in E as [E1 E2]. apply Z.leb_le in E1. apply Z.ltb_lt in E2.
    split; [split; [apply Z.div_pos; lia|apply Z.div_lt_upper_bound; lia]|apply Z.mod_pos_bound; lia].
  Qed.
  Lemma choose_on w w' ps : ong w w' -> forall s,
    choose_next_directions P w ps s = choose_next_directions P w' ps s.
  Proof.
    intros H. induction ps as [|p ps IH]; intros s; [reflexivity|]. cbn [choose_next_directions].
    assert (E : (if cur p =? 0 then Ok (4%nat, s) else do n <- flat_ix P (cur p); random_pick (map (w (n / W) (n mod W)) D9) s)
              = (if cur p =? 0 then Ok (4%nat, s) else do n <- flat_ix P (cur p); random_pick (map (w' (n / W) (n mod W)) D9) s)).
    { destruct (cur p =? 0); [reflexivity|]. destruct (flat_ix P (cur p)) as [n|] eqn:En; [|reflexivity]. cbn [rbind].
      rewrite (ong_in _ _ _ _ H (flat_in _ _ En)). reflexivity. }
    rewrite E. clear E. destruct (if cur p =? 0 then _ else _) as [[k s1]|]; [|reflexivity]. cbn [rbind].
    rewrite IH. reflexivity.
  Qed.
  Lemma loops_on st st' H_SL ps : ong st st' -> forall stale,
    check_loops_from P st H_SL stale ps = check_loops_from P st' H_SL stale ps.
  Proof.
    intros H. induction ps as [|p ps IH]; intros stale; [reflexivity|]. cbn [check_loops_from].
    destruct (_ && _); [|rewrite IH; reflexivity].
    destruct (custom_unravel _ _) as [[x y]|]; [|reflexivity]. cbn [rbind].
    destruct (relocate _ _ _ _) as [[x1 y1]|]; [|reflexivity]. cbn [rbind].
    destruct (custom_ravel _ _) as [n|]; [|reflexivity]. cbn [rbind].
    destruct (inbb L W x y) eqn:E; [|reflexivity]. apply inbb_spec in E.
    rewrite IH, (ong_in _ _ _ _ H E). reflexivity.
  Qed.
  Lemma boundary_on c c' n : ong c c' -> at_boundary P c n = at_boundary P c' n.
  Proof.
    intros H. unfold at_boundary. destruct (flat_ix P n) as [m|] eqn:E; [|reflexivity]. cbn [rbind].
    rewrite (ong_in _ _ _ _ H (flat_in _ _ E)). reflexivity.
  Qed.
  Lemma record_on c c' : ong c c' -> record_step P c = record_step P c'.
  Proof. intros H. extensionality p. unfold record_step. rewrite (boundary_on c c' _ H). reflexivity. Qed.
  Lemma step_on w w' st st' H_SL c c' step x : ong w w' -> ong st st' -> ong c c' ->
    water_step P w st H_SL c step x = water_step P w' st' H_SL c' step x.
  Proof.
    intros H1 H2 H3. unfold water_step. destruct x as [[[ps q] width] s].
    rewrite (choose_on w w' ps H1 s), (record_on _ _ H3).
    destruct (choose_next_directions P w' ps s) as [[ps1 s1]|]; [|reflexivity]. cbn [rbind].
    destruct (update_Q P q cur _) as [q1|]; [|reflexivity]. cbn [rbind].
    destruct (update_Q P q1 new _) as [q2|]; [|reflexivity]. cbn [rbind].
    unfold check_for_loops. rewrite (loops_on st st' _ _ H2). reflexivity.
  Qed.
  Lemma loop_on w w' st st' H_SL c c' fuel : ong w w' -> ong st st' -> ong c c' -> forall step x,
    water_loop P w st H_SL c fuel step x = water_loop P w' st' H_SL c' fuel step x.
  Proof.
    intros H1 H2 H3. induction fuel as [|fuel IH]; intros step x; [reflexivity|]. cbn [water_loop].
    destruct (any_active _); [|reflexivity]. rewrite (step_on w w' st st' H_SL c c' _ _ H1 H2 H3).
    destruct (water_step P w' st' H_SL c' (step + 1) x); [|reflexivity]. cbn [rbind]. apply IH.
  Qed.
  Lemma run_on (a b : state F S) : same_inside P a b -> run_water_iteration P a = run_water_iteration P b.
  Proof.
    intros H. unfold run_water_iteration. rewrite (si_rng _ _ _ H), (si_width _ _ _ H), (si_H_SL _ _ _ H).
    destruct (get_start_indices _ _ _ _) as [[starts s]|]; [|reflexivity]. cbn [rbind].
    destruct (_ <=? 0); [reflexivity|].
    pose proof (weights_on _ _ _ _ _ _ _ _ _ _ _ _ (si_depth _ _ _ H) (si_stage _ _ _ H) (si_mod_water_weight _ _ _ H)
      (si_cell_type _ _ _ H) (si_qx _ _ _ H) (si_qy _ _ _ H)) as K.
    destruct (get_water_weight_array P (s_depth a) _ _ _ _ _) as [w|e];
      destruct (get_water_weight_array P (s_depth b) _ _ _ _ _) as [w'|e']; cbn in K; try contradiction; cbn [rbind].
    - apply loop_on; [exact K|apply (si_stage _ _ _ H)|apply (si_cell_type _ _ _ H)].
    - rewrite K. reflexivity.
  Qed.

  (** ** The free surface *)
  Lemma back_on u0 h0 S0 dx uw uw' ux ux' uy uy' d d' rest :
    ong uw uw' -> ong ux ux' -> ong uy uy' -> ong d d' -> Forall (fun ij => inb L W (fst ij) (snd ij)) rest ->
    forall oc dH ip jp Hg v t,
    walk_back u0 h0 S0 dx uw ux uy d oc dH ip jp rest Hg v t = walk_back u0 h0 S0 dx uw' ux' uy' d' oc dH ip jp rest Hg v t.
  Proof.
    intros H1 H2 H3 H4. induction 1 as [|[i j] rest K _ IH]; intros oc dH ip jp Hg v t; [reflexivity|].
    cbn [walk_back]. cbn [fst snd] in K.
    rewrite (ong_in _ _ _ _ H1 K), (ong_in _ _ _ _ H2 K), (ong_in _ _ _ _ H3 K), (ong_in _ _ _ _ H4 K). apply IH.
  Qed.
  Lemma unravel_all l : forall xys, mapM (unravel_in P) l = Ok xys -> Forall (fun ij => inb L W (fst ij) (snd ij)) xys.
  Proof.
    induction l as [|n l IH]; intros xys; cbn [mapM].
    - intros E. injection E as <-. constructor.
    - unfold unravel_in at 1. destruct (custom_unravel n (L, W)) as [[i j]|]; [|discriminate]. cbn [rbind].
      destruct (inbb L W i j) eqn:E; [|discriminate]. cbn [rbind].
      destruct (mapM _ l) as [ys|]; [|discriminate]. cbn [rbind]. intros Q. injection Q as <-.
      constructor; [apply inbb_spec, E|apply IH; reflexivity].
  Qed.
  Lemma accumulate_one_on (a b : state F S) p vt : same_inside P a b -> accumulate_one P a p vt = accumulate_one P b p vt.
  Proof.
    intros H. unfold accumulate_one. destruct (mapM _ _) as [xys|] eqn:E; [|reflexivity]. cbn [rbind].
    apply unravel_all in E. destruct xys as [|[x y] rest]; [reflexivity|]. inversion E as [|? ? K1 K2]; subst. cbn [fst snd] in K1.
    rewrite (ong_in _ _ _ _ (si_cell_type _ _ _ H) K1), (si_H_SL _ _ _ H).
    destruct (_ && _); [|reflexivity]. f_equal. apply back_on; try exact K2; apply H.
  Qed.
  Lemma accumulate_on (a b : state F S) ps : same_inside P a b -> forall vt,
    accumulate_free_surface_walks P a ps vt = accumulate_free_surface_walks P b ps vt.
  Proof.
    intros H. induction ps as [|p ps IH]; intros vt; [reflexivity|]. cbn [accumulate_free_surface_walks].
    rewrite (accumulate_one_on _ _ _ _ H). destruct (accumulate_one P b p vt) as [[v t]|]; [|reflexivity]. cbn [rbind]. apply IH.
  Qed.
  Lemma smooth_on Cs c c' n : ong c c' -> forall f g, ong f g -> ong (smooth_passes P Cs c n f) (smooth_passes P Cs c' n g).
  Proof.
    intros Hc. induction n as [|n IH]; intros f g H; [exact H|]. cbn [smooth_passes]. apply IH. rewrite !gmemo_id.
    apply ong_inb. intros i j K. unfold smooth_cell.
    rewrite (ong_in _ _ _ _ Hc K), (ong_in _ _ _ _ H K), (pad_on _ _ _ Hc), (pad_on _ _ _ H). reflexivity.
  Qed.
  Lemma shift_on {T} (d : T) f g : ong f g -> shift_plane P d f = shift_plane P d g.
  Proof.
    intros H. extensionality n. extensionality i. extensionality j. unfold shift_plane.
    destruct (inbb _ _ _ _) eqn:E; [|reflexivity]. apply inbb_spec in E. apply ong_in; assumption.
  Qed.
  Lemma flood_fold wn sn e e' l : ong e e' -> Forall (fun ij => inb L W (fst ij) (snd ij)) l -> forall s s', ong s s' ->
    ong (fold_left (fun s ij => flood_one wn sn e (fst ij) (snd ij) s) l s)
        (fold_left (fun s ij => flood_one wn sn e' (fst ij) (snd ij) s) l s').
  Proof.
    intros He. induction 1 as [|[i j] l K _ IH]; intros s s' H; [exact H|]. cbn [fold_left]. apply IH.
    cbn [fst snd] in K |- *. unfold flood_one. rewrite (ong_in _ _ _ _ He K).
    destruct (existsb _ _); [apply ong_set, H|exact H].
  Qed.
  Lemma flood_on d d' e e' s s' : ong d d' -> ong e e' -> ong s s' ->
    ong (flooding_correction P d e s) (flooding_correction P d' e' s').
  Proof.
    intros H1 H2 H3. unfold flooding_correction. cbn zeta.
    assert (K : ong (fun i j => fltb (p_dry_depth P) (d i j)) (fun i j => fltb (p_dry_depth P) (d' i j)))
      by (intros i j I J; rewrite (H1 i j I J); reflexivity).
    rewrite (shift_on false _ _ K), (shift_on (fz 0) _ _ H3). apply ong_memo.
    rewrite (filter_ext_in _ (fun ij => negb (fltb (p_dry_depth P) (d' (fst ij) (snd ij)))
      && existsb (fun n => fix_edges P (shift_plane P false (fun i j => fltb (p_dry_depth P) (d' i j))) n (fst ij) (snd ij)) D8)).
    2:{ intros [i j] Hin. cbn [fst snd]. apply cells_In in Hin. rewrite (ong_in _ _ _ _ H1 Hin). reflexivity. }
    apply flood_fold; [exact H2| |exact H3].
    apply Forall_forall. intros [i j] Hin. apply filter_In in Hin as [Hin _]. apply cells_In, Hin.
  Qed.

  (** Assignments preserve the relation. *)
  Ltac asg := intros; constructor; cbn; solve [assumption | reflexivity | match goal with H : same_inside _ _ _ |- _ => apply H end].
  Lemma set_eta_on x y (a b : state F S) : ong x y -> same_inside P a b -> same_inside P (set_eta x a) (set_eta y b).
  Proof. asg. Qed.
  Lemma set_eta0_on x y (a b : state F S) : ong x y -> same_inside P a b -> same_inside P (set_eta0 x a) (set_eta0 y b).
  Proof. asg. Qed.
  Lemma set_stage_on x y (a b : state F S) : ong x y -> same_inside P a b -> same_inside P (set_stage x a) (set_stage y b).
  Proof. asg. Qed.
  Lemma set_depth_on x y (a b : state F S) : ong x y -> same_inside P a b -> same_inside P (set_depth x a) (set_depth y b).
  Proof. asg. Qed.
  Lemma set_qx_on x y (a b : state F S) : ong x y -> same_inside P a b -> same_inside P (set_qx x a) (set_qx y b).
  Proof. asg. Qed.
  Lemma set_qy_on x y (a b : state F S) : ong x y -> same_inside P a b -> same_inside P (set_qy x a) (set_qy y b).
  Proof. asg. Qed.
  Lemma set_qw_on x y (a b : state F S) : ong x y -> same_inside P a b -> same_inside P (set_qw x a) (set_qw y b).
  Proof. asg. Qed.
  Lemma set_qxn_on x y (a b : state F S) : ong x y -> same_inside P a b -> same_inside P (set_qxn x a) (set_qxn y b).
  Proof. asg. Qed.
  Lemma set_qyn_on x y (a b : state F S) : ong x y -> same_inside P a b -> same_inside P (set_qyn x a) (set_qyn y b).
  Proof. asg. Qed.
  Lemma set_qwn_on x y (a b : state F S) : ong x y -> same_inside P a b -> same_inside P (set_qwn x a) (set_qwn y b).
  Proof. asg. Qed.
  Lemma set_ux_on x y (a b : state F S) : ong x y -> same_inside P a b -> same_inside P (set_ux x a) (set_ux y b).
  Proof. asg. Qed.
  Lemma set_uy_on x y (a b : state F S) : ong x y -> same_inside P a b -> same_inside P (set_uy x a) (set_uy y b).
  Proof. asg. Qed.
  Lemma set_uw_on x y (a b : state F S) : ong x y -> same_inside P a b -> same_inside P (set_uw x a) (set_uw y b).
  Proof. asg. Qed.
  Lemma set_qs_on x y (a b : state F S) : ong x y -> same_inside P a b -> same_inside P (set_qs x a) (set_qs y b).
  Proof. asg. Qed.
  Lemma set_sand_frac_on x y (a b : state F S) : ong x y -> same_inside P a b -> same_inside P (set_sand_frac x a) (set_sand_frac y b).
  Proof. asg. Qed.
  Lemma set_active_layer_on x y (a b : state F S) : ong x y -> same_inside P a b -> same_inside P (set_active_layer x a) (set_active_layer y b).
  Proof. asg. Qed.
  Lemma set_Vp_dep_sand_on x y (a b : state F S) : ong x y -> same_inside P a b -> same_inside P (set_Vp_dep_sand x a) (set_Vp_dep_sand y b).
  Proof. asg. Qed.
  Lemma set_Vp_dep_mud_on x y (a b : state F S) : ong x y -> same_inside P a b -> same_inside P (set_Vp_dep_mud x a) (set_Vp_dep_mud y b).
  Proof. asg. Qed.
  Lemma set_mod_water_weight_on x y (a b : state F S) : ong x y -> same_inside P a b -> same_inside P (set_mod_water_weight x a) (set_mod_water_weight y b).
  Proof. asg. Qed.
  Lemma set_mod_sed_weight_on x y (a b : state F S) : ong x y -> same_inside P a b -> same_inside P (set_mod_sed_weight x a) (set_mod_sed_weight y b).
  Proof. asg. Qed.
  Lemma set_mod_erosion_on x y (a b : state F S) : ong x y -> same_inside P a b -> same_inside P (set_mod_erosion x a) (set_mod_erosion y b).
  Proof. asg. Qed.
  Lemma set_sfc_visit_on x y (a b : state F S) : ong x y -> same_inside P a b -> same_inside P (set_sfc_visit x a) (set_sfc_visit y b).
  Proof. asg. Qed.
  Lemma set_sfc_sum_on x y (a b : state F S) : ong x y -> same_inside P a b -> same_inside P (set_sfc_sum x a) (set_sfc_sum y b).
  Proof. asg. Qed.
  Lemma set_Hnew_on x y (a b : state F S) : ong x y -> same_inside P a b -> same_inside P (set_Hnew x a) (set_Hnew y b).
  Proof. asg. Qed.
  Lemma set_cf_on x y (a b : state F S) : ong x y -> same_inside P a b -> same_inside P (set_cf x a) (set_cf y b).
  Proof. asg. Qed.
  Lemma set_cell_type_on x y (a b : state F S) : ong x y -> same_inside P a b -> same_inside P (set_cell_type x a) (set_cell_type y b).
  Proof. asg. Qed.
  Lemma set_H_SL_on x y (a b : state F S) : x = y -> same_inside P a b -> same_inside P (set_H_SL x a) (set_H_SL y b).
  Proof. intros ->. asg. Qed.
  Lemma set_time_on x y (a b : state F S) : x = y -> same_inside P a b -> same_inside P (set_time x a) (set_time y b).
  Proof. intros ->. asg. Qed.
  Lemma set_time_iter_on x y (a b : state F S) : x = y -> same_inside P a b -> same_inside P (set_time_iter x a) (set_time_iter y b).
  Proof. intros ->. asg. Qed.
  Lemma set_save_time_since_data_on x y (a b : state F S) : x = y -> same_inside P a b -> same_inside P (set_save_time_since_data x a) (set_save_time_since_data y b).
  Proof. intros ->. asg. Qed.
  Lemma set_save_time_since_checkpoint_on x y (a b : state F S) : x = y -> same_inside P a b -> same_inside P (set_save_time_since_checkpoint x a) (set_save_time_since_checkpoint y b).
  Proof. intros ->. asg. Qed.
  Lemma set_save_iter_on x y (a b : state F S) : x = y -> same_inside P a b -> same_inside P (set_save_iter x a) (set_save_iter y b).
  Proof. intros ->. asg. Qed.
  Lemma set_width_on x y (a b : state F S) : x = y -> same_inside P a b -> same_inside P (set_width x a) (set_width y b).
  Proof. intros ->. asg. Qed.
  Lemma set_rng_on x y (a b : state F S) : x = y -> same_inside P a b -> same_inside P (set_rng x a) (set_rng y b).
  Proof. intros ->. asg. Qed.

  Lemma surface_on ps (a b : state F S) : same_inside P a b ->
    alike (same_inside P) (compute_free_surface P ps a) (compute_free_surface P ps b).
  Proof.
    intros H. unfold compute_free_surface. rewrite (accumulate_on _ _ _ H).
    destruct (accumulate_free_surface_walks P b ps _) as [[v t]|]; [|reflexivity]. cbn [rbind alike].
    assert (Hn : ong (gmemo L W (fun i j => hnew_cell (s_eta a i j) (s_depth a i j) (v i j) (t i j) (s_H_SL a)))
                     (gmemo L W (fun i j => hnew_cell (s_eta b i j) (s_depth b i j) (v i j) (t i j) (s_H_SL b)))).
    { apply ong_memo, ong_inb. intros i j K. subst_inside. reflexivity. }
    revert Hn. generalize (gmemo L W (fun i j => hnew_cell (s_eta a i j) (s_depth a i j) (v i j) (t i j) (s_H_SL a))).
    generalize (gmemo L W (fun i j => hnew_cell (s_eta b i j) (s_depth b i j) (v i j) (t i j) (s_H_SL b))). intros h' h Hn.
    apply set_stage_on.
    - apply flood_on; [apply (si_depth _ _ _ H)|apply (si_eta _ _ _ H)|].
      change (s_time_iter (set_sfc_visit v (set_sfc_sum t (set_Hnew h a)))) with (s_time_iter a).
      change (s_time_iter (set_sfc_visit v (set_sfc_sum t (set_Hnew h' b)))) with (s_time_iter b).
      rewrite (si_time_iter _ _ _ H). destruct (0 <? s_time_iter b); [|apply (si_stage _ _ _ H)].
      apply ong_memo, ong_inb. intros i j K.
      change (s_stage (set_sfc_visit v (set_sfc_sum t (set_Hnew h a)))) with (s_stage a).
      change (s_stage (set_sfc_visit v (set_sfc_sum t (set_Hnew h' b)))) with (s_stage b).
      subst_inside. do 2 f_equal. apply (ong_in _ _ i j); [|exact K].
      unfold smooth_free_surface. apply smooth_on; [apply (si_cell_type _ _ _ H)|exact Hn].
    - apply set_sfc_visit_on; [apply ong_refl|]. apply set_sfc_sum_on; [apply ong_refl|]. apply set_Hnew_on; assumption.
  Qed.

  Lemma flow_on it (a b : state F S) : same_inside P a b ->
    same_inside P (update_flow_field P it a) (update_flow_field P it b).
  Proof.
    intros H. unfold update_flow_field. rewrite !gmemo_id. cbv zeta. rewrite (si_time_iter _ _ _ H).
    apply set_qxn_on; [|apply set_qyn_on; [|apply set_qx_on; [|apply set_qy_on; [|apply set_qw_on; [|exact H]]]]];
      apply ong_inb; intros i j K; subst_inside; reflexivity.
  Qed.
  Lemma velocity_on (a b : state F S) : same_inside P a b ->
    same_inside P (update_velocity_field P a) (update_velocity_field P b).
  Proof.
    intros H. unfold update_velocity_field. rewrite !gmemo_id. cbv zeta.
    apply set_uw_on; [|apply set_ux_on; [|apply set_uy_on; [|exact H]]];
      apply ong_inb; intros i j K; subst_inside; reflexivity.
  Qed.
  Lemma finalize_water_on it (a b : state F S) : same_inside P a b ->
    same_inside P (finalize_water_iteration P it a) (finalize_water_iteration P it b).
  Proof.
    intros H. unfold finalize_water_iteration. cbv zeta. apply velocity_on, flow_on.
    assert (H1 : same_inside P (set_stage (gmemo L W (fun i j => npmax (s_stage a i j) (s_H_SL a))) a)
                               (set_stage (gmemo L W (fun i j => npmax (s_stage b i j) (s_H_SL b))) b)).
    { apply set_stage_on; [|exact H]. apply ong_memo, ong_inb. intros i j K. subst_inside. reflexivity. }
    revert H1. generalize (set_stage (gmemo L W (fun i j => npmax (s_stage a i j) (s_H_SL a))) a).
    generalize (set_stage (gmemo L W (fun i j => npmax (s_stage b i j) (s_H_SL b))) b). intros y x H1.
    apply set_depth_on; [|exact H1]. apply ong_memo, ong_inb. intros i j K. clear H. subst_inside. reflexivity.
  Qed.
  Lemma water_iteration_on it (a b : state F S) : same_inside P a b ->
    alike (same_inside P) (water_iteration P it a) (water_iteration P it b).
  Proof.
    intros H. unfold water_iteration. rewrite (run_on _ _ H).
    destruct (run_water_iteration P b) as [[[[ps [[qx qy] qw]] width] s]|]; [|reflexivity]. cbn [rbind].
    eapply alike_rbind.
    - apply surface_on. apply set_width_on; [reflexivity|]. apply set_rng_on; [reflexivity|].
      apply set_qxn_on; [apply ong_refl|]. apply set_qyn_on; [apply ong_refl|]. apply set_qwn_on; [apply ong_refl|exact H].
    - intros x y _ _ K. cbn [alike]. apply finalize_water_on, K.
  Qed.
  Lemma route_water_on (a b : state F S) : same_inside P a b -> alike (same_inside P) (route_water P a) (route_water P b).
  Proof.
    unfold route_water. generalize 0 as it. revert a b. induction (Z.to_nat (p_itermax P)) as [|n IH]; intros a b it H; [exact H|].
    cbn [water_iterations]. eapply alike_rbind; [apply water_iteration_on, H|]. intros x y _ _ K. apply IH, K.
  Qed.

  (** ** Sediment *)
  Record same_bed (b b' : bed F) : Prop := {
    sb_eta : ong (b_eta b) (b_eta b'); sb_depth : ong (b_depth b) (b_depth b');
    sb_pad : b_pad_depth b = b_pad_depth b';
    sb_uw : ong (b_uw b) (b_uw b'); sb_ux : ong (b_ux b) (b_ux b'); sb_uy : ong (b_uy b) (b_uy b');
    sb_qs : ong (b_qs b) (b_qs b'); sb_sand : ong (b_sand b) (b_sand b'); sb_mud : ong (b_mud b) (b_mud b') }.

  Ltac sub2 :=
    match goal with
    | H : same_bed ?b _, K : inb _ _ ?i ?j |- context [b_eta ?b ?i ?j] => rewrite (sb_eta _ _ H i j (proj1 K) (proj2 K))
    | H : same_bed ?b _, K : inb _ _ ?i ?j |- context [b_uw ?b ?i ?j] => rewrite (sb_uw _ _ H i j (proj1 K) (proj2 K))
    | H : same_bed ?b _, K : inb _ _ ?i ?j |- context [b_qs ?b ?i ?j] => rewrite (sb_qs _ _ H i j (proj1 K) (proj2 K))
    | H : same_bed ?b _, K : inb _ _ ?i ?j |- context [b_sand ?b ?i ?j] => rewrite (sb_sand _ _ H i j (proj1 K) (proj2 K))
    | H : same_bed ?b _, K : inb _ _ ?i ?j |- context [b_mud ?b ?i ?j] => rewrite (sb_mud _ _ H i j (proj1 K) (proj2 K))
    end.
  Ltac subst_bed := repeat (first [sub1 | sub2]).

  Lemma sed_choose_on g (a b : state F S) x y px py s : same_inside P a b -> same_bed x y ->
    choose_next_location P g a x px py s = choose_next_location P g b y px py s.
  Proof.
    intros H B. unfold choose_next_location. destruct (inbb L W px py) eqn:E; [|reflexivity]. apply inbb_spec in E.
    assert (Q : sed_weights P g a x px py = sed_weights P g b y px py).
    { unfold sed_weights. rewrite (sb_pad _ _ B), (pad_on _ _ _ (si_cell_type _ _ _ H)), (pad_on _ _ _ (si_mod_sed_weight _ _ _ H)).
      subst_inside. reflexivity. }
    rewrite Q. reflexivity.
  Qed.
  Lemma cell_in px py i j : cell_ix P px py = Ok (i, j) -> inb L W i j.
  Proof.
    unfold cell_ix. destruct (inbb _ _ _ _) eqn:E; [|discriminate]. intros Q. injection Q as <- <-. apply inbb_spec, E.
  Qed.
  Lemma qs_bed_on x y f g : same_bed x y -> ong f g -> same_bed (set_qs_bed x f) (set_qs_bed y g).
  Proof. intros B K. constructor; cbn; try apply B. exact K. Qed.
  Lemma add_on (f g : grid F) i j v : ong f g -> inb L W i j -> ong (add_at f i j v) (add_at g i j v).
  Proof. intros H K. unfold add_at. rewrite (ong_in _ _ _ _ H K). apply ong_set, H. Qed.
  Lemma partition_on x y V i0 j0 i j dist : same_bed x y -> inb L W i0 j0 -> inb L W i j ->
    same_bed (partition_sediment P x V i0 j0 i j dist) (partition_sediment P y V i0 j0 i j dist).
  Proof.
    intros B K0 K. unfold partition_sediment. destruct (fltb _ dist); [|exact B].
    apply qs_bed_on; [exact B|]. apply add_on; [apply add_on; [apply B|exact K0]|exact K].
  Qed.
  Lemma divisor_on g (a b : state F S) x y i j : same_bed x y -> inb L W i j -> zero_divisor P g a x i j = zero_divisor P g b y i j.
  Proof. intros B K. unfold zero_divisor. subst_bed. reflexivity. Qed.
  Lemma fields_on (a b : state F S) x y dV px py i j : same_inside P a b -> same_bed x y -> inb L W i j ->
    same_bed (update_fields P a x dV px py i j) (update_fields P b y dV px py i j).
  Proof.
    intros H B K. unfold update_fields. cbv zeta. subst_bed.
    constructor; cbn; try apply ong_set; try apply B. rewrite (sb_pad _ _ B). reflexivity.
  Qed.
  Lemma deposit_on g (a b : state F S) x y V px py i j : same_inside P a b -> same_bed x y -> inb L W i j ->
    same_bed (fst (deposit_or_erode P g a x V px py i j)) (fst (deposit_or_erode P g b y V px py i j)) /\
    snd (deposit_or_erode P g a x V px py i j) = snd (deposit_or_erode P g b y V px py i j).
  Proof.
    intros H B K. unfold deposit_or_erode.
    assert (E1 : sand_change P a x V i j = sand_change P b y V i j) by (unfold sand_change; subst_bed; reflexivity).
    assert (E2 : mud_change P a x V i j = mud_change P b y V i j) by (unfold mud_change; subst_bed; reflexivity).
    destruct g; cbn [fst snd]; [rewrite E1|rewrite E2]; (split; [|reflexivity]); apply fields_on; try assumption;
      constructor; cbn; try apply B; (destruct (fltb _ _); [subst_bed; apply ong_set|]; apply B).
  Qed.
  Definition same_moved (x y : Z * Z * bed F * F * S) : Prop :=
    let '(px, py, b, V, s) := x in let '(px', py', b', V', s') := y in
    px = px' /\ py = py' /\ same_bed b b' /\ V = V' /\ s = s'.
  Lemma sed_step_on g (a b : state F S) x y V px py s : same_inside P a b -> same_bed x y ->
    alike same_moved (sed_step P g a x V px py s) (sed_step P g b y V px py s).
  Proof.
    intros H B. unfold sed_step. rewrite (sed_choose_on g a b x y px py s H B).
    destruct (choose_next_location P g b y px py s) as [[k s']|]; [|reflexivity]. cbn [rbind].
    destruct (get_steps k) as [[[dist istep] jstep] astep].
    destruct (cell_ix P px py) as [[i0 j0]|] eqn:E0; [|reflexivity]. cbn [rbind].
    destruct (cell_ix P (px + jstep) (py + istep)) as [[i j]|] eqn:E1; [|reflexivity]. cbn [rbind].
    apply cell_in in E0. apply cell_in in E1.
    assert (B1 : same_bed (match g with Sand => partition_sediment P x V i0 j0 i j dist | Mud => x end)
                          (match g with Sand => partition_sediment P y V i0 j0 i j dist | Mud => y end))
      by (destruct g; [apply partition_on|]; assumption).
    revert B1. generalize (match g with Sand => partition_sediment P x V i0 j0 i j dist | Mud => x end).
    generalize (match g with Sand => partition_sediment P y V i0 j0 i j dist | Mud => y end). intros y1 x1 B1.
    rewrite (divisor_on g a b x1 y1 i j B1 E1). destruct (zero_divisor P g b y1 i j); [reflexivity|].
    destruct (deposit_on g a b x1 y1 V (px + jstep) (py + istep) i j H B1 E1) as [D1 D2].
    destruct (deposit_or_erode P g a x1 V (px + jstep) (py + istep) i j) as [x2 V2].
    destruct (deposit_or_erode P g b y1 V (px + jstep) (py + istep) i j) as [y2 V2'].
    cbn in D1, D2 |- *. auto 10.
  Qed.
  Definition same_end {T} (x y : bed F * T * S) : Prop :=
    let '(b, V, s) := x in let '(b', V', s') := y in same_bed b b' /\ V = V' /\ s = s'.
  Lemma one_on g (a b : state F S) fuel : same_inside P a b -> forall x y V px py s, same_bed x y ->
    alike same_end (route_one_parcel P g a fuel x V px py s) (route_one_parcel P g b fuel y V px py s).
  Proof.
    intros H. induction fuel as [|n IH]; intros x y V px py s B; [reflexivity|]. cbn [route_one_parcel].
    eapply alike_rbind; [apply sed_step_on; [exact H|exact B]|].
    intros [[[[px1 py1] x1] V1] s1] [[[[px2 py2] x2] V2] s2] _ _ (<- & <- & B1 & <- & <-).
    destruct (cell_ix P px1 py1) as [[i j]|] eqn:E; [|reflexivity]. cbn [rbind]. apply cell_in in E.
    rewrite (ong_in _ _ _ _ (si_cell_type _ _ _ H) E). destruct (_ || _); [cbn; auto|apply IH, B1].
  Qed.
  Lemma parcels_on g (a b : state F S) starts : same_inside P a b -> forall x y s, same_bed x y ->
    alike same_end (route_parcels P g a starts x s) (route_parcels P g b starts y s).
  Proof.
    intros H. induction starts as [|py starts IH]; intros x y s B; [cbn; auto|]. cbn [route_parcels].
    destruct (cell_ix P 0 py) as [[i j]|] eqn:E; [|reflexivity]. cbn [rbind]. apply cell_in in E.
    destruct (no_flux_scale P g); [reflexivity|].
    eapply alike_rbind; [apply (one_on g a b _ H)|].
    - destruct g; [|exact B]. apply qs_bed_on; [exact B|]. apply add_on; [apply B|exact E].
    - intros [[x1 V1] s1] [[x2 V2] s2] _ _ (B1 & <- & <-).
      eapply alike_rbind; [apply IH, B1|]. intros [[x3 V3] s3] [[x4 V4] s4] _ _ (B2 & <- & <-). cbn. auto.
  Qed.
  Lemma bed_on (a b : state F S) : same_inside P a b -> same_bed (bed_of P a) (bed_of P b).
  Proof. intros H. constructor; cbn; try apply H. apply pad_on, H. Qed.
  Lemma put_on x y (a b : state F S) : same_bed x y -> same_inside P a b -> same_inside P (put_bed P x a) (put_bed P y b).
  Proof.
    intros B H. unfold put_bed. rewrite !gmemo_id.
    apply set_Vp_dep_mud_on; [apply B|]. apply set_Vp_dep_sand_on; [apply B|]. apply set_eta_on; [apply B|].
    apply set_depth_on; [apply B|]. apply set_uw_on; [apply B|]. apply set_ux_on; [apply B|].
    apply set_uy_on; [apply B|]. apply set_qs_on; [apply B|exact H].
  Qed.
  Lemma all_on g (a b : state F S) : same_inside P a b -> alike (same_inside P) (route_all_parcels P g a) (route_all_parcels P g b).
  Proof.
    intros H. unfold route_all_parcels, route_all_parcels_res. rewrite (si_rng _ _ _ H).
    destruct (get_start_indices _ _ _ _) as [[starts s]|]; [|reflexivity]. cbn [rbind].
    pose proof (parcels_on g a b starts H _ _ s (bed_on _ _ H)) as K.
    destruct (route_parcels P g a starts (bed_of P a) s) as [[[x V] s1]|];
      destruct (route_parcels P g b starts (bed_of P b) s) as [[[y V'] s1']|]; cbn in K; try contradiction; cbn [rbind alike];
      [|exact K]. destruct K as (K & _ & ->). apply set_rng_on; [reflexivity|]. apply put_on; assumption.
  Qed.
  Lemma convolve_on k (f g : grid F) : ong f g -> convolve P k f = convolve P k g.
  Proof.
    intros H. extensionality i. extensionality j. unfold convolve. f_equal. extensionality n.
    destruct (inbb _ _ _ _) eqn:E; [|reflexivity]. apply inbb_spec in E. rewrite (ong_in _ _ _ _ H E). reflexivity.
  Qed.
  Lemma crossflux_on (a b : state F S) : same_inside P a b -> ong (crossflux P a (s_eta a)) (crossflux P b (s_eta b)).
  Proof.
    intros H. apply ong_inb. intros i j K. unfold crossflux. cbv zeta.
    rewrite (convolve_on _ _ _ (si_eta _ _ _ H)), (convolve_on _ _ _ (si_qs _ _ _ H)).
    rewrite (convolve_on kernel2 (fun x y => fmul (s_qs a x y) (s_eta a x y)) (fun x y => fmul (s_qs b x y) (s_eta b x y)))
      by (apply ong_inb; intros x y Kx; subst_inside; reflexivity).
    subst_inside. reflexivity.
  Qed.
  Lemma diffuse_on n : forall (a b : state F S), same_inside P a b -> same_inside P (diffuse_passes P n a) (diffuse_passes P n b).
  Proof.
    induction n as [|n IH]; intros a b H; [exact H|]. cbn [diffuse_passes]. apply IH. unfold diffuse_once. cbv zeta.
    pose proof (crossflux_on a b H) as Kc. rewrite !gmemo_id.
    apply set_cf_on; [exact Kc|]. apply set_eta_on; [|exact H].
    apply ong_inb. intros i j K. rewrite (ong_in _ _ _ _ Kc K). subst_inside. reflexivity.
  Qed.
  Lemma route_sediment_on (a b : state F S) : same_inside P a b -> alike (same_inside P) (route_sediment P a) (route_sediment P b).
  Proof.
    intros H. unfold route_sediment. cbv zeta. eapply alike_rbind.
    - apply all_on. unfold init_sediment_iteration. apply set_qs_on; [apply ong_refl|]. apply set_Vp_dep_sand_on; [apply ong_refl|].
      apply set_Vp_dep_mud_on; [apply ong_refl|exact H].
    - intros x y _ _ K. apply all_on. unfold topo_diffusion. apply diffuse_on, K.
  Qed.

  (** ** The update *)
  Lemma subsidence_on (a b : state F S) : same_inside P a b -> same_inside P (apply_subsidence P a) (apply_subsidence P b).
  Proof.
    intros H. unfold apply_subsidence. rewrite (si_time _ _ _ H). destruct (_ && _); [|exact H].
    apply set_eta_on; [|exact H]. apply ong_memo, ong_inb. intros i j K. subst_inside. reflexivity.
  Qed.
  Lemma levels_on (a b : state F S) : same_inside P a b -> same_inside P (finalize_levels P a) (finalize_levels P b).
  Proof.
    intros H. unfold finalize_levels. rewrite !gmemo_id. cbv zeta.
    assert (H1 := set_stage_on _ _ _ _ (flood_on _ _ _ _ _ _ (si_depth _ _ _ H) (si_eta _ _ _ H) (si_stage _ _ _ H)) H).
    revert H1. generalize (set_stage (flooding_correction P (s_depth a) (s_eta a) (s_stage a)) a).
    generalize (set_stage (flooding_correction P (s_depth b) (s_eta b) (s_stage b)) b). clear a b H. intros b a H.
    assert (H1 : same_inside P (set_stage (fun i j => npmax (s_stage a i j) (s_H_SL a)) a)
                               (set_stage (fun i j => npmax (s_stage b i j) (s_H_SL b)) b))
      by (apply set_stage_on; [|exact H]; apply ong_inb; intros i j K; subst_inside; reflexivity).
    revert H1. generalize (set_stage (fun i j => npmax (s_stage a i j) (s_H_SL a)) a).
    generalize (set_stage (fun i j => npmax (s_stage b i j) (s_H_SL b)) b). clear a b H. intros b a H.
    assert (H1 : same_inside P (set_depth (fun i j => npmax (fsub (s_stage a i j) (s_eta a i j)) (fz 0)) a)
                               (set_depth (fun i j => npmax (fsub (s_stage b i j) (s_eta b i j)) (fz 0)) b))
      by (apply set_depth_on; [|exact H]; apply ong_inb; intros i j K; subst_inside; reflexivity).
    revert H1. generalize (set_depth (fun i j => npmax (fsub (s_stage a i j) (s_eta a i j)) (fz 0)) a).
    generalize (set_depth (fun i j => npmax (fsub (s_stage b i j) (s_eta b i j)) (fz 0)) b). clear a b H. intros b a H.
    apply set_depth_on.
    - apply ong_inb. intros i j K. cbn. destruct (_ && _); [reflexivity|]. subst_inside. reflexivity.
    - apply set_eta_on; [|exact H]. apply ong_inb. intros i j K. destruct (_ && _); subst_inside; reflexivity.
  Qed.
  Lemma sand_frac_on (a b : state F S) : same_inside P a b -> same_inside P (compute_sand_frac P a) (compute_sand_frac P b).
  Proof.
    intros H. unfold compute_sand_frac. rewrite !gmemo_id. cbv zeta.
    assert (E : existsb (fun c => fltb (fsub (s_eta a (fst c) (snd c)) (s_eta0 a (fst c) (snd c))) (fz 0)) (cells L W)
              = existsb (fun c => fltb (fsub (s_eta b (fst c) (snd c)) (s_eta0 b (fst c) (snd c))) (fz 0)) (cells L W)).
    { assert (K : forall i j, In (i, j) (cells L W) -> inb L W i j) by (intros i j; apply cells_In).
      revert K. induction (cells L W) as [|[i j] l IH]; intros K; [reflexivity|]. cbn [existsb fst snd].
      pose proof (K i j (or_introl eq_refl)) as Kij. subst_inside. f_equal. apply IH. intros x y Hx. apply K. right. exact Hx. }
    rewrite E. clear E. apply set_sand_frac_on; [|apply set_active_layer_on; [|exact H]]; apply ong_inb; intros i j K.
    - destruct (existsb _ _); subst_inside; reflexivity.
    - subst_inside; reflexivity.
  Qed.
  Lemma end_on (a b : state F S) : same_inside P a b -> same_inside P
    (advance_clock P (finalize_timestep P (apply_subsidence P a))) (advance_clock P (finalize_timestep P (apply_subsidence P b))).
  Proof.
    intros H. unfold finalize_timestep.
    assert (H1 := sand_frac_on _ _ (levels_on _ _ (subsidence_on _ _ H))). revert H1.
    generalize (compute_sand_frac P (finalize_levels P (apply_subsidence P a))).
    generalize (compute_sand_frac P (finalize_levels P (apply_subsidence P b))). clear a b H. intros b a H. cbv zeta.
    assert (H1 : same_inside P (set_H_SL (fadd (s_H_SL a) (fmul (p_SLR P) (p_dt P))) a) (set_H_SL (fadd (s_H_SL b) (fmul (p_SLR P) (p_dt P))) b))
      by (apply set_H_SL_on; [rewrite (si_H_SL _ _ _ H); reflexivity|exact H]).
    revert H1. generalize (set_H_SL (fadd (s_H_SL a) (fmul (p_SLR P) (p_dt P))) a).
    generalize (set_H_SL (fadd (s_H_SL b) (fmul (p_SLR P) (p_dt P))) b). clear a b H. intros b a H. unfold advance_clock.
    apply set_time_on; [rewrite (si_time _ _ _ H); reflexivity|].
    apply set_save_time_since_data_on; [rewrite (si_save_time_since_data _ _ _ H); reflexivity|].
    apply set_save_time_since_checkpoint_on; [rewrite (si_save_time_since_checkpoint _ _ _ H); reflexivity|].
    apply set_time_iter_on; [rewrite (si_time_iter _ _ _ H); reflexivity|exact H].
  Qed.
  Lemma saved_on (a b : state F S) : same_inside P a b -> same_saved P (save_the_checkpoint a) (save_the_checkpoint b).
  Proof. intros H. constructor; cbn; apply H. Qed.
  Definition same_after (x y : state F S * list (output F S)) : Prop :=
    same_inside P (fst x) (fst y) /\ Forall2 (same_written P) (snd x) (snd y).
  Lemma data_on (a b : state F S) : same_inside P a b -> same_after (output_data P a) (output_data P b).
  Proof.
    intros H. unfold output_data, same_after. rewrite (si_save_time_since_data _ _ _ H). destruct (ext_geb _ _); cbn [fst snd].
    - split.
      + apply set_save_time_since_data_on; [reflexivity|]. apply set_save_iter_on; [rewrite (si_save_iter _ _ _ H); reflexivity|exact H].
      + constructor; [|constructor]. cbn. split; [apply H|]. split; [apply H|exact H].
    - split; [exact H|constructor].
  Qed.
  Lemma checkpoint_on (a b : state F S) : same_inside P a b -> same_after (output_checkpoint P a) (output_checkpoint P b).
  Proof.
    intros H. unfold output_checkpoint, same_after. rewrite (si_save_time_since_checkpoint _ _ _ H).
    destruct (_ && _); cbn [fst snd].
    - split; [apply set_save_time_since_checkpoint_on; [reflexivity|exact H]|].
      constructor; [|constructor]. cbn [same_written]. apply saved_on, H.
    - split; [exact H|constructor].
  Qed.
  Lemma write_on (a b : state F S) : same_inside P a b -> same_after (write_output P a) (write_output P b).
  Proof.
    intros H. unfold write_output. pose proof (data_on _ _ H) as K.
    destruct (output_data P a) as [a1 o1]. destruct (output_data P b) as [b1 o1']. destruct K as [K1 K2]. cbn [fst snd] in K1, K2.
    pose proof (checkpoint_on _ _ K1) as K.
    destruct (output_checkpoint P a1) as [a2 o2]. destruct (output_checkpoint P b1) as [b2 o2']. destruct K as [K3 K4].
    cbn [fst snd] in K3, K4. split; cbn [fst snd]; [exact K3|apply Forall2_app; assumption].
  Qed.
  Lemma update_on (a b : state F S) : same_inside P a b -> alike same_after (update P a) (update P b).
  Proof.
    intros H. unfold update, solve_water_and_sediment_timestep.
    eapply alike_rbind.
    - eapply alike_rbind; [apply route_water_on; apply set_eta0_on; [apply H|exact H]|].
      intros x y _ _ K. apply route_sediment_on, K.
    - intros x y _ _ K. cbn [alike]. apply write_on, end_on, K.
  Qed.
  Lemma updates_on n : forall a b : state F S, same_inside P a b -> alike same_after (updates P n a) (updates P n b).
  Proof.
    induction n as [|n IH]; intros a b H; [split; [exact H|constructor]|]. cbn [updates].
    eapply alike_rbind; [apply update_on, H|]. intros [a1 o1] [b1 o1'] _ _ [K1 K2]. cbn [fst snd] in K1, K2.
    eapply alike_rbind; [apply IH, K1|]. intros [a2 o2] [b2 o2'] _ _ [K3 K4]. cbn [fst snd] in K3, K4.
    split; cbn [fst snd]; [exact K3|apply Forall2_app; assumption].
  Qed.

  (** ** What need not be the same *)
  (** [a] with the scratch fields and counters of [b]. *)
  Definition mixed (a b : state F S) : state F S :=
    (set_width (s_width b) (set_save_iter (s_save_iter b) (set_save_time_since_checkpoint (s_save_time_since_checkpoint b) (set_save_time_since_data (s_save_time_since_data b) (set_eta0 (s_eta0 b) (set_Vp_dep_mud (s_Vp_dep_mud b) (set_Vp_dep_sand (s_Vp_dep_sand b) (set_qs (s_qs b) (set_cf (s_cf b) (set_Hnew (s_Hnew b) (set_sfc_sum (s_sfc_sum b) (set_sfc_visit (s_sfc_visit b) (set_qwn (s_qwn b) (set_qyn (s_qyn b) (set_qxn (s_qxn b) a))))))))))))))).
  Lemma mixed_inside (a b : state F S) : same_essence P a b -> same_inside P (mixed a b) b.
  Proof. intros H. constructor; cbn; first [apply ong_refl | reflexivity | apply H]. Qed.
  Lemma mixed_forget (a b : state F S) : forget0 a = forget0 (mixed a b).
  Proof. reflexivity. Qed.
  Lemma essence_split (a c b : state F S) : forget0 a = forget0 c -> same_inside P c b -> same_essence P a b.
  Proof.
    intros H K. constructor;
    [rewrite (f_equal s_eta H : s_eta a = s_eta c); apply K
    |rewrite (f_equal s_stage H : s_stage a = s_stage c); apply K
    |rewrite (f_equal s_depth H : s_depth a = s_depth c); apply K
    |rewrite (f_equal s_qx H : s_qx a = s_qx c); apply K
    |rewrite (f_equal s_qy H : s_qy a = s_qy c); apply K
    |rewrite (f_equal s_qw H : s_qw a = s_qw c); apply K
    |rewrite (f_equal s_ux H : s_ux a = s_ux c); apply K
    |rewrite (f_equal s_uy H : s_uy a = s_uy c); apply K
    |rewrite (f_equal s_uw H : s_uw a = s_uw c); apply K
    |rewrite (f_equal s_sand_frac H : s_sand_frac a = s_sand_frac c); apply K
    |rewrite (f_equal s_active_layer H : s_active_layer a = s_active_layer c); apply K
    |rewrite (f_equal s_mod_water_weight H : s_mod_water_weight a = s_mod_water_weight c); apply K
    |rewrite (f_equal s_mod_sed_weight H : s_mod_sed_weight a = s_mod_sed_weight c); apply K
    |rewrite (f_equal s_mod_erosion H : s_mod_erosion a = s_mod_erosion c); apply K
    |rewrite (f_equal s_cell_type H : s_cell_type a = s_cell_type c); apply K
    |rewrite (f_equal s_H_SL H : s_H_SL a = s_H_SL c); apply K
    |rewrite (f_equal s_time H : s_time a = s_time c); apply K
    |rewrite (f_equal s_time_iter H : s_time_iter a = s_time_iter c); apply K
    |rewrite (f_equal s_rng H : s_rng a = s_rng c); apply K].
  Qed.
  Lemma view_split (a c b : state F S) : same_point a c -> s_qs a = s_qs c -> same_inside P c b -> same_view P a b.
  Proof.
    intros H Hq K. destruct H as [H1 H2 H3 (H4 & H5 & H6) (H7 & H8 & H9) (H10 & H11) H12 _ _].
    constructor; [rewrite H1|rewrite H2|rewrite H3|rewrite H7|rewrite H8|rewrite H9|rewrite H4|rewrite H5|rewrite H6|rewrite H10|rewrite H11|rewrite Hq|rewrite H12]; apply K.
  Qed.
  Lemma entries_on (o o' : list (output F S)) : Forall2 (same_written P) o o' ->
    Forall2 (fun x y => fst (fst x) = fst (fst y) /\ snd (fst x) = snd (fst y) /\ same_inside P (snd x) (snd y)) (shown_records o) (shown_records o').
  Proof.
    induction 1 as [|[k t s|c] [k' t' s'|c'] o o' H _ IH]; [constructor|..]; cbn in H |- *; try contradiction; auto.
  Qed.
  Lemma entries_split (l l' l'' : list (Z * F * state F S)) : Forall2 (same_record 0) l l' ->
    Forall2 (fun x y => fst (fst x) = fst (fst y) /\ snd (fst x) = snd (fst y) /\ same_inside P (snd x) (snd y)) l' l'' ->
    Forall2 (same_entry P) l l''.
  Proof.
    intros H. revert l''. induction H as [|x y l l' (H1 & H2 & H3 & H4) _ IH]; intros l'' K; inversion K as [|? z ? l2 (K1 & K2 & K3) K4]; subst; constructor; auto.
    unfold same_entry. split; [lia|]. split; [congruence|]. apply (view_split _ (snd y)); assumption.
  Qed.
  Lemma essence_on n (a b : state F S) : same_essence P a b ->
    s_width a = s_width b \/ (4 <= p_stepmax P /\ 1 <= s_width a /\ 1 <= s_width b) ->
    alike (fun x y => same_essence P (fst x) (fst y) /\
      (s_save_time_since_data a = s_save_time_since_data b -> s_save_iter a = s_save_iter b ->
       Forall2 (same_entry P) (shown_records (snd x)) (shown_records (snd y))))
      (updates P n a) (updates P n b).
  Proof.
    intros H Hw.
    pose proof (updates_alike P 0 n a (mixed a b) (conj (mixed_forget a b) Hw)) as K1.
    pose proof (updates_on n _ _ (mixed_inside a b H)) as K2.
    eapply alike_mono; [|eapply alike_trans; [exact K1|exact K2]].
    intros [x ox] [y oy] _ _ ([z oz] & (J1 & (J2 & _) & J3) & J4 & J5). cbn [fst snd] in *.
    split; [apply (essence_split _ z); assumption|].
    intros E1 E2. destruct J3 as [_ J3]; [split; [exact E1|cbn; lia]|].
    eapply entries_split; [exact J3|apply entries_on, J5].
  Qed.
  Lemma load_on (c d : checkpoint F S) missing st : same_saved P c d ->
    alike (same_inside P) (load_checkpoint c missing st) (load_checkpoint d missing st).
  Proof.
    intros H. unfold load_checkpoint. rewrite (sv_save_time_since_data _ _ _ H), (sv_save_iter _ _ _ H), (sv_time_iter _ _ _ H),
      (sv_H_SL _ _ _ H), (sv_time _ _ _ H), (sv_rng _ _ _ H).
    destruct (c_save_time_since_data d); [exact eq_refl|]. cbn [alike].
    destruct missing; constructor; cbn; first [apply ong_refl | reflexivity | apply H].
  Qed.
End Domain.
