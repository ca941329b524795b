(** An update does not depend on the fields a checkpoint leaves out. *)
From Coq Require Import ZArith List Bool Lia.
From Verif Require Import Base Shared Params State Water WaterSpec Sed SedSpec RunProofs Iter IterSpec
  FrameProofs Inputs Init Session SessionSpec.
Import ListNotations.
Local Open Scope Z_scope.

Section Resume.
  Context {F : Type} {A : Arith F} {S : Type} {G : Rng F S} (P : params F).
  Notation L := (p_L P).
  Notation W := (p_W P).

  (** Fields rewritten by each update before they are read, and counters. *)
  Definition z0 : grid F := fun _ _ => fz 0.
  Definition forget2 (st : state F S) : state F S :=
    set_qxn z0 (set_qyn z0 (set_qwn z0 (set_sfc_visit z0 (set_sfc_sum z0 (set_Hnew z0 (set_cf z0
    (set_save_time_since_data Inf (set_save_time_since_checkpoint Inf (set_save_iter 0 (set_width 0 st)))))))))).
  Definition forget1 (st : state F S) : state F S :=
    set_qs z0 (set_Vp_dep_sand z0 (set_Vp_dep_mud z0 (forget2 st))).
  Definition forget0 (st : state F S) : state F S := set_eta0 z0 (forget1 st).

  Lemma forget21 (a b : state F S) : forget2 a = forget2 b -> forget1 a = forget1 b.
  Proof. unfold forget1. intros ->. reflexivity. Qed.
  Lemma forget10 (a b : state F S) : forget1 a = forget1 b -> forget0 a = forget0 b.
  Proof. unfold forget0. intros ->. reflexivity. Qed.



  Lemma forget_subsidence (a : state F S) : forget2 (apply_subsidence P a) = forget2 (apply_subsidence P (forget2 a)).
  Proof.
    unfold apply_subsidence. change (s_time (forget2 a)) with (s_time a). destruct (_ && _); reflexivity.
  Qed.
  Lemma forget_levels (a : state F S) : forget2 (finalize_levels P a) = forget2 (finalize_levels P (forget2 a)).
  Proof. reflexivity. Qed.
  Lemma forget_sand_frac (a : state F S) : forget2 (compute_sand_frac P a) = forget2 (compute_sand_frac P (forget2 a)).
  Proof. reflexivity. Qed.
  Lemma forget_sea (a : state F S) x : forget2 (set_H_SL x a) = set_H_SL x (forget2 a).
  Proof. reflexivity. Qed.
  Lemma forget_clock (a : state F S) : forget2 (advance_clock P a) = forget2 (advance_clock P (forget2 a)).
  Proof. reflexivity. Qed.
  Lemma forget_end (a b : state F S) : forget2 a = forget2 b ->
    forget2 (advance_clock P (finalize_timestep P (apply_subsidence P a)))
    = forget2 (advance_clock P (finalize_timestep P (apply_subsidence P b))).
  Proof.
    intros H0. rewrite forget_clock, (forget_clock (finalize_timestep P (apply_subsidence P b))). do 2 f_equal.
    unfold finalize_timestep.
    assert (H1 : forget2 (apply_subsidence P a) = forget2 (apply_subsidence P b))
      by (rewrite forget_subsidence, H0, <- forget_subsidence; reflexivity).
    assert (H2 : forget2 (finalize_levels P (apply_subsidence P a)) = forget2 (finalize_levels P (apply_subsidence P b)))
      by (rewrite forget_levels, H1, <- forget_levels; reflexivity).
    assert (H3 : forget2 (compute_sand_frac P (finalize_levels P (apply_subsidence P a)))
               = forget2 (compute_sand_frac P (finalize_levels P (apply_subsidence P b))))
      by (rewrite forget_sand_frac, H2, <- forget_sand_frac; reflexivity).
    revert H3. generalize (compute_sand_frac P (finalize_levels P (apply_subsidence P a))).
    generalize (compute_sand_frac P (finalize_levels P (apply_subsidence P b))). intros x y H.
    cbn zeta. rewrite !forget_sea, H. f_equal. f_equal. exact (f_equal s_H_SL H).
  Qed.

  Lemma alike_rbind {T U T' U'} (Q : T -> T' -> Prop) (Q' : U -> U' -> Prop) x y f g :
    alike Q x y -> (forall a b, x = Ok a -> y = Ok b -> Q a b -> alike Q' (f a) (g b)) -> alike Q' (rbind x f) (rbind y g).
  Proof. destruct x, y; cbn; intros H K; try contradiction; auto. Qed.
  Lemma alike_trans {T U V} (Q1 : T -> U -> Prop) (Q2 : U -> V -> Prop) x y z :
    alike Q1 x y -> alike Q2 y z -> alike (fun a c => exists b, Q1 a b /\ Q2 b c) x z.
  Proof. destruct x, y, z; cbn; intros; try contradiction; eauto; congruence. Qed.
  Lemma alike_mono {T U} (Q Q' : T -> U -> Prop) x y : (forall a b, x = Ok a -> y = Ok b -> Q a b -> Q' a b) -> alike Q x y -> alike Q' x y.
  Proof. destruct x, y; cbn; auto. Qed.
  Lemma alike_sym {T U} (Q : T -> U -> Prop) x y : alike Q x y -> alike (fun b a => Q a b) y x.
  Proof. destruct x, y; cbn; auto. Qed.

  (** ** Water *)
  Definition widths (a b : Z) : Prop := a = b \/ (4 <= p_stepmax P /\ 1 <= a /\ 1 <= b).

  Definition no_width (x : list parcel * qfields (F:=F) * Z * S) := (fst (fst x), snd x).
  Definition same_run (w1 w2 : Z) (x y : list parcel * qfields (F:=F) * Z * S) : Prop :=
    let '(ps, q, v, s) := x in let '(ps', q', v', s') := y in
    ps = ps' /\ q = q' /\ s = s' /\ w1 <= v /\ w2 <= v'.

  Lemma width_more width step : 4 <= p_stepmax P -> step <= width ->
    step < check_size_of_indices_matrix P width step /\ width <= check_size_of_indices_matrix P width step.
  Proof.
    intros H4 H. unfold check_size_of_indices_matrix.
    assert (1 <= p_stepmax P / 4) by (apply Z.div_le_lower_bound; lia).
    destruct (Z.leb_spec width step); lia.
  Qed.

  Lemma step_widths wts stage H_SL ct step ps q w1 w2 s : 4 <= p_stepmax P -> step <= w1 -> step <= w2 ->
    alike (fun x y => same_run w1 w2 x y /\ step < snd (fst x) /\ step < snd (fst y))
      (water_step P wts stage H_SL ct step (ps, q, w1, s)) (water_step P wts stage H_SL ct step (ps, q, w2, s)).
  Proof.
    intros H4 H1 H2. unfold water_step.
    destruct (choose_next_directions P wts ps s) as [[ps1 s1]|]; [|reflexivity]. cbn [rbind].
    destruct (update_Q P q cur _) as [q1|]; [|reflexivity]. cbn [rbind].
    destruct (update_Q P q1 new _) as [q2|]; [|reflexivity]. cbn [rbind].
    destruct (check_for_loops P stage H_SL step _) as [ps2|]; [|reflexivity]. cbn [rbind].
    destruct (mapM _ ps2) as [pbs|]; [|reflexivity]. cbn [rbind].
    destruct (width_more w1 step H4 H1) as [K1 M1]. destruct (width_more w2 step H4 H2) as [K2 M2].
    rewrite (proj2 (Z.ltb_lt _ _) K1), (proj2 (Z.ltb_lt _ _) K2).
    destruct (update_Q P q2 new _) as [q3|]; [|reflexivity]. cbn. auto 10.
  Qed.

  Lemma loop_widths wts stage H_SL ct fuel : 4 <= p_stepmax P -> forall step ps q w1 w2 s, step < w1 -> step < w2 ->
    alike (same_run w1 w2) (water_loop P wts stage H_SL ct fuel step (ps, q, w1, s))
                           (water_loop P wts stage H_SL ct fuel step (ps, q, w2, s)).
  Proof.
    intros H4. induction fuel as [|fuel IH]; intros step ps q w1 w2 s H1 H2.
    - cbn. repeat split; lia.
    - cbn [water_loop fst]. destruct (any_active ps); [|cbn; repeat split; lia].
      pose proof (step_widths wts stage H_SL ct (step + 1) ps q w1 w2 s H4) as K.
      specialize (K ltac:(lia) ltac:(lia)).
      destruct (water_step P wts stage H_SL ct (step + 1) (ps, q, w1, s)) as [[[[ps1 q1] v1] s1]|];
        destruct (water_step P wts stage H_SL ct (step + 1) (ps, q, w2, s)) as [[[[ps2 q2] v2] s2]|];
        cbn in K; try contradiction; [|exact K]. cbn [rbind].
      destruct K as ((<- & <- & <- & K1 & K2) & K3 & K4).
      specialize (IH (step + 1) ps1 q1 v1 v2 s1 K3 K4).
      destruct (water_loop _ _ _ _ _ _ _ (ps1, q1, v1, s1)) as [[[[ps3 q3] v3] s3]|];
        destruct (water_loop _ _ _ _ _ _ _ (ps1, q1, v2, s1)) as [[[[ps4 q4] v4] s4]|]; cbn in IH |- *; try assumption.
      intuition lia.
  Qed.

  Lemma run_widths (a b : state F S) : forget1 a = forget1 b -> widths (s_width a) (s_width b) ->
    alike (fun x y => no_width x = no_width y /\ widths (snd (fst x)) (snd (fst y)))
      (run_water_iteration P a) (run_water_iteration P b).
  Proof.
    intros H0 Hw. unfold run_water_iteration.
    assert (E1 : s_rng a = s_rng b) by exact (f_equal s_rng H0).
    assert (E2 : s_depth a = s_depth b) by exact (f_equal s_depth H0).
    assert (E3 : s_stage a = s_stage b) by exact (f_equal s_stage H0).
    assert (E4 : s_mod_water_weight a = s_mod_water_weight b) by exact (f_equal s_mod_water_weight H0).
    assert (E5 : s_cell_type a = s_cell_type b) by exact (f_equal s_cell_type H0).
    assert (E6 : s_qx a = s_qx b) by exact (f_equal s_qx H0).
    assert (E7 : s_qy a = s_qy b) by exact (f_equal s_qy H0).
    assert (E8 : s_H_SL a = s_H_SL b) by exact (f_equal s_H_SL H0).
    rewrite E1, E2, E3, E4, E5, E6, E7, E8.
    destruct (get_start_indices _ _ _ _) as [[starts s]|]; [|reflexivity]. cbn [rbind].
    destruct Hw as [Hw|(H4 & H1 & H2)].
    - rewrite Hw. match goal with |- alike _ ?x ?y => change y with x; destruct x end; cbn; auto. split; auto. left. auto.
    - destruct (Z.leb_spec (s_width a) 0); [lia|]. destruct (Z.leb_spec (s_width b) 0); [lia|].
      destruct (get_water_weight_array _ _ _ _ _ _ _) as [wts|]; [|reflexivity]. cbn [rbind].
      match goal with |- alike _ (water_loop P wts ?st ?h ?ct ?fu 0 (?ps, ?q, ?w1, ?s)) (water_loop _ _ _ _ _ _ _ (_, _, ?w2, _)) =>
        pose proof (loop_widths wts st h ct fu H4 0 ps q w1 w2 s ltac:(lia) ltac:(lia)) as K end.
      eapply alike_mono; [|exact K]. intros [[[ps1 q1] v1] s1] [[[ps2 q2] v2] s2] _ _ (E & E' & E'' & K1 & K2). subst.
      split; [reflexivity|]. right. cbn. lia.
  Qed.

  (** Scratch fields other than the parcel accumulators. *)
  Definition forgetW (st : state F S) : state F S :=
    set_qs z0 (set_Vp_dep_sand z0 (set_Vp_dep_mud z0 (set_sfc_visit z0 (set_sfc_sum z0 (set_Hnew z0 (set_cf z0
    (set_save_time_since_data Inf (set_save_time_since_checkpoint Inf (set_save_iter 0 (set_width 0 st)))))))))).
  Lemma forgetW1 (a b : state F S) : forgetW a = forgetW b -> forget1 a = forget1 b.
  Proof.
    intros H. change (forget1 a) with (set_qxn z0 (set_qyn z0 (set_qwn z0 (forgetW a)))).
    rewrite H. reflexivity.
  Qed.

  Lemma accumulate_forget (a : state F S) ps : forall vt,
    accumulate_free_surface_walks P a ps vt = accumulate_free_surface_walks P (forgetW a) ps vt.
  Proof.
    induction ps as [|p ps IH]; intros vt; [reflexivity|]. cbn [accumulate_free_surface_walks].
    change (accumulate_one P (forgetW a) p vt) with (accumulate_one P a p vt).
    destruct (accumulate_one P a p vt) as [[v t]|]; [|reflexivity]. cbn [rbind]. apply IH.
  Qed.
  Lemma surface_forget ps (a : state F S) :
    alike (fun x y => forgetW x = forgetW y) (compute_free_surface P ps a) (compute_free_surface P ps (forgetW a)).
  Proof.
    unfold compute_free_surface. rewrite accumulate_forget.
    destruct (accumulate_free_surface_walks P (forgetW a) ps _) as [[v t]|]; [|reflexivity]. cbn [rbind alike].
    reflexivity.
  Qed.
  Lemma finalize_water_forget it (a : state F S) :
    forgetW (finalize_water_iteration P it a) = forgetW (finalize_water_iteration P it (forgetW a)).
  Proof. reflexivity. Qed.

  Lemma surface_alike ps (a b : state F S) : forgetW a = forgetW b ->
    alike (fun x y => forgetW x = forgetW y) (compute_free_surface P ps a) (compute_free_surface P ps b).
  Proof.
    intros H. pose proof (surface_forget ps a) as K1. pose proof (surface_forget ps b) as K2.
    rewrite H in K1. apply alike_sym in K2. eapply alike_mono; [|eapply alike_trans; [exact K1|exact K2]].
    cbn. intros x y _ _ (z & E1 & E2). congruence.
  Qed.

  Lemma surface_width ps (a b : state F S) : compute_free_surface P ps a = Ok b -> s_width b = s_width a.
  Proof.
    unfold compute_free_surface. intros E. apply rbind_Ok in E as ([v t] & _ & E). injection E as <-. reflexivity.
  Qed.

  Lemma after_run_forget (a : state F S) w s x y z :
    forgetW (set_width w (set_rng s (set_qxn x (set_qyn y (set_qwn z a)))))
    = set_rng s (set_qxn x (set_qyn y (set_qwn z (forget1 a)))).
  Proof. reflexivity. Qed.
  Lemma after_run_same (a b : state F S) w w' s x y z : forget1 a = forget1 b ->
    forgetW (set_width w (set_rng s (set_qxn x (set_qyn y (set_qwn z a)))))
    = forgetW (set_width w' (set_rng s (set_qxn x (set_qyn y (set_qwn z b))))).
  Proof.
    intros H. eapply eq_trans; [exact (after_run_forget a w s x y z)|]. rewrite H.
    symmetry. exact (after_run_forget b w' s x y z).
  Qed.
  Lemma after_run_width (a : state F S) w s x y z :
    s_width (set_width w (set_rng s (set_qxn x (set_qyn y (set_qwn z a))))) = w.
  Proof. reflexivity. Qed.
  Lemma finalize_water_width it (a : state F S) : s_width (finalize_water_iteration P it a) = s_width a.
  Proof. reflexivity. Qed.
  Lemma finalize_water_alike it (a b : state F S) : forgetW a = forgetW b ->
    forgetW (finalize_water_iteration P it a) = forgetW (finalize_water_iteration P it b).
  Proof. intros H. rewrite finalize_water_forget, H, <- finalize_water_forget. reflexivity. Qed.

  Lemma water_iteration_alike it (a b : state F S) : forget1 a = forget1 b -> widths (s_width a) (s_width b) ->
    alike (fun x y => forget1 x = forget1 y /\ widths (s_width x) (s_width y))
      (water_iteration P it a) (water_iteration P it b).
  Proof.
    intros H0 Hw. unfold water_iteration. eapply alike_rbind; [exact (run_widths a b H0 Hw)|].
    intros [[[ps [[qx qy] qw]] w1] s] [[[ps' [[qx' qy'] qw']] w2] s'] _ _ (E & Hw').
    unfold no_width in E. cbn [fst snd] in E, Hw'. injection E as <- <- <- <- <-.
    generalize (fun i j => qx (i * W + j)) (fun i j => qy (i * W + j)) (fun i j => qw (i * W + j)). intros x0 y0 z1.
    pose proof (after_run_same a b w1 w2 s x0 y0 z1 H0) as HW.
    pose proof (after_run_width a w1 s x0 y0 z1) as V1. pose proof (after_run_width b w2 s x0 y0 z1) as V2.
    revert HW V1 V2. generalize (set_width w1 (set_rng s (set_qxn x0 (set_qyn y0 (set_qwn z1 a))))).
    generalize (set_width w2 (set_rng s (set_qxn x0 (set_qyn y0 (set_qwn z1 b))))). intros b1 a1 HW V1 V2.
    eapply alike_rbind; [apply surface_alike, HW|].
    intros x y Ex Ey H. apply surface_width in Ex, Ey. cbn [alike]. rewrite !finalize_water_width, Ex, Ey, V1, V2.
    split; [|exact Hw']. apply forgetW1. apply finalize_water_alike. exact H.
  Qed.
  Lemma route_water_alike (a b : state F S) : forget1 a = forget1 b -> widths (s_width a) (s_width b) ->
    alike (fun x y => forget1 x = forget1 y /\ widths (s_width x) (s_width y)) (route_water P a) (route_water P b).
  Proof.
    unfold route_water. generalize 0. revert a b. induction (Z.to_nat (p_itermax P)) as [|n IH]; intros a b it H Hw.
    - cbn. auto.
    - cbn [water_iterations]. eapply alike_rbind; [apply water_iteration_alike; auto|].
      intros x y _ _ [K1 K2]. auto.
  Qed.

  (** ** Sediment *)
  Lemma sed_step_forget g (a : state F S) b V px py s : sed_step P g a b V px py s = sed_step P g (forget2 a) b V px py s.
  Proof. reflexivity. Qed.
  Lemma one_parcel_forget g (a : state F S) n : forall b V px py s,
    route_one_parcel P g a n b V px py s = route_one_parcel P g (forget2 a) n b V px py s.
  Proof.
    induction n as [|n IH]; intros b V px py s; [reflexivity|]. cbn [route_one_parcel].
    rewrite <- sed_step_forget. destruct (sed_step P g a b V px py s) as [[[[[px' py'] b'] V'] s']|]; [|reflexivity].
    cbn [rbind]. destruct (cell_ix P px' py') as [[i j]|]; [|reflexivity]. cbn [rbind].
    change (s_cell_type (forget2 a)) with (s_cell_type a). destruct (_ || _); [reflexivity|]. apply IH.
  Qed.
  Lemma parcels_forget g (a : state F S) starts : forall b s,
    route_parcels P g a starts b s = route_parcels P g (forget2 a) starts b s.
  Proof.
    induction starts as [|py starts IH]; intros b s; [reflexivity|]. cbn [route_parcels].
    destruct (cell_ix P 0 py) as [[i j]|]; [|reflexivity]. cbn [rbind].
    destruct (no_flux_scale P g); [reflexivity|].
    rewrite <- one_parcel_forget. destruct (route_one_parcel _ _ _ _ _ _ _ _ _) as [[[b2 V] s2]|]; [|reflexivity].
    cbn [rbind]. rewrite <- IH. reflexivity.
  Qed.
  Lemma put_bed_forget (a : state F S) b s : forget2 (set_rng s (put_bed P b a)) = set_rng s (put_bed P b (forget2 a)).
  Proof. reflexivity. Qed.
  Lemma route_all_forget g (a : state F S) :
    alike (fun x y => forget2 x = forget2 y) (route_all_parcels P g a) (route_all_parcels P g (forget2 a)).
  Proof.
    unfold route_all_parcels, route_all_parcels_res.
    change (s_rng (forget2 a)) with (s_rng a). destruct (get_start_indices _ _ _ _) as [[starts s]|]; [|reflexivity].
    cbn [rbind]. change (bed_of P (forget2 a)) with (bed_of P a). rewrite <- parcels_forget.
    destruct (route_parcels _ _ _ _ _ _) as [[[b Vs] s']|]; [|reflexivity]. cbn [rbind alike].
    rewrite !put_bed_forget. reflexivity.
  Qed.
  Lemma route_all_alike g (a b : state F S) : forget2 a = forget2 b ->
    alike (fun x y => forget2 x = forget2 y) (route_all_parcels P g a) (route_all_parcels P g b).
  Proof.
    intros H. pose proof (route_all_forget g a) as K1. pose proof (route_all_forget g b) as K2.
    rewrite H in K1. apply alike_sym in K2. eapply alike_mono; [|eapply alike_trans; [exact K1|exact K2]].
    cbn. intros x y _ _ (z & E1 & E2). congruence.
  Qed.
  Lemma diffuse_forget (a : state F S) : forget2 (diffuse_once P a) = forget2 (diffuse_once P (forget2 a)).
  Proof. reflexivity. Qed.
  Lemma diffuse_alike n : forall (a b : state F S), forget2 a = forget2 b ->
    forget2 (diffuse_passes P n a) = forget2 (diffuse_passes P n b).
  Proof.
    induction n as [|n IH]; intros a b H; [exact H|]. cbn [diffuse_passes]. apply IH.
    rewrite diffuse_forget, H, <- diffuse_forget. reflexivity.
  Qed.
  Lemma init_sediment_forget (a b : state F S) : forget1 a = forget1 b ->
    forget2 (init_sediment_iteration a) = forget2 (init_sediment_iteration b).
  Proof.
    intros H. change (forget1 a = forget1 b). exact H.
  Qed.
  Lemma route_sediment_alike (a b : state F S) : forget1 a = forget1 b ->
    alike (fun x y => forget2 x = forget2 y) (route_sediment P a) (route_sediment P b).
  Proof.
    intros H. unfold route_sediment. eapply alike_rbind; [apply route_all_alike, init_sediment_forget, H|].
    intros x y _ _ K. apply route_all_alike. apply diffuse_alike. exact K.
  Qed.

  (** ** Counters and width are left alone by the solver *)
  Definition counters (st : state F S) := (s_save_time_since_data st, s_save_time_since_checkpoint st, s_save_iter st).
  Lemma water_counters (a b : state F S) : route_water P a = Ok b -> counters b = counters a.
  Proof.
    unfold route_water. generalize 0. revert a. induction (Z.to_nat (p_itermax P)) as [|n IH]; intros a it E.
    - injection E as <-. reflexivity.
    - cbn [water_iterations] in E. apply rbind_Ok in E as (x & E1 & E). apply IH in E. rewrite E. clear -E1.
      unfold water_iteration in E1. apply rbind_Ok in E1 as ([[[ps [[qx qy] qw]] wd] s] & _ & E).
      apply rbind_Ok in E as (st1 & E1 & E). injection E as <-.
      unfold compute_free_surface in E1. apply rbind_Ok in E1 as ([v t] & _ & E1). injection E1 as <-. reflexivity.
  Qed.
  Lemma route_all_counters g (a b : state F S) : route_all_parcels P g a = Ok b ->
    counters b = counters a /\ s_width b = s_width a.
  Proof.
    unfold route_all_parcels, route_all_parcels_res. intros E. apply rbind_Ok in E as ([x Vs] & E & E').
    injection E' as ->. apply rbind_Ok in E as ([starts s] & _ & E). apply rbind_Ok in E as ([[bb Vs'] s'] & _ & E).
    injection E as <- _. split; reflexivity.
  Qed.
  Lemma diffuse_counters n : forall (a : state F S), counters (diffuse_passes P n a) = counters a /\
    s_width (diffuse_passes P n a) = s_width a.
  Proof.
    induction n as [|n IH]; intros a; [split; reflexivity|]. cbn [diffuse_passes].
    destruct (IH (diffuse_once P a)) as [-> ->]. split; reflexivity.
  Qed.
  Lemma sediment_counters (a b : state F S) : route_sediment P a = Ok b ->
    counters b = counters a /\ s_width b = s_width a.
  Proof.
    unfold route_sediment. intros E. apply rbind_Ok in E as (x & E1 & E).
    apply route_all_counters in E1 as [K1 K2]. apply route_all_counters in E as [K3 K4].
    unfold topo_diffusion in K3, K4. destruct (diffuse_counters (Z.to_nat (p_N_crossdiff P)) x) as [K5 K6].
    rewrite K3, K4, K5, K6, K1, K2. split; reflexivity.
  Qed.

  Lemma forget_points (a b : state F S) : forget2 a = forget2 b -> same_point a b.
  Proof.
    intros H. constructor.
    - exact (f_equal s_eta H).
    - exact (f_equal s_stage H).
    - exact (f_equal s_depth H).
    - split; [exact (f_equal s_ux H)|split; [exact (f_equal s_uy H)|exact (f_equal s_uw H)]].
    - split; [exact (f_equal s_qx H)|split; [exact (f_equal s_qy H)|exact (f_equal s_qw H)]].
    - split; [exact (f_equal s_sand_frac H)|exact (f_equal s_active_layer H)].
    - exact (f_equal s_H_SL H).
    - split; [exact (f_equal s_time H)|exact (f_equal s_time_iter H)].
    - exact (f_equal s_rng H).
  Qed.
  Lemma forget_write (a a' : state F S) o : write_output P a = (a', o) -> forget2 a' = forget2 a /\ s_width a' = s_width a.
  Proof.
    intros E. apply write_output_same in E. pose proof (same_fields _ _ E) as K.
    split; [|decompose [and] K; assumption].
    unfold same_but_counters in E.
    change (forget2 a') with (forget2 (set_save_iter 0 (set_save_time_since_data Inf (set_save_time_since_checkpoint Inf a')))).
    rewrite <- E. reflexivity.
  Qed.

  (** The records two related states write. *)
  Lemma write_records_alike d (a b a' b' : state F S) oa ob : forget2 a = forget2 b ->
    s_save_time_since_data a = s_save_time_since_data b -> s_save_iter b = s_save_iter a - d ->
    write_output P a = (a', oa) -> write_output P b = (b', ob) ->
    s_save_time_since_data a' = s_save_time_since_data b' /\ s_save_iter b' = s_save_iter a' - d /\
    Forall2 (same_record d) (shown_records oa) (shown_records ob).
  Proof.
    intros H Hd Hi. unfold write_output, output_data, output_checkpoint. rewrite <- Hd.
    assert (Ht : s_time a = s_time b) by exact (f_equal s_time H).
    destruct (ext_geb (s_save_time_since_data a) (p_save_dt P)); cbn -[ext_geb];
      intros Ea Eb;
      (destruct (ext_geb (s_save_time_since_checkpoint a) (p_checkpoint_dt P) && p_save_checkpoint P) in Ea;
       destruct (ext_geb (s_save_time_since_checkpoint b) (p_checkpoint_dt P) && p_save_checkpoint P) in Eb);
      injection Ea as <- <-; injection Eb as <- <-; cbn;
      (split; [auto|]); (split; [lia|]); first [apply Forall2_nil|apply Forall2_cons; [|apply Forall2_nil]];
      (unfold same_record; cbn; split; [lia|]; split; [auto|]; split; [apply forget_points; auto|exact (f_equal s_qs H)]).
  Qed.

  Definition related (a b : state F S) : Prop := forget0 a = forget0 b /\ widths (s_width a) (s_width b).
  Definition in_phase (d : Z) (a b : state F S) : Prop :=
    s_save_time_since_data a = s_save_time_since_data b /\ s_save_iter b = s_save_iter a - d.

  Lemma subsidence_counters (a : state F S) : counters (apply_subsidence P a) = counters a /\ s_width (apply_subsidence P a) = s_width a.
  Proof. unfold apply_subsidence. destruct (_ && _); split; reflexivity. Qed.
  Lemma end_counters (a : state F S) : let a' := advance_clock P (finalize_timestep P a) in
    s_save_time_since_data a' = ext_add (s_save_time_since_data a) (p_dt P) /\
    s_save_time_since_checkpoint a' = ext_add (s_save_time_since_checkpoint a) (p_dt P) /\
    s_save_iter a' = s_save_iter a /\ s_width a' = s_width a.
  Proof. repeat split. Qed.

  Lemma set_eta0_forget (a b : state F S) : forget0 a = forget0 b ->
    forget1 (set_eta0 (s_eta a) a) = forget1 (set_eta0 (s_eta b) b).
  Proof.
    intros H. change (set_eta0 (s_eta a) (forget0 a) = set_eta0 (s_eta b) (forget0 b)).
    rewrite H. f_equal. exact (f_equal s_eta H).
  Qed.

  Definition next (d : Z) (ph : Prop) (x y : state F S * list (output F S)) : Prop :=
    forget2 (fst x) = forget2 (fst y) /\ widths (s_width (fst x)) (s_width (fst y)) /\
    (ph -> in_phase d (fst x) (fst y) /\ Forall2 (same_record d) (shown_records (snd x)) (shown_records (snd y))).

  Lemma update_alike d (a b : state F S) : related a b -> alike (next d (in_phase d a b)) (update P a) (update P b).
  Proof.
    intros [H0 Hw]. unfold update, solve_water_and_sediment_timestep.
    eapply alike_rbind with (Q := fun x y => forget2 x = forget2 y /\ widths (s_width x) (s_width y) /\
      counters x = counters a /\ counters y = counters b).
    - eapply alike_rbind; [apply route_water_alike; [apply set_eta0_forget, H0|exact Hw]|].
      intros x y Ex Ey [K1 K2]. apply water_counters in Ex, Ey.
      eapply alike_mono; [|apply route_sediment_alike; exact K1].
      intros x' y' Ex' Ey' K3. apply sediment_counters in Ex' as [C1 C2]. apply sediment_counters in Ey' as [C3 C4].
      rewrite C1, C2, C3, C4, Ex, Ey. auto.
    - intros x y _ _ (K1 & K2 & C1 & C2). apply forget_end in K1.
      destruct (subsidence_counters x) as [C3 C4]. destruct (subsidence_counters y) as [C5 C6].
      pose proof (end_counters (apply_subsidence P x)) as (D1 & _ & D3 & D4).
      pose proof (end_counters (apply_subsidence P y)) as (D1' & _ & D3' & D4').
      destruct (write_output P (advance_clock P (finalize_timestep P (apply_subsidence P x)))) as [x' ox] eqn:Ex.
      destruct (write_output P (advance_clock P (finalize_timestep P (apply_subsidence P y)))) as [y' oy] eqn:Ey.
      cbn [alike]. unfold next. cbn [fst snd].
      destruct (forget_write _ _ _ Ex) as [G1 G2]. destruct (forget_write _ _ _ Ey) as [G3 G4].
      split; [congruence|]. split; [rewrite G2, G4, D4, D4', C4, C6; exact K2|].
      intros [Hd Hi].
      assert (B1 : s_save_time_since_data x = s_save_time_since_data a /\ s_save_iter x = s_save_iter a)
        by (injection C1; auto).
      assert (B2 : s_save_time_since_data y = s_save_time_since_data b /\ s_save_iter y = s_save_iter b)
        by (injection C2; auto).
      assert (B3 : s_save_time_since_data (apply_subsidence P x) = s_save_time_since_data x /\ s_save_iter (apply_subsidence P x) = s_save_iter x)
        by (injection C3; auto).
      assert (B4 : s_save_time_since_data (apply_subsidence P y) = s_save_time_since_data y /\ s_save_iter (apply_subsidence P y) = s_save_iter y)
        by (injection C5; auto).
      destruct B1, B2, B3, B4.
      destruct (write_records_alike d _ _ _ _ _ _ K1 ltac:(congruence) ltac:(rewrite D3, D3'; congruence) Ex Ey) as (R1 & R2 & R3).
      unfold in_phase. auto.
  Qed.

  Lemma updates_alike d n : forall (a b : state F S), related a b ->
    alike (fun x y => same_point (fst x) (fst y) /\ related (fst x) (fst y) /\
       (in_phase d a b -> in_phase d (fst x) (fst y) /\ Forall2 (same_record d) (shown_records (snd x)) (shown_records (snd y))))
      (updates P n a) (updates P n b).
  Proof.
    induction n as [|n IH]; intros a b H.
    - cbn. split; [|split; [exact H|intros K; split; [exact K|constructor]]].
      destruct H as [H _]. constructor.
      + exact (f_equal s_eta H).
      + exact (f_equal s_stage H).
      + exact (f_equal s_depth H).
      + split; [exact (f_equal s_ux H)|split; [exact (f_equal s_uy H)|exact (f_equal s_uw H)]].
      + split; [exact (f_equal s_qx H)|split; [exact (f_equal s_qy H)|exact (f_equal s_qw H)]].
      + split; [exact (f_equal s_sand_frac H)|exact (f_equal s_active_layer H)].
      + exact (f_equal s_H_SL H).
      + split; [exact (f_equal s_time H)|exact (f_equal s_time_iter H)].
      + exact (f_equal s_rng H).
    - cbn [updates]. eapply alike_rbind; [apply (update_alike d); exact H|].
      intros [a1 oa] [b1 ob] _ _ (K1 & K2 & K3). cbn [fst snd] in K1, K2, K3.
      eapply alike_rbind; [apply IH; split; [apply forget10, forget21, K1|exact K2]|].
      intros [a2 oa2] [b2 ob2] _ _ (J1 & J2 & J3). cbn [fst snd alike] in *. split; [exact J1|]. split; [exact J2|].
      intros Hp. destruct (K3 Hp) as [Hp1 Hr1]. destruct (J3 Hp1) as [Hp2 Hr2]. split; [exact Hp2|].
      assert (app : forall o1 o2 : list (output F S), shown_records (o1 ++ o2) = shown_records o1 ++ shown_records o2).
      { induction o1 as [|[]]; intros o2; cbn; [auto|f_equal; auto|auto]. }
      rewrite !app. apply Forall2_app; assumption.
  Qed.
End Resume.
