(** Another pace: sediment, updates and construction (C83). *)
From Coq Require Import ZArith List Bool Reals Lra Lia FunctionalExtensionality.
From Flocq Require Import Core.
From Verif Require Import Base RLemmas Shared SharedSpec SharedProofs Params State Water Sed Iter VecLemmas
  Inputs Init PaceSpec PaceProofs.
Import ListNotations.
Local Open Scope R_scope.

Lemma vset_scale c (v : vec R) m : (fun k => c * vset v m 0 k) = vset (fun k => c * v k) m 0.
Proof. apply functional_extensionality; intro k. unfold vset. destruct (m k); [ring | reflexivity]. Qed.
Lemma gset_scaled c (g : grid R) i j x : gset (scaled c g) i j (c * x) = scaled c (gset g i j x).
Proof.
  apply functional_extensionality; intro k. apply functional_extensionality; intro l.
  unfold gset, scaled. now destruct (_ && _).
Qed.

Section Pace.
  Context {S : Type} {G : Rng R S} (a b : R) (Ha : 0 < a) (Hb : 0 < b) (P : params R).
  Local Notation L := (p_L P).
  Local Notation W := (p_W P).
  Local Notation PP := (paced_params a b P).
  Local Notation ps st := (pacing a a b st).

  Definition pbed (x : bed R) : bed R :=
    mkBed (b_eta x) (b_depth x) (b_pad_depth x) (scaled a (b_uw x)) (scaled a (b_ux x)) (scaled a (b_uy x))
      (scaled b (b_qs x)) (b_sand x) (b_mud x).

  Lemma weight_sed_scale w d ct dry th m :
    get_weight_at_cell_sediment (A:=XA) (fun k => a * w k) d ct dry th m
    = get_weight_at_cell_sediment (A:=XA) w d ct dry th m.
  Proof.
    unfold get_weight_at_cell_sediment. rewrite !vmemo_id. ra. rewrite <- vset_scale.
    set (u := fun k => npow (d k * m k) th * (a * vset w isctr 0 k)).
    set (v := fun k => npow (d k * m k) th * vset w isctr 0 k).
    assert (E : u = fun k => a * v k) by (apply functional_extensionality; intro k; unfold u, v; ring).
    rewrite E. clear u E. rewrite <- !vset_scale, !vsum_scale.
    set (x := vset (vset v isctr 0) (fun k => Rleb (d k) dry || (ct k =? -2)%Z) 0).
    rewrite !vanynan_R. rewrite Reqb_scale by lra.
    destruct (Reqb_spec (vsum (A:=XA) x) 0) as [K | K]; [reflexivity |].
    rewrite <- vset_scale, vsum_scale, Reqb_scale by lra.
    destruct (Reqb_spec (vsum (A:=XA) (vset x isctr 0)) 0) as [K' | K']; [reflexivity |].
    f_equal. apply functional_extensionality; intro k. field. split; lra.
  Qed.
  Lemma sed_weights_pace g (st : state R S) x px py :
    sed_weights (A:=XA) PP g (ps st) (pbed x) px py = sed_weights (A:=XA) P g st x px py.
  Proof.
    unfold sed_weights. autorewrite with gp gs. rewrite !vmemo_id. unfold scaled.
    rewrite get_weight_int_scale by assumption. rewrite !vanynan_R.
    change (theta_of PP g) with (theta_of P g). cbn [pbed b_pad_depth].
    now rewrite weight_sed_scale.
  Qed.
  Lemma choose_location_pace g (st : state R S) x px py s :
    choose_next_location (A:=XA) PP g (ps st) (pbed x) px py s = choose_next_location (A:=XA) P g st x px py s.
  Proof. unfold choose_next_location. autorewrite with gp. now rewrite sed_weights_pace. Qed.

  (** ** Volumes *)
  Lemma Vp_ero_scale V U Ue beta m :
    compute_Vp_ero (A:=XA) V (a * U) (a * Ue) beta m = compute_Vp_ero (A:=XA) V U Ue beta m.
  Proof.
    unfold compute_Vp_ero. ra. rewrite !npow_scale by assumption.
    pose proof (npow_pos a beta Ha) as Hp. set (p := npow a beta) in *.
    unfold Rdiv. rewrite Rinv_mult. 
    transitivity (m * V * (npow U beta - npow Ue beta) * / npow Ue beta * (p * / p)); [ring |].
    rewrite Rinv_r by lra. ring.
  Qed.
  Lemma qs_cap_pace U :
    fmul (Arith:=XA) (fdiv (Arith:=XA) (fmul (Arith:=XA) (p_qs0 PP) (p_f_bedload_router PP)) (fpow (Arith:=XA) (p_u0 PP) (p_beta PP)))
                     (fpow (Arith:=XA) (a * U) (p_beta PP))
    = b * fmul (Arith:=XA) (fdiv (Arith:=XA) (fmul (Arith:=XA) (p_qs0 P) (p_f_bedload_router P)) (fpow (Arith:=XA) (p_u0 P) (p_beta P)))
                     (fpow (Arith:=XA) U (p_beta P)).
  Proof.
    autorewrite with gp. ra. rewrite !npow_scale by assumption.
    pose proof (npow_pos a (p_beta P) Ha) as Hp. set (p := npow a (p_beta P)) in *.
    unfold Rdiv. rewrite Rinv_mult.
    transitivity (b * (p_qs0 P * p_f_bedload_router P * / npow (p_u0 P) (p_beta P) * npow U (p_beta P)) * (p * / p)); [ring |].
    rewrite Rinv_r by lra. ring.
  Qed.
  Lemma sand_change_pace (st : state R S) x V i j :
    sand_change (A:=XA) PP (ps st) (pbed x) V i j = sand_change (A:=XA) P st x V i j.
  Proof.
    unfold sand_change. cbn [pbed b_uw b_qs b_eta].
    replace (scaled a (b_uw x) i j) with (a * b_uw x i j) by reflexivity.
    replace (scaled b (b_qs x) i j) with (b * b_qs x i j) by reflexivity.
    rewrite qs_cap_pace. autorewrite with gp gs. rewrite Vp_ero_scale.
    set (cap := fmul (Arith:=XA) (fdiv (Arith:=XA) _ _) _). clearbody cap.
    change (fltb (Arith:=XA)) with Rltb. now rewrite !Rltb_scale by assumption.
  Qed.
  Lemma mud_change_pace (st : state R S) x V i j :
    mud_change (A:=XA) PP (ps st) (pbed x) V i j = mud_change (A:=XA) P st x V i j.
  Proof.
    unfold mud_change. cbn [pbed b_uw b_qs b_eta].
    replace (scaled a (b_uw x) i j) with (a * b_uw x i j) by reflexivity.
    autorewrite with gp gs. rewrite Vp_ero_scale.
    change (fltb (Arith:=XA)) with Rltb. rewrite !Rltb_scale by assumption.
    assert (E : fdiv (Arith:=XA) (fmul (Arith:=XA) (fmul (Arith:=XA) (p_lambda P) V)
                   (fsub (Arith:=XA) (fpow (Arith:=XA) (a * p_U_dep_mud P) (p_beta P)) (fpow (Arith:=XA) (a * b_uw x i j) (p_beta P))))
                (fpow (Arith:=XA) (a * p_U_dep_mud P) (p_beta P))
      = fdiv (Arith:=XA) (fmul (Arith:=XA) (fmul (Arith:=XA) (p_lambda P) V)
                   (fsub (Arith:=XA) (fpow (Arith:=XA) (p_U_dep_mud P) (p_beta P)) (fpow (Arith:=XA) (b_uw x i j) (p_beta P))))
                (fpow (Arith:=XA) (p_U_dep_mud P) (p_beta P))).
    { ra. rewrite !npow_scale by assumption.
      pose proof (npow_pos a (p_beta P) Ha) as Hp. set (p := npow a (p_beta P)) in *.
      unfold Rdiv. rewrite Rinv_mult.
      transitivity (p_lambda P * V * (npow (p_U_dep_mud P) (p_beta P) - npow (b_uw x i j) (p_beta P)) * / npow (p_U_dep_mud P) (p_beta P) * (p * / p)); [ring |].
      rewrite Rinv_r by lra. ring. }
    now rewrite E.
  Qed.
  Lemma pow_vanish c y : feqb (Arith:=XA) (fpow (Arith:=XA) (a * c) y) (fz (Arith:=XA) 0)
    = feqb (Arith:=XA) (fpow (Arith:=XA) c y) (fz (Arith:=XA) 0).
  Proof. ra. rewrite npow_scale by assumption. apply Reqb_scale. pose proof (npow_pos a y Ha). lra. Qed.
  Lemma zero_divisor_pace g (st : state R S) x i j :
    zero_divisor (A:=XA) PP g (ps st) (pbed x) i j = zero_divisor (A:=XA) P g st x i j.
  Proof.
    unfold zero_divisor. cbn [pbed b_uw b_qs b_eta].
    replace (scaled a (b_uw x) i j) with (a * b_uw x i j) by reflexivity.
    replace (scaled b (b_qs x) i j) with (b * b_qs x i j) by reflexivity.
    rewrite qs_cap_pace. autorewrite with gp gs. rewrite !pow_vanish.
    set (cap := fmul (Arith:=XA) (fdiv (Arith:=XA) _ _) _). clearbody cap.
    change (fltb (Arith:=XA)) with Rltb. now rewrite !Rltb_scale by assumption.
  Qed.

  Lemma update_fields_pace (st : state R S) x V px py i j :
    update_fields (A:=XA) PP (ps st) (pbed x) V px py i j = pbed (update_fields (A:=XA) P st x V px py i j).
  Proof.
    unfold update_fields. cbv zeta. autorewrite with gp gs. cbn [pbed b_eta b_depth b_pad_depth b_uw b_ux b_uy b_qs b_sand b_mud].
    set (d := npmax (A:=XA) _ _). clearbody d.
    replace (scaled a (s_qw st) i j) with (a * s_qw st i j) by reflexivity.
    replace (scaled a (s_qx st) i j) with (a * s_qx st i j) by reflexivity.
    replace (scaled a (s_qy st) i j) with (a * s_qy st i j) by reflexivity.
    replace (scaled a (b_uw x) i j) with (a * b_uw x i j) by reflexivity.
    assert (E1 : (if fltb (Arith:=XA) (fz (Arith:=XA) 0) d
        then npmin (A:=XA) (a * p_u_max P) (fdiv (Arith:=XA) (a * s_qw st i j) d) else a * b_uw x i j)
      = a * (if fltb (Arith:=XA) (fz (Arith:=XA) 0) d
        then npmin (A:=XA) (p_u_max P) (fdiv (Arith:=XA) (s_qw st i j) d) else b_uw x i j)).
    { destruct (fltb (Arith:=XA) _ d); [| reflexivity]. ra. 
      replace (a * s_qw st i j / d) with (a * (s_qw st i j / d)) by (unfold Rdiv; ring).
      now apply npmin_scale. }
    rewrite E1. set (u := if fltb (Arith:=XA) _ d then _ else _). clearbody u.
    assert (E2 : forall q, (if fltb (Arith:=XA) (fz (Arith:=XA) 0) (a * s_qw st i j)
        then fdiv (Arith:=XA) (fmul (Arith:=XA) (a * u) (a * q)) (a * s_qw st i j) else fz (Arith:=XA) 0)
      = a * (if fltb (Arith:=XA) (fz (Arith:=XA) 0) (s_qw st i j)
        then fdiv (Arith:=XA) (fmul (Arith:=XA) u q) (s_qw st i j) else fz (Arith:=XA) 0)).
    { intros q. ra. rewrite Rltb_scale0 by assumption.
      destruct (Rltb_spec 0 (s_qw st i j)) as [K | K]; [field; split; lra | ring]. }
    rewrite !E2. unfold pbed. cbn [b_eta b_depth b_pad_depth b_uw b_ux b_uy b_qs b_sand b_mud]. now rewrite !gset_scaled.
  Qed.
  Lemma deposit_pace g (st : state R S) x V px py i j :
    deposit_or_erode (A:=XA) PP g (ps st) (pbed x) V px py i j
    = let (x', V') := deposit_or_erode (A:=XA) P g st x V px py i j in (pbed x', V').
  Proof.
    unfold deposit_or_erode. cbv zeta. destruct g.
    - rewrite sand_change_pace. rewrite <- update_fields_pace. reflexivity.
    - rewrite mud_change_pace. rewrite <- update_fields_pace. reflexivity.
  Qed.
  Lemma flux_part_pace V : flux_part (A:=XA) PP V = b * flux_part (A:=XA) P V.
  Proof.
    unfold flux_part. autorewrite with gp. ra. unfold Rdiv. rewrite Rinv_mult, Rinv_inv. ring.
  Qed.
  Lemma add_at_scaled c g i j x : add_at (A:=XA) (scaled c g) i j (c * x) = scaled c (add_at (A:=XA) g i j x).
  Proof.
    unfold add_at. rewrite <- gset_scaled. f_equal. ra. unfold scaled. ring.
  Qed.
  Lemma partition_pace x V i0 j0 i j d :
    partition_sediment (A:=XA) PP (pbed x) V i0 j0 i j d = pbed (partition_sediment (A:=XA) P x V i0 j0 i j d).
  Proof.
    unfold partition_sediment. cbv zeta. rewrite flux_part_pace. destruct (fltb (Arith:=XA) _ d); [| reflexivity].
    unfold set_qs_bed, pbed. cbn [b_eta b_depth b_pad_depth b_uw b_ux b_uy b_qs b_sand b_mud]. now rewrite !add_at_scaled.
  Qed.

  (** ** Routing *)
  Lemma cell_ix_pace x y : cell_ix PP x y = cell_ix P x y.
  Proof. reflexivity. Qed.
  Lemma sed_step_pace g (st : state R S) x V px py s :
    sed_step (A:=XA) PP g (ps st) (pbed x) V px py s
    = rmp (fun r => let '(px, py, x, V, s) := r in (px, py, pbed x, V, s)) (sed_step (A:=XA) P g st x V px py s).
  Proof.
    unfold sed_step. rewrite choose_location_pace.
    destruct (choose_next_location (A:=XA) P g st x px py s) as [[k s1] | e]; cbn [rbind rmp]; [| reflexivity].
    destruct (get_steps (A:=XA) k) as [[[d is] js] t]. rewrite !cell_ix_pace.
    destruct (cell_ix P px py) as [[i0 j0] | e]; cbn [rbind rmp]; [| reflexivity].
    destruct (cell_ix P (px + js) (py + is)) as [[i j] | e]; cbn [rbind rmp]; [| reflexivity].
    set (y := match g with Sand => partition_sediment (A:=XA) P x V i0 j0 i j d | Mud => x end).
    replace (match g with Sand => partition_sediment (A:=XA) PP (pbed x) V i0 j0 i j d | Mud => pbed x end)
      with (pbed y) by (unfold y; destruct g; [symmetry; apply partition_pace | reflexivity]).
    rewrite zero_divisor_pace. destruct (zero_divisor (A:=XA) P g st y i j); [reflexivity |].
    rewrite deposit_pace.
    destruct (deposit_or_erode (A:=XA) P g st y V (px + js) (py + is) i j) as [y' V']. reflexivity.
  Qed.
  Lemma route_one_pace g (st : state R S) fuel : forall x V px py s,
    route_one_parcel (A:=XA) PP g (ps st) fuel (pbed x) V px py s
    = rmp (fun r => let '(x, V, s) := r in (pbed x, V, s)) (route_one_parcel (A:=XA) P g st fuel x V px py s).
  Proof.
    induction fuel as [| fuel IH]; intros; cbn [route_one_parcel]; [reflexivity |].
    rewrite sed_step_pace.
    destruct (sed_step (A:=XA) P g st x V px py s) as [[[[[px' py'] x'] V'] s'] | e]; cbn [rbind rmp]; [| reflexivity].
    rewrite cell_ix_pace. destruct (cell_ix P px' py') as [[i j] | e]; cbn [rbind rmp]; [| reflexivity].
    rewrite gs_cell_type. destruct (_ || _); [reflexivity |]. apply IH.
  Qed.
  Lemma no_flux_scale_pace g : no_flux_scale (A:=XA) PP g = no_flux_scale (A:=XA) P g.
  Proof.
    unfold no_flux_scale. destruct g; [| reflexivity]. autorewrite with gp. ra. rewrite Reqb_div by lra. reflexivity.
  Qed.
  Lemma route_parcels_pace g (st : state R S) starts : forall x s,
    route_parcels (A:=XA) PP g (ps st) starts (pbed x) s
    = rmp (fun r => let '(x, V, s) := r in (pbed x, V, s)) (route_parcels (A:=XA) P g st starts x s).
  Proof.
    induction starts as [| py starts IH]; intros; cbn [route_parcels]; [reflexivity |].
    rewrite cell_ix_pace. destruct (cell_ix P 0 py) as [[i j] | e]; cbn [rbind rmp]; [| reflexivity].
    rewrite no_flux_scale_pace. destruct (no_flux_scale (A:=XA) P g); [reflexivity |]. autorewrite with gp.
    set (y := match g with Sand => set_qs_bed x (add_at (A:=XA) (b_qs x) i j (flux_part (A:=XA) P (p_Vp_sed P))) | Mud => x end).
    replace (match g with Sand => set_qs_bed (pbed x) (add_at (A:=XA) (b_qs (pbed x)) i j (flux_part (A:=XA) PP (p_Vp_sed P))) | Mud => pbed x end)
      with (pbed y).
    2: { unfold y; destruct g; [| reflexivity]. rewrite flux_part_pace. unfold set_qs_bed, pbed.
         cbn [b_eta b_depth b_pad_depth b_uw b_ux b_uy b_qs b_sand b_mud]. now rewrite add_at_scaled. }
    rewrite route_one_pace.
    destruct (route_one_parcel (A:=XA) P g st _ y (p_Vp_sed P) 0 py s) as [[[x1 V1] s1] | e]; cbn [rbind rmp]; [| reflexivity].
    rewrite IH.
    destruct (route_parcels (A:=XA) P g st starts x1 s1) as [[[x2 V2] s2] | e]; cbn [rbind rmp]; reflexivity.
  Qed.
  Lemma bed_of_pace (st : state R S) : bed_of (A:=XA) PP (ps st) = pbed (bed_of (A:=XA) P st).
  Proof. reflexivity. Qed.
  Lemma put_bed_pace x (st : state R S) : put_bed PP (pbed x) (ps st) = ps (put_bed P x st).
  Proof.
    unfold put_bed. rewrite !gmemo_id. autorewrite with ps. cbn [pbed b_eta b_depth b_uw b_ux b_uy b_qs b_sand b_mud].
    reflexivity.
  Qed.
  Lemma route_all_pace g (st : state R S) :
    route_all_parcels (A:=XA) PP g (ps st) = rmp (pacing a a b) (route_all_parcels (A:=XA) P g st).
  Proof.
    unfold route_all_parcels, route_all_parcels_res. autorewrite with gp gs.
    change (num_starts (A:=XA) PP g) with (num_starts (A:=XA) P g).
    destruct (get_start_indices _ _ _ _) as [[starts s] | e]; cbn [rbind rmp]; [| reflexivity].
    rewrite bed_of_pace, route_parcels_pace.
    destruct (route_parcels (A:=XA) P g st starts _ s) as [[[x V] s1] | e]; cbn [rbind rmp]; [| reflexivity].
    now rewrite put_bed_pace, ps_rng.
  Qed.

  (** ** Diffusion *)
  Lemma convolve_P : convolve (A:=XA) PP = convolve (A:=XA) P.
  Proof. reflexivity. Qed.
  Lemma convolve_scaled k g : convolve (A:=XA) P k (scaled b g) = scaled b (convolve (A:=XA) P k g).
  Proof.
    apply functional_extensionality; intro i. apply functional_extensionality; intro j.
    unfold scaled at 2. unfold convolve. rewrite <- vsum_scale. f_equal.
    apply functional_extensionality; intro l. unfold scaled. ra. destruct (inbb _ _ _ _); ring.
  Qed.
  Lemma crossflux_value m q u e v w :
    fmul (Arith:=XA) (m / b) (fadd (Arith:=XA) (fsub (Arith:=XA) (fmul (Arith:=XA) (b * q) u) (fmul (Arith:=XA) e (b * v))) (b * w))
    = fmul (Arith:=XA) m (fadd (Arith:=XA) (fsub (Arith:=XA) (fmul (Arith:=XA) q u) (fmul (Arith:=XA) e v)) w).
  Proof. ra. field. lra. Qed.
  Lemma crossflux_pace (st : state R S) eta : crossflux (A:=XA) PP (ps st) eta = crossflux (A:=XA) P st eta.
  Proof.
    apply functional_extensionality; intro i. apply functional_extensionality; intro j.
    unfold crossflux. cbv zeta. rewrite !convolve_P. autorewrite with gp gs.
    replace (fun x y => fmul (Arith:=XA) (scaled b (s_qs st) x y) (eta x y))
      with (scaled b (fun x y => fmul (Arith:=XA) (s_qs st x y) (eta x y)))
      by (apply functional_extensionality; intro k; apply functional_extensionality; intro l; unfold scaled; ra; ring).
    rewrite !convolve_scaled. destruct (_ || _); [reflexivity |]. unfold scaled.
    set (u := convolve (A:=XA) P kernel1 eta i j). set (v := convolve (A:=XA) P kernel2 (s_qs st) i j).
    set (w := convolve (A:=XA) P kernel2 _ i j). apply crossflux_value.
  Qed.
  Lemma diffuse_once_pace (st : state R S) : diffuse_once (A:=XA) PP (ps st) = ps (diffuse_once (A:=XA) P st).
  Proof.
    unfold diffuse_once. autorewrite with gp gs. rewrite crossflux_pace. now autorewrite with ps.
  Qed.
  Lemma diffuse_passes_pace n : forall (st : state R S),
    diffuse_passes (A:=XA) PP n (ps st) = ps (diffuse_passes (A:=XA) P n st).
  Proof. induction n as [| n IH]; intros st; cbn [diffuse_passes]; [reflexivity |]. now rewrite diffuse_once_pace, IH. Qed.
  Lemma topo_diffusion_pace (st : state R S) : topo_diffusion (A:=XA) PP (ps st) = ps (topo_diffusion (A:=XA) P st).
  Proof. unfold topo_diffusion. autorewrite with gp. apply diffuse_passes_pace. Qed.
  Lemma scaled_0 c : scaled c (fun _ _ => 0) = fun _ _ => 0.
  Proof. apply functional_extensionality; intro i; apply functional_extensionality; intro j; unfold scaled; ring. Qed.
  Lemma init_sediment_pace (st : state R S) :
    init_sediment_iteration (A:=XA) (ps st) = ps (init_sediment_iteration (A:=XA) st).
  Proof. unfold init_sediment_iteration. autorewrite with ps. ra. now rewrite scaled_0. Qed.
  Lemma route_sediment_pace (st : state R S) :
    route_sediment (A:=XA) PP (ps st) = rmp (pacing a a b) (route_sediment (A:=XA) P st).
  Proof.
    unfold route_sediment. rewrite init_sediment_pace, route_all_pace.
    destruct (route_all_parcels (A:=XA) P Sand _) as [st1 | e]; cbn [rbind rmp]; [| reflexivity].
    now rewrite topo_diffusion_pace, route_all_pace.
  Qed.

  (** ** Updates *)
  Lemma solve_pace (st : state R S) :
    solve_water_and_sediment_timestep (A:=XA) PP (ps st)
    = rmp (pacing a a b) (solve_water_and_sediment_timestep (A:=XA) P st).
  Proof.
    unfold solve_water_and_sediment_timestep. rewrite gs_eta, <- ps_eta0, route_water_pace by assumption.
    destruct (route_water (A:=XA) P _) as [st1 | e]; cbn [rbind rmp]; [| reflexivity].
    apply route_sediment_pace.
  Qed.
  Lemma subsidence_pace (st : state R S) : apply_subsidence (A:=XA) PP (ps st) = ps (apply_subsidence (A:=XA) P st).
  Proof.
    unfold apply_subsidence. autorewrite with gp gs. change (fleb (Arith:=XA)) with Rleb. rewrite Rleb_div by assumption.
    destruct (_ && _); [now autorewrite with ps | reflexivity].
  Qed.
  Lemma sand_frac_pace (st : state R S) : compute_sand_frac (A:=XA) PP (ps st) = ps (compute_sand_frac (A:=XA) P st).
  Proof. unfold compute_sand_frac. autorewrite with gp gs ps. reflexivity. Qed.
  Lemma levels_pace (st : state R S) : finalize_levels (A:=XA) PP (ps st) = ps (finalize_levels (A:=XA) P st).
  Proof. unfold finalize_levels. cbv zeta. autorewrite with gp gs ps. reflexivity. Qed.
  Lemma finalize_pace (st : state R S) : finalize_timestep (A:=XA) PP (ps st) = ps (finalize_timestep (A:=XA) P st).
  Proof.
    unfold finalize_timestep. cbv zeta. rewrite levels_pace, sand_frac_pace. autorewrite with gp gs ps.
    f_equal. ra. f_equal. field. lra.
  Qed.
  Lemma ext_add_pace e d : ext_add (A:=XA) (sooner b e) (d / b) = sooner b (ext_add (A:=XA) e d).
  Proof. destruct e; cbn [ext_add sooner]; [reflexivity |]. f_equal. ra. field. lra. Qed.
  Lemma ext_geb_pace e d : ext_geb (A:=XA) (sooner b e) (d / b) = ext_geb (A:=XA) e d.
  Proof. destruct e; cbn [ext_geb sooner]; [reflexivity |]. ra. now apply Rleb_div. Qed.
  Lemma advance_pace (st : state R S) : advance_clock (A:=XA) PP (ps st) = ps (advance_clock (A:=XA) P st).
  Proof.
    unfold advance_clock. autorewrite with gp gs ps. rewrite !ext_add_pace. f_equal. ra. field. lra.
  Qed.
  Definition pout (r : state R S * list (output R S)) : state R S * list (output R S) :=
    (pacing a a b (fst r), map (paced_output a b) (snd r)).
  Lemma output_data_pace (st : state R S) : output_data (A:=XA) PP (ps st) = pout (output_data (A:=XA) P st).
  Proof.
    unfold output_data. autorewrite with gp gs. rewrite ext_geb_pace.
    destruct (ext_geb (A:=XA) _ _); [| reflexivity]. unfold pout. cbn [fst snd map paced_output].
    autorewrite with ps. cbn [sooner]. f_equal. f_equal. f_equal. ra. unfold Rdiv. ring.
  Qed.
  Lemma output_checkpoint_pace (st : state R S) :
    output_checkpoint (A:=XA) PP (ps st) = pout (output_checkpoint (A:=XA) P st).
  Proof.
    unfold output_checkpoint. autorewrite with gp gs. rewrite ext_geb_pace.
    destruct (_ && _); [| reflexivity]. unfold pout. cbn [fst snd map paced_output].
    autorewrite with ps. cbn [sooner]. f_equal. f_equal. f_equal. ra. unfold Rdiv. ring.
  Qed.
  Lemma write_output_pace (st : state R S) : write_output (A:=XA) PP (ps st) = pout (write_output (A:=XA) P st).
  Proof.
    unfold write_output. rewrite output_data_pace.
    destruct (output_data (A:=XA) P st) as [st1 o1]. unfold pout at 1. cbn [fst snd].
    rewrite output_checkpoint_pace.
    destruct (output_checkpoint (A:=XA) P st1) as [st2 o2]. unfold pout. cbn [fst snd].
    now rewrite map_app.
  Qed.
  Lemma update_pace (st : state R S) : update (A:=XA) PP (ps st) = rmp pout (update (A:=XA) P st).
  Proof.
    unfold update. rewrite solve_pace.
    destruct (solve_water_and_sediment_timestep (A:=XA) P st) as [st1 | e]; cbn [rbind rmp]; [| reflexivity].
    now rewrite subsidence_pace, finalize_pace, advance_pace, write_output_pace.
  Qed.
  Lemma updates_pace n : forall st : state R S,
    updates (A:=XA) PP n (ps st) = rmp pout (updates (A:=XA) P n st).
  Proof.
    induction n as [| n IH]; intros st; cbn [updates]; [reflexivity |]. rewrite update_pace.
    destruct (update (A:=XA) P st) as [[st1 o1] | e]; cbn [rbind rmp]; [| reflexivity]. unfold pout at 1. cbn [fst snd].
    rewrite IH.
    destruct (updates (A:=XA) P n st1) as [[st2 o2] | e]; cbn [rbind rmp]; [| reflexivity]. unfold pout. cbn [fst snd].
    now rewrite map_app.
  Qed.
End Pace.
