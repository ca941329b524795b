(** Proofs for C73. *)
From Coq Require Import ZArith List Bool String Lia.
From Verif Require Import Base Shared Params State Water Sed Iter IterSpec RunProofs FrameProofs
  Inputs Init InitSpec Dict Config ConfigSpec ConfigProofs QuietSpec.
Import ListNotations.
Local Open Scope Z_scope.

(** The result of a state-to-state call with the state mapped. *)
Definition rmap {T U} (f : T -> U) (x : result T) : result U :=
  match x with Ok a => Ok (f a) | Err e => Err e end.

Section Quiet.
  Context {F : Type} {A : Arith F} {S : Type} {G : Rng F S}.
  Variables (k : Z) (a b : ext F).
  (** Other output counters. *)
  Definition recount (st : state F S) : state F S :=
    set_save_iter k (set_save_time_since_data a (set_save_time_since_checkpoint b st)).

  Section Counters.
    Variable P : params F.

    Lemma accumulate_rc st ps : forall vt,
      accumulate_free_surface_walks P (recount st) ps vt = accumulate_free_surface_walks P st ps vt.
    Proof.
      induction ps as [|p ps IH]; intros vt; [reflexivity|]. cbn [accumulate_free_surface_walks].
      change (accumulate_one P (recount st) p vt) with (accumulate_one P st p vt).
      destruct (accumulate_one P st p vt) as [[v t]|]; cbn [rbind]; [apply IH|reflexivity].
    Qed.
    Lemma free_surface_rc st ps :
      compute_free_surface P ps (recount st) = rmap recount (compute_free_surface P ps st).
    Proof.
      unfold compute_free_surface. rewrite accumulate_rc.
      destruct (accumulate_free_surface_walks P st ps _) as [[v t]|]; cbn [rbind rmap]; reflexivity.
    Qed.
    Lemma water_iteration_rc it st :
      water_iteration P it (recount st) = rmap recount (water_iteration P it st).
    Proof.
      unfold water_iteration.
      change (run_water_iteration P (recount st)) with (run_water_iteration P st).
      destruct (run_water_iteration P st) as [[[[ps [[qx qy] qw]] w] s]|]; cbn [rbind rmap]; [|reflexivity].
      set (st1 := set_width w (set_rng s (set_qxn (fun i j : Z => qx (i * p_W P + j))
        (set_qyn (fun i j : Z => qy (i * p_W P + j)) (set_qwn (fun i j : Z => qw (i * p_W P + j)) st))))).
      match goal with |- rbind (compute_free_surface P ps ?x) _ = _ => change x with (recount st1) end.
      rewrite free_surface_rc. destruct (compute_free_surface P ps st1); cbn [rbind rmap]; reflexivity.
    Qed.
    Lemma water_iterations_rc n : forall it st,
      water_iterations P n it (recount st) = rmap recount (water_iterations P n it st).
    Proof.
      induction n as [|n IH]; intros it st; [reflexivity|]. cbn [water_iterations].
      rewrite water_iteration_rc. destruct (water_iteration P it st) as [x|]; cbn [rbind rmap]; [|reflexivity]. apply IH.
    Qed.

    Lemma route_one_rc g st n : forall bd V px py s,
      route_one_parcel P g (recount st) n bd V px py s = route_one_parcel P g st n bd V px py s.
    Proof.
      induction n as [|n IH]; intros; [reflexivity|]. cbn [route_one_parcel].
      change (sed_step P g (recount st)) with (sed_step P g st).
      change (s_cell_type (recount st)) with (s_cell_type st).
      destruct (sed_step P g st _ _ _ _ _) as [[[[[x y] b'] V'] s']|]; cbn [rbind]; [|reflexivity].
      destruct (cell_ix P x y) as [[i j]|]; cbn [rbind]; [|reflexivity].
      destruct (_ || _); [reflexivity|apply IH].
    Qed.
    Lemma route_parcels_rc g st ss : forall bd s,
      route_parcels P g (recount st) ss bd s = route_parcels P g st ss bd s.
    Proof.
      induction ss as [|j ss IH]; intros; [reflexivity|]. cbn [route_parcels].
      destruct (cell_ix P 0 j) as [[? ?]|]; cbn [rbind]; [|reflexivity].
      destruct (no_flux_scale P g); [reflexivity|].
      rewrite route_one_rc. destruct (route_one_parcel P g st _ _ _ _ _ _) as [[[? ?] ?]|]; cbn [rbind]; [|reflexivity].
      rewrite IH. reflexivity.
    Qed.
    Lemma route_all_rc g st : route_all_parcels P g (recount st) = rmap recount (route_all_parcels P g st).
    Proof.
      unfold route_all_parcels, route_all_parcels_res.
      change (s_rng (recount st)) with (s_rng st). change (bed_of P (recount st)) with (bed_of P st).
      destruct (get_start_indices _ _ _ _) as [[ss s]|]; cbn [rbind]; [|reflexivity].
      rewrite route_parcels_rc. destruct (route_parcels P g st ss _ s) as [[[? ?] ?]|]; reflexivity.
    Qed.
    Lemma diffuse_rc n : forall st, diffuse_passes P n (recount st) = recount (diffuse_passes P n st).
    Proof.
      induction n as [|n IH]; intros st; [reflexivity|]. cbn [diffuse_passes].
      change (diffuse_once P (recount st)) with (recount (diffuse_once P st)). apply IH.
    Qed.
    Lemma solve_rc st : solve_water_and_sediment_timestep P (recount st)
      = rmap recount (solve_water_and_sediment_timestep P st).
    Proof.
      unfold solve_water_and_sediment_timestep, route_water, route_sediment.
      change (set_eta0 (s_eta (recount st)) (recount st)) with (recount (set_eta0 (s_eta st) st)).
      rewrite water_iterations_rc. destruct (water_iterations P _ 0 _) as [x|]; cbn [rbind rmap]; [|reflexivity].
      change (init_sediment_iteration (recount x)) with (recount (init_sediment_iteration x)).
      rewrite route_all_rc. destruct (route_all_parcels P Sand _) as [y|]; cbn [rbind rmap]; [|reflexivity].
      unfold topo_diffusion. rewrite diffuse_rc. apply route_all_rc.
    Qed.
  End Counters.
End Quiet.

Section Same.
  Context {F : Type} {A : Arith F} {S N : Type} {G : Rng F S} {GN : NpRng N}.

  Lemma same_refl (st : state F S) : same_but_counters st st.
  Proof. reflexivity. Qed.
  Lemma same_sym (st st' : state F S) : same_but_counters st st' -> same_but_counters st' st.
  Proof. unfold same_but_counters. congruence. Qed.
  Lemma same_trans (st st' st'' : state F S) :
    same_but_counters st st' -> same_but_counters st' st'' -> same_but_counters st st''.
  Proof. unfold same_but_counters. congruence. Qed.
  Lemma recount_same k a b (st : state F S) : same_but_counters st (recount k a b st).
  Proof. reflexivity. Qed.
  Lemma same_recount (st st' : state F S) : same_but_counters st st' ->
    st' = recount (s_save_iter st') (s_save_time_since_data st') (s_save_time_since_checkpoint st') st.
  Proof.
    intros E. unfold same_but_counters in E.
    assert (H : recount (s_save_iter st') (s_save_time_since_data st') (s_save_time_since_checkpoint st')
       (set_save_iter 0 (set_save_time_since_data Inf (set_save_time_since_checkpoint Inf st)))
     = recount (s_save_iter st') (s_save_time_since_data st') (s_save_time_since_checkpoint st')
       (set_save_iter 0 (set_save_time_since_data Inf (set_save_time_since_checkpoint Inf st')))) by (rewrite E; reflexivity).
    destruct st'. symmetry. exact H.
  Qed.

  (** Constants that only matter to output. *)
  Definition respec (x y : F) (c : bool) (P : params F) : params F :=
    setp_save_dt x (setp_checkpoint_dt y (setp_save_checkpoint c P)).

  Section Spec.
    Variables (x y : F) (c : bool) (P : params F).
    Notation P' := (respec x y c P).
    Lemma run_spec (st : state F S) : run_water_iteration P' st = run_water_iteration P st.
    Proof. reflexivity. Qed.
    Lemma accumulate_spec (st : state F S) ps : forall vt,
      accumulate_free_surface_walks P' st ps vt = accumulate_free_surface_walks P st ps vt.
    Proof.
      induction ps as [|p ps IH]; intros vt; [reflexivity|]. cbn [accumulate_free_surface_walks].
      change (accumulate_one P' st p vt) with (accumulate_one P st p vt).
      destruct (accumulate_one P st p vt) as [[v t]|]; cbn [rbind]; [apply IH|reflexivity].
    Qed.
    Lemma flooding_spec d e g : flooding_correction P' d e g = flooding_correction P d e g.
    Proof. reflexivity. Qed.
    Lemma free_surface_spec (st : state F S) ps : compute_free_surface P' ps st = compute_free_surface P ps st.
    Proof.
      unfold compute_free_surface. rewrite accumulate_spec.
      destruct (accumulate_free_surface_walks P st ps _) as [[v t]|]; cbn [rbind rmap]; [|reflexivity].
      rewrite flooding_spec. reflexivity.
    Qed.
    Lemma flow_spec it (st : state F S) : update_flow_field P' it st = update_flow_field P it st.
    Proof. reflexivity. Qed.
    Lemma velocity_spec (st : state F S) : update_velocity_field P' st = update_velocity_field P st.
    Proof. reflexivity. Qed.
    Lemma iteration_spec it (st : state F S) : water_iteration P' it st = water_iteration P it st.
    Proof.
      unfold water_iteration. rewrite run_spec.
      destruct (run_water_iteration P st) as [[[[ps [[qx qy] qw]] w] s]|]; cbn [rbind rmap]; [|reflexivity].
      change (p_W P') with (p_W P). rewrite free_surface_spec.
      destruct (compute_free_surface P ps _) as [z|]; cbn [rbind rmap]; [|reflexivity].
      unfold finalize_water_iteration. rewrite flow_spec, velocity_spec. reflexivity.
    Qed.
    Lemma iterations_spec n : forall it (st : state F S), water_iterations P' n it st = water_iterations P n it st.
    Proof.
      induction n as [|n IH]; intros it st; [reflexivity|]. cbn [water_iterations]. rewrite iteration_spec.
      destruct (water_iteration P it st); cbn [rbind]; [apply IH|reflexivity].
    Qed.
    Lemma sed_step_spec g (st : state F S) bd V px py s : sed_step P' g st bd V px py s = sed_step P g st bd V px py s.
    Proof. reflexivity. Qed.
    Lemma route_one_spec g (st : state F S) n : forall bd V px py s,
      route_one_parcel P' g st n bd V px py s = route_one_parcel P g st n bd V px py s.
    Proof.
      induction n as [|n IH]; intros; [reflexivity|]. cbn [route_one_parcel]. rewrite sed_step_spec.
      destruct (sed_step P g st _ _ _ _ _) as [[[[[x' y'] b'] V'] s']|]; cbn [rbind]; [|reflexivity].
      change (cell_ix P' x' y') with (cell_ix P x' y').
      destruct (cell_ix P x' y') as [[i j]|]; cbn [rbind]; [|reflexivity].
      destruct (_ || _); [reflexivity|apply IH].
    Qed.
    Lemma route_parcels_spec g (st : state F S) ss : forall bd s,
      route_parcels P' g st ss bd s = route_parcels P g st ss bd s.
    Proof.
      induction ss as [|j ss IH]; intros; [reflexivity|]. cbn [route_parcels].
      change (cell_ix P' 0 j) with (cell_ix P 0 j).
      destruct (cell_ix P 0 j) as [[? ?]|]; cbn [rbind]; [|reflexivity].
      change (no_flux_scale P' g) with (no_flux_scale P g). destruct (no_flux_scale P g); [reflexivity|].
      rewrite route_one_spec. change (p_stepmax P') with (p_stepmax P). change (p_Vp_sed P') with (p_Vp_sed P).
      change (flux_part P' (p_Vp_sed P)) with (flux_part P (p_Vp_sed P)).
      destruct (route_one_parcel P g st _ _ _ _ _ _) as [[[? ?] ?]|]; cbn [rbind]; [|reflexivity].
      rewrite IH. reflexivity.
    Qed.
    Lemma route_all_spec g (st : state F S) : route_all_parcels P' g st = route_all_parcels P g st.
    Proof.
      unfold route_all_parcels, route_all_parcels_res.
      change (p_inlet P') with (p_inlet P). change (num_starts P' g) with (num_starts P g).
      change (bed_of P' st) with (bed_of P st).
      destruct (get_start_indices _ _ _ _) as [[ss s]|]; cbn [rbind]; [|reflexivity].
      rewrite route_parcels_spec. reflexivity.
    Qed.
    Lemma diffuse_once_spec (st : state F S) : diffuse_once P' st = diffuse_once P st.
    Proof. reflexivity. Qed.
    Lemma diffuse_spec n : forall (st : state F S), diffuse_passes P' n st = diffuse_passes P n st.
    Proof. induction n as [|n IH]; intros st; [reflexivity|]. cbn [diffuse_passes]. rewrite diffuse_once_spec. apply IH. Qed.
    Lemma solve_spec (st : state F S) :
      solve_water_and_sediment_timestep P' st = solve_water_and_sediment_timestep P st.
    Proof.
      unfold solve_water_and_sediment_timestep, route_water, route_sediment, topo_diffusion.
      change (p_itermax P') with (p_itermax P). rewrite iterations_spec.
      destruct (water_iterations P _ 0 _) as [z|]; cbn [rbind]; [|reflexivity].
      rewrite route_all_spec. destruct (route_all_parcels P Sand _) as [u|]; cbn [rbind]; [|reflexivity].
      change (p_N_crossdiff P') with (p_N_crossdiff P). rewrite diffuse_spec, route_all_spec. reflexivity.
    Qed.
    Lemma subsidence_spec (st : state F S) : apply_subsidence P' st = apply_subsidence P st.
    Proof. reflexivity. Qed.
    Lemma sand_frac_spec (st : state F S) : compute_sand_frac P' st = compute_sand_frac P st.
    Proof. reflexivity. Qed.
    Lemma levels_spec (st : state F S) : finalize_levels P' st = finalize_levels P st.
    Proof. unfold finalize_levels. rewrite flooding_spec. reflexivity. Qed.
    Lemma end_spec (st : state F S) :
      advance_clock P' (finalize_timestep P' (apply_subsidence P' st))
      = advance_clock P (finalize_timestep P (apply_subsidence P st)).
    Proof. rewrite subsidence_spec. unfold finalize_timestep. rewrite levels_spec, sand_frac_spec. reflexivity. Qed.
  End Spec.

  Lemma same_constants_spec (P P' : params F) : same_constants P P' ->
    P' = respec (p_save_dt P') (p_checkpoint_dt P') (p_save_checkpoint P') P.
  Proof. intros H. exact H. Qed.
  Lemma spec_same x y c (P : params F) : same_constants P (respec x y c P).
  Proof. reflexivity. Qed.

  Lemma end_rc k a b P (st : state F S) : exists k' a' b',
    advance_clock P (finalize_timestep P (apply_subsidence P (recount k a b st)))
    = recount k' a' b' (advance_clock P (finalize_timestep P (apply_subsidence P st))).
  Proof.
    assert (E : apply_subsidence P (recount k a b st) = recount k a b (apply_subsidence P st)).
    { unfold apply_subsidence. change (s_time (recount k a b st)) with (s_time st).
      destruct (_ && _); reflexivity. }
    rewrite E. generalize (apply_subsidence P st). clear st E. intros st. unfold finalize_timestep.
    change (finalize_levels P (recount k a b st)) with (recount k a b (finalize_levels P st)).
    generalize (finalize_levels P st). clear st. intros st.
    change (compute_sand_frac P (recount k a b st)) with (recount k a b (compute_sand_frac P st)).
    generalize (compute_sand_frac P st). clear st. intros st.
    exists k, (ext_add a (p_dt P)), (ext_add b (p_dt P)). reflexivity.
  Qed.

  Lemma update_quiet (P P' : params F) (st st' : state F S) :
    same_constants P P' -> same_but_counters st st' ->
    same_outcome same_state (update P st) (update P' st').
  Proof.
    intros HP Hs. rewrite (same_constants_spec _ _ HP), (same_recount _ _ Hs).
    generalize (p_save_dt P') (p_checkpoint_dt P') (p_save_checkpoint P')
      (s_save_iter st') (s_save_time_since_data st') (s_save_time_since_checkpoint st').
    clear P' st' HP Hs. intros x y c k a b. unfold update. rewrite solve_spec, solve_rc.
    destruct (solve_water_and_sediment_timestep P st) as [z|e]; cbn [rbind rmap]; [|reflexivity].
    rewrite end_spec. destruct (end_rc k a b P z) as (k' & a' & b' & ->).
    generalize (advance_clock P (finalize_timestep P (apply_subsidence P z))). intros w.
    destruct (write_output P w) as [w1 o1] eqn:E1. destruct (write_output (respec x y c P) _) as [w2 o2] eqn:E2.
    apply write_output_same in E1, E2. unfold same_outcome, same_state. cbn [fst].
    apply same_sym in E1. apply (same_trans _ _ _ E1). apply (same_trans _ _ _ (recount_same k' a' b' w)). exact E2.
  Qed.

  Lemma updates_quiet (P P' : params F) n : forall st st' : state F S,
    same_constants P P' -> same_but_counters st st' ->
    same_outcome same_state (updates P n st) (updates P' n st').
  Proof.
    induction n as [|n IH]; intros st st' HP Hs; [exact Hs|]. cbn [updates].
    pose proof (update_quiet P P' st st' HP Hs) as H.
    destruct (update P st) as [[a o]|e], (update P' st') as [[a' o']|e']; cbn in H; try contradiction; cbn [rbind]; [|exact H].
    specialize (IH a a' HP H). destruct (updates P n a) as [[b p]|e], (updates P' n a') as [[b' p']|e'];
      cbn in IH; try contradiction; exact IH.
  Qed.

  (** ** New models *)
  Definition reinput (x : F) (y : option F) (c : bool) (inp : inputs F) : inputs F :=
    seti_save_dt x (seti_checkpoint_dt y (seti_save_checkpoint c inp)).
  Section Setters.
    Variables (x : F) (y : option F) (c : bool).
    Notation ri := (reinput x y c).
    Lemma set_Length_rc (v : F) inp : set_Length v (ri inp) = rmap ri (set_Length v inp).
    Proof. unfold set_Length. match goal with |- context [if ?b then _ else _] => destruct b end; reflexivity. Qed.
    Lemma set_Width_rc (v : F) inp : set_Width v (ri inp) = rmap ri (set_Width v inp).
    Proof. unfold set_Width. match goal with |- context [if ?b then _ else _] => destruct b end; reflexivity. Qed.
    Lemma set_dx_rc (v : F) inp : set_dx v (ri inp) = rmap ri (set_dx v inp).
    Proof. unfold set_dx. change (i_Length (ri inp)) with (i_Length inp). change (i_Width (ri inp)) with (i_Width inp). match goal with |- context [if ?b then _ else _] => destruct b end; reflexivity. Qed.
    Lemma set_L0_meters_rc (v : F) inp : set_L0_meters v (ri inp) = rmap ri (set_L0_meters v inp).
    Proof. unfold set_L0_meters. match goal with |- context [if ?b then _ else _] => destruct b end; reflexivity. Qed.
    Lemma set_itermax_rc (v : Z) inp : set_itermax v (ri inp) = rmap ri (set_itermax v inp).
    Proof. unfold set_itermax. match goal with |- context [if ?b then _ else _] => destruct b end; reflexivity. Qed.
    Lemma set_Np_water_rc (v : Z) inp : set_Np_water v (ri inp) = rmap ri (set_Np_water v inp).
    Proof. unfold set_Np_water. match goal with |- context [if ?b then _ else _] => destruct b end; reflexivity. Qed.
    Lemma set_N0_meters_rc (v : F) inp : set_N0_meters v (ri inp) = rmap ri (set_N0_meters v inp).
    Proof. unfold set_N0_meters. match goal with |- context [if ?b then _ else _] => destruct b end; reflexivity. Qed.
    Lemma set_Np_sed_rc (v : Z) inp : set_Np_sed v (ri inp) = rmap ri (set_Np_sed v inp).
    Proof. unfold set_Np_sed. match goal with |- context [if ?b then _ else _] => destruct b end; reflexivity. Qed.
    Lemma set_f_bedload_rc (v : F) inp : set_f_bedload v (ri inp) = rmap ri (set_f_bedload v inp).
    Proof. unfold set_f_bedload. match goal with |- context [if ?b then _ else _] => destruct b end; reflexivity. Qed.
    Lemma set_active_layer_thickness_rc (v : option F) inp : set_active_layer_thickness v (ri inp) = rmap ri (set_active_layer_thickness v inp).
    Proof. unfold set_active_layer_thickness. destruct v; [|reflexivity]. match goal with |- context [if ?b then _ else _] => destruct b end; reflexivity. Qed.
    Lemma set_C0_percent_rc (v : F) inp : set_C0_percent v (ri inp) = rmap ri (set_C0_percent v inp).
    Proof. unfold set_C0_percent. match goal with |- context [if ?b then _ else _] => destruct b end; reflexivity. Qed.
    Lemma set_Csmooth_rc (v : F) inp : set_Csmooth v (ri inp) = rmap ri (set_Csmooth v inp).
    Proof. unfold set_Csmooth. match goal with |- context [if ?b then _ else _] => destruct b end; reflexivity. Qed.
    Lemma process_rc (inp : inputs F) : process_input_to_model (ri inp)
      = rmap (reinput x (Some (match y with None => x | Some t => t end)) c) (process_input_to_model inp).
    Proof.
      unfold process_input_to_model.
      change (i_Length (ri inp)) with (i_Length inp). rewrite set_Length_rc.
      destruct (set_Length (i_Length inp) inp) as [i|e]; cbn [rbind rmap]; [|reflexivity]. clear inp. rename i into inp.
      change (i_Width (ri inp)) with (i_Width inp). rewrite set_Width_rc.
      destruct (set_Width (i_Width inp) inp) as [i|e]; cbn [rbind rmap]; [|reflexivity]. clear inp. rename i into inp.
      change (i_dx (ri inp)) with (i_dx inp). rewrite set_dx_rc.
      destruct (set_dx (i_dx inp) inp) as [i|e]; cbn [rbind rmap]; [|reflexivity]. clear inp. rename i into inp.
      change (i_L0_meters (ri inp)) with (i_L0_meters inp). rewrite set_L0_meters_rc.
      destruct (set_L0_meters (i_L0_meters inp) inp) as [i|e]; cbn [rbind rmap]; [|reflexivity]. clear inp. rename i into inp.
      change (i_itermax (ri inp)) with (i_itermax inp). rewrite set_itermax_rc.
      destruct (set_itermax (i_itermax inp) inp) as [i|e]; cbn [rbind rmap]; [|reflexivity]. clear inp. rename i into inp.
      change (i_Np_water (ri inp)) with (i_Np_water inp). rewrite set_Np_water_rc.
      destruct (set_Np_water (i_Np_water inp) inp) as [i|e]; cbn [rbind rmap]; [|reflexivity]. clear inp. rename i into inp.
      change (i_N0_meters (ri inp)) with (i_N0_meters inp). rewrite set_N0_meters_rc.
      destruct (set_N0_meters (i_N0_meters inp) inp) as [i|e]; cbn [rbind rmap]; [|reflexivity]. clear inp. rename i into inp.
      change (i_Np_sed (ri inp)) with (i_Np_sed inp). rewrite set_Np_sed_rc.
      destruct (set_Np_sed (i_Np_sed inp) inp) as [i|e]; cbn [rbind rmap]; [|reflexivity]. clear inp. rename i into inp.
      change (i_f_bedload (ri inp)) with (i_f_bedload inp). rewrite set_f_bedload_rc.
      destruct (set_f_bedload (i_f_bedload inp) inp) as [i|e]; cbn [rbind rmap]; [|reflexivity]. clear inp. rename i into inp.
      change (i_active_layer_thickness (ri inp)) with (i_active_layer_thickness inp). rewrite set_active_layer_thickness_rc.
      destruct (set_active_layer_thickness (i_active_layer_thickness inp) inp) as [i|e]; cbn [rbind rmap]; [|reflexivity]. clear inp. rename i into inp.
      change (i_C0_percent (ri inp)) with (i_C0_percent inp). rewrite set_C0_percent_rc.
      destruct (set_C0_percent (i_C0_percent inp) inp) as [i|e]; cbn [rbind rmap]; [|reflexivity]. clear inp. rename i into inp.
      change (i_Csmooth (ri inp)) with (i_Csmooth inp). rewrite set_Csmooth_rc.
      destruct (set_Csmooth (i_Csmooth inp) inp) as [i|e]; cbn [rbind rmap]; [|reflexivity]. clear inp. rename i into inp.
      reflexivity.
    Qed.
  End Setters.

  Lemma boundary_rc x y c u v w (inp : inputs F) P :
    create_boundary_conditions (reinput x y c inp) (respec u v w P) = rmap (respec u v w) (create_boundary_conditions inp P).
  Proof.
    unfold create_boundary_conditions.
    change (i_dx (reinput x y c inp)) with (i_dx inp). change (i_u0 (reinput x y c inp)) with (i_u0 inp).
    change (i_h0 (reinput x y c inp)) with (i_h0 inp). change (i_L0_meters (reinput x y c inp)) with (i_L0_meters inp).
    change (i_N0_meters (reinput x y c inp)) with (i_N0_meters inp).
    change (i_C0_percent (reinput x y c inp)) with (i_C0_percent inp).
    change (i_S0 (reinput x y c inp)) with (i_S0 inp). change (i_stepmax (reinput x y c inp)) with (i_stepmax inp).
    change (i_alpha (reinput x y c inp)) with (i_alpha inp). change (i_sed_lag (reinput x y c inp)) with (i_sed_lag inp).
    change (p_L (respec u v w P)) with (p_L P). change (p_W (respec u v w P)) with (p_W P).
    change (p_Np_water (respec u v w P)) with (p_Np_water P). change (p_Np_sed (respec u v w P)) with (p_Np_sed P).
    change (p_itermax (respec u v w P)) with (p_itermax P). cbv zeta.
    repeat (match goal with |- rbind ?r _ = _ => destruct r end; cbn [rbind]; [|reflexivity]). reflexivity.
  Qed.
  Lemma domain_rc {T} x y c u v w (inp : inputs F) P (s : T) :
    create_domain (reinput x y c inp) (respec u v w P) s
    = rmap (fun r => (respec u v w (fst r), snd r)) (create_domain inp P s).
  Proof.
    unfold create_domain.
    change (size_indices (respec u v w P)) with (size_indices P).
    destruct (size_indices P <? 0); reflexivity.
  Qed.
  Lemma other_rc x y c (inp : inputs F) : create_other_variables (reinput x (Some y) c inp) = respec x y c (create_other_variables inp).
  Proof. reflexivity. Qed.
  Lemma routers_rc u v w P : init_sediment_routers (respec u v w P) = respec u v w (init_sediment_routers P).
  Proof. reflexivity. Qed.
  Lemma subs_rc x y c u v w (inp : inputs F) P :
    init_subsidence (reinput x y c inp) (respec u v w P) = respec u v w (init_subsidence inp P).
  Proof.
    unfold init_subsidence. change (p_toggle_subsidence (respec u v w P)) with (p_toggle_subsidence P).
    destruct (p_toggle_subsidence P); reflexivity.
  Qed.

  Lemma seed_rc x y c (inp : inputs F) (np : N) : determine_random_seed (G:=G) (reinput x y c inp) np
    = let '(i, s, n) := determine_random_seed (G:=G) inp np in (reinput x y c i, s, n).
  Proof.
    unfold determine_random_seed. change (i_seed (reinput x y c inp)) with (i_seed inp).
    destruct (i_seed inp); [reflexivity|]. destruct (randint np). reflexivity.
  Qed.

  Lemma construct_quiet (inp inp' : inputs F) (nb : S) (np : N) : same_inputs inp inp' ->
    same_outcome (fun r r' => same_model (fst r) (fst r') /\ snd r = snd r')
      (construct (G:=G) inp nb np) (construct (G:=G) inp' nb np).
  Proof.
    intros H. change (inp' = reinput (i_save_dt inp') (i_checkpoint_dt inp') (i_save_checkpoint inp') inp) in H.
    rewrite H. generalize (i_save_dt inp') (i_checkpoint_dt inp') (i_save_checkpoint inp'). clear inp' H. intros x y c.
    unfold construct. rewrite process_rc. destruct (process_input_to_model inp) as [i|e]; cbn [rbind rmap]; [|reflexivity].
    rewrite seed_rc. destruct (determine_random_seed i np) as [[j s] np1]. rewrite other_rc, boundary_rc.
    destruct (create_boundary_conditions j (create_other_variables j)) as [P|e]; cbn [rbind rmap]; [|reflexivity].
    rewrite domain_rc. destruct (create_domain j P s) as [[P1 st]|e]; cbn [rbind rmap fst snd]; [|reflexivity].
    unfold same_outcome. rewrite routers_rc, subs_rc. split; [|reflexivity]. constructor; reflexivity.
  Qed.

  Lemma new_model_quiet (inp inp' : inputs F) (nb : S) (np : N) : same_inputs inp inp' ->
    same_outcome (fun r r' => same_model (fst (fst r)) (fst (fst r')) /\ snd r = snd r')
      (new_model (G:=G) inp nb np) (new_model (G:=G) inp' nb np).
  Proof.
    intros H. unfold new_model. pose proof (construct_quiet inp inp' nb np H) as K.
    destruct (construct (G:=G) inp nb np) as [[m n]|e], (construct (G:=G) inp' nb np) as [[m' n']|e']; cbn in K; try contradiction;
      cbn [rbind]; [|exact K]. destruct K as [K En].
    destruct (write_output (m_P m) (m_st m)) as [a o] eqn:E1. destruct (write_output (m_P m') (m_st m')) as [a' o'] eqn:E2.
    apply write_output_same in E1, E2. cbn. split; [|exact En]. destruct K as [K1 K2 K3 K4].
    constructor; cbn; auto. apply same_sym in E1. apply (same_trans _ _ _ E1). apply (same_trans _ _ _ K3). exact E2.
  Qed.

  Lemma run_quiet (inp inp' : inputs F) (nb : S) (np : N) n : same_inputs inp inp' ->
    same_outcome same_state (run_model (G:=G) inp nb np n) (run_model (G:=G) inp' nb np n).
  Proof.
    intros H. unfold run_model. pose proof (new_model_quiet inp inp' nb np H) as K.
    destruct (new_model (G:=G) inp nb np) as [[[m o] n1]|e], (new_model (G:=G) inp' nb np) as [[[m' o'] n1']|e']; cbn in K;
      try contradiction; cbn [rbind]; [|exact K]. destruct K as [K _].
    pose proof (updates_quiet (m_P m) (m_P m') n (m_st m) (m_st m') (sm_constants _ _ K) (sm_state _ _ K)) as U.
    destruct (updates (m_P m) n (m_st m)) as [[b p]|e], (updates (m_P m') n (m_st m')) as [[b' p']|e'];
      cbn in U; try contradiction; exact U.
  Qed.

  (** ** Configurations *)
  Lemma configure_quiet custom (f f' : file F) kw kw' inp inp' :
    is_dict custom -> readable f -> readable f' -> is_dict kw -> is_dict kw' ->
    differ_in_output_only f f' kw kw' ->
    configure custom f kw = Ok inp -> configure custom f' kw' = Ok inp' -> same_inputs inp inp'.
  Proof.
    intros DC R1 R2 K1 K2 H E1 E2. unfold configure in E1, E2.
    destruct (import_cases default_table custom f kw default_table_dict DC R1 K1) as [[_ [c1 [u1 [I1 [_ [V1 _]]]]]]|[_ I1]];
      rewrite I1 in E1; [|discriminate].
    destruct (import_cases default_table custom f' kw' default_table_dict DC R2 K2) as [[_ [c2 [u2 [I2 [_ [V2 _]]]]]]|[_ I2]];
      rewrite I2 in E2; [|discriminate]. cbn [rbind] in E1, E2.
    assert (Hk : forall k, ~ In k output_keys -> dget k c1 = dget k c2).
    { intros k Hn. rewrite V1, V2, (H k Hn). reflexivity. }
    assert (Hr : forall T (conv : value F -> option T) k, ~ In k output_keys -> read_as conv k c1 = read_as conv k c2).
    { intros T conv k Hn. unfold read_as. rewrite (Hk k Hn). reflexivity. }
    assert (Nin : forall k, existsb (String.eqb k) output_keys = false -> ~ In k output_keys).
    { intros k He Hi. assert (existsb (String.eqb k) output_keys = true); [|congruence].
      apply existsb_exists. exists k. split; [exact Hi|apply String.eqb_refl]. }
    unfold inputs_of in E1, E2.
    repeat match type of E1 with
    | rbind (read_as ?conv ?k c1) _ = Ok _ =>
        first [ rewrite (Hr _ conv k (Nin k eq_refl)) in E1;
                destruct (read_as conv k c2); [cbn [rbind] in E1, E2|discriminate E1]
              | destruct (read_as conv k c1); [cbn [rbind] in E1|discriminate E1];
                destruct (read_as conv k c2); [cbn [rbind] in E2|discriminate E2] ]
    end.
    injection E1 as <-. injection E2 as <-. reflexivity.
  Qed.

  (** ** What is written *)
  Lemma write_shows P (st st' : state F S) o : write_output P st = (st', o) -> forall x, In x o -> shows x st'.
  Proof.
    unfold write_output, output_data, output_checkpoint. intros E x Hx.
    destruct (ext_geb (s_save_time_since_data st) (p_save_dt P)); cbn -[ext_geb] in E;
      destruct (_ && _); injection E as <- <-; cbn in Hx;
      repeat (destruct Hx as [<-|Hx]); try contradiction; cbn.
    all: first [split; reflexivity | eexists; split; reflexivity].
  Qed.
  Lemma updates_show P n : forall (st st' : state F S) o, updates P n st = Ok (st', o) -> forall x, In x o ->
    exists u y oy, (1 <= u <= n)%nat /\ updates P u st = Ok (y, oy) /\ shows x y.
  Proof.
    induction n as [|n IH]; intros st st' o E x Hx.
    - injection E as <- <-. destruct Hx.
    - cbn [updates] in E. apply rbind_Ok in E as ([a oa] & E1 & E). apply rbind_Ok in E as ([b ob] & E2 & E).
      injection E as <- <-. apply in_app_or in Hx as [Hx|Hx].
      + exists 1%nat, a, (oa ++ [])%list. split; [lia|]. split; [cbn [updates]; rewrite E1; reflexivity|].
        apply update_inv in E1 as (s1 & s2 & _ & _ & E1). exact (write_shows _ _ _ _ E1 x Hx).
      + destruct (IH _ _ _ E2 x Hx) as (u & y & oy & Hu & Ey & Hs). exists (Datatypes.S u), y, (oa ++ oy)%list.
        split; [lia|]. split; [|exact Hs]. cbn [updates]. rewrite E1. cbn [rbind]. rewrite Ey. reflexivity.
  Qed.
  Lemma shows_same (x : output F S) y z : shows x y -> same_but_counters y z -> shows x z.
  Proof.
    intros H E. pose proof (same_fields _ _ E) as Hf. destruct x as [k t s|c]; cbn in *.
    - destruct H as [H1 H2]. split; [|exact (same_trans _ _ _ H2 E)].
      rewrite H1. symmetry. apply Hf.
    - destruct H as (w & H1 & H2). exists w. split; [exact H1|exact (same_trans _ _ _ H2 E)].
  Qed.
  Lemma run_show (inp : inputs F) (nb : S) (np : N) n st o x : run_model (G:=G) inp nb np n = Ok (st, o) -> In x o ->
    exists u y oy, (u <= n)%nat /\ run_model (G:=G) inp nb np u = Ok (y, oy) /\ shows x y.
  Proof.
    unfold run_model. intros E Hx. apply rbind_Ok in E as ([[m o1] np1] & E1 & E). apply rbind_Ok in E as ([b ob] & E2 & E).
    injection E as <- <-. rewrite E1. cbn [rbind]. apply in_app_or in Hx as [Hx|Hx].
    - exists 0%nat, (m_st m), (o1 ++ [])%list. split; [lia|]. split; [reflexivity|].
      unfold new_model in E1. apply rbind_Ok in E1 as ([m1 n1] & _ & E1). 
      destruct (write_output (m_P m1) (m_st m1)) as [s1 w] eqn:Ew. injection E1 as <- <- <-. cbn. exact (write_shows _ _ _ _ Ew x Hx).
    - destruct (updates_show _ _ _ _ _ E2 x Hx) as (u & y & oy & Hu & Ey & Hs). exists u, y, (o1 ++ oy)%list.
      split; [lia|]. split; [|exact Hs]. rewrite Ey. reflexivity.
  Qed.
End Same.
