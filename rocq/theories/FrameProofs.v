(** What each stage of an update leaves alone, for any arithmetic. *)
From Coq Require Import ZArith List Bool.
From Verif Require Import Base Shared Params State Water WaterSpec Sed SedSpec RunProofs SedCor
  Diffusion Iter IterSpec.
Import ListNotations.
Local Open Scope Z_scope.

Section Frames.
  Context {F : Type} {A : Arith F} {S : Type} {G : Rng F S} (P : params F).

  Lemma water_frame_refl' (st : state F S) : water_frame st st.
  Proof. repeat split. Qed.
  Lemma water_frame_trans' (a b c : state F S) : water_frame a b -> water_frame b c -> water_frame a c.
  Proof. unfold water_frame. intuition congruence. Qed.

  Lemma water_iteration_frame it (st st' : state F S) : water_iteration P it st = Ok st' -> water_frame st st'.
  Proof.
    intros E. unfold water_iteration in E.
    apply rbind_Ok in E as ([[[ps [[qx qy] qw]] wd] s] & _ & E).
    apply rbind_Ok in E as (st1 & E1 & E). inversion E; subst; clear E.
    unfold compute_free_surface in E1. apply rbind_Ok in E1 as ([v t] & _ & E1).
    inversion E1; subst; clear E1. unfold water_frame. repeat split.
  Qed.
  Lemma route_water_frame (st st' : state F S) : route_water P st = Ok st' -> water_frame st st'.
  Proof.
    unfold route_water. generalize 0. revert st. induction (Z.to_nat (p_itermax P)) as [|n IH]; intros st it E.
    - injection E as <-. apply water_frame_refl'.
    - cbn [water_iterations] in E. apply rbind_Ok in E as (st1 & E1 & E).
      eapply water_frame_trans'; [eapply water_iteration_frame; eauto|eauto].
  Qed.

  Lemma route_all_frame g (st st' : state F S) Vs :
    route_all_parcels_res P g st = Ok (st', Vs) -> sed_frame st st'.
  Proof.
    unfold route_all_parcels_res. intros E.
    apply rbind_Ok in E as ([starts s] & _ & E). apply rbind_Ok in E as ([[b Vs'] s'] & _ & E).
    injection E as <- <-. apply put_bed_frame.
  Qed.
  Lemma route_sediment_frame (st st' : state F S) : route_sediment P st = Ok st' -> sed_frame st st'.
  Proof.
    unfold route_sediment, route_all_parcels. intros H.
    apply rbind_Ok in H as (st1 & H1 & H). apply rbind_Ok in H1 as ([x Vs1] & H1 & H1').
    injection H1' as ->. apply rbind_Ok in H as ([y Vs2] & H2 & H2'). injection H2' as ->.
    apply route_all_frame in H1. apply route_all_frame in H2.
    eapply sed_frame_trans; [|exact H2]. eapply sed_frame_trans; [|apply diffuse_frame].
    eapply sed_frame_trans; [|exact H1]. unfold sed_frame. repeat split.
  Qed.

  Lemma update_inv (st st' : state F S) o : update P st = Ok (st', o) ->
    exists st1 st2, route_water P (set_eta0 (s_eta st) st) = Ok st1 /\ route_sediment P st1 = Ok st2 /\
      write_output P (advance_clock P (finalize_timestep P (apply_subsidence P st2))) = (st', o).
  Proof.
    unfold update, solve_water_and_sediment_timestep. intros E.
    apply rbind_Ok in E as (st2 & E2 & E). apply rbind_Ok in E2 as (st1 & E1 & E2).
    exists st1, st2. split; auto. split; auto. injection E as E. exact E.
  Qed.

  Lemma write_output_same (st st' : state F S) o : write_output P st = (st', o) -> same_but_counters st st'.
  Proof.
    unfold write_output, output_data, output_checkpoint. intros E.
    destruct (ext_geb (s_save_time_since_data st) (p_save_dt P)); cbn -[ext_geb] in E;
      destruct (_ && _); injection E as <- <-; reflexivity.
  Qed.

  (** Equality of every field that is not an output counter. *)
  Lemma same_fields (a b : state F S) : same_but_counters a b ->
    s_eta b = s_eta a /\ s_eta0 b = s_eta0 a /\ s_stage b = s_stage a /\ s_depth b = s_depth a /\
    s_qx b = s_qx a /\ s_qy b = s_qy a /\ s_qw b = s_qw a /\ s_ux b = s_ux a /\ s_uy b = s_uy a /\
    s_uw b = s_uw a /\ s_sand_frac b = s_sand_frac a /\ s_active_layer b = s_active_layer a /\
    s_Vp_dep_sand b = s_Vp_dep_sand a /\ s_Vp_dep_mud b = s_Vp_dep_mud a /\
    s_mod_water_weight b = s_mod_water_weight a /\ s_mod_sed_weight b = s_mod_sed_weight a /\
    s_mod_erosion b = s_mod_erosion a /\ s_cell_type b = s_cell_type a /\ s_H_SL b = s_H_SL a /\
    s_time b = s_time a /\ s_time_iter b = s_time_iter a /\ s_width b = s_width a /\ s_rng b = s_rng a.
  Proof.
    unfold same_but_counters. intros E.
    assert (H : forall T (f : state F S -> T), f (set_save_iter 0 (set_save_time_since_data Inf (set_save_time_since_checkpoint Inf b)))
       = f (set_save_iter 0 (set_save_time_since_data Inf (set_save_time_since_checkpoint Inf a)))) by (intros; rewrite E; auto).
    split; [exact (H _ s_eta)|]. split; [exact (H _ s_eta0)|]. split; [exact (H _ s_stage)|].
    split; [exact (H _ s_depth)|]. split; [exact (H _ s_qx)|]. split; [exact (H _ s_qy)|].
    split; [exact (H _ s_qw)|]. split; [exact (H _ s_ux)|]. split; [exact (H _ s_uy)|].
    split; [exact (H _ s_uw)|]. split; [exact (H _ s_sand_frac)|]. split; [exact (H _ s_active_layer)|].
    split; [exact (H _ s_Vp_dep_sand)|]. split; [exact (H _ s_Vp_dep_mud)|].
    split; [exact (H _ s_mod_water_weight)|]. split; [exact (H _ s_mod_sed_weight)|].
    split; [exact (H _ s_mod_erosion)|]. split; [exact (H _ s_cell_type)|]. split; [exact (H _ s_H_SL)|].
    split; [exact (H _ s_time)|]. split; [exact (H _ s_time_iter)|]. split; [exact (H _ s_width)|exact (H _ s_rng)].
  Qed.

  Lemma subsidence_fields (st : state F S) : let st' := apply_subsidence P st in
    sed_frame st st' /\ s_depth st' = s_depth st /\ s_uw st' = s_uw st /\ s_ux st' = s_ux st /\
    s_uy st' = s_uy st /\ s_Vp_dep_sand st' = s_Vp_dep_sand st /\ s_Vp_dep_mud st' = s_Vp_dep_mud st /\
    s_rng st' = s_rng st.
  Proof. unfold apply_subsidence. destruct (_ && _); unfold sed_frame; repeat split. Qed.

  (** The fields of the next state that do not depend on the details. *)
  Lemma update_frame (st st' : state F S) o : update P st = Ok (st', o) ->
    s_eta0 st' = s_eta st /\ s_cell_type st' = s_cell_type st /\
    s_mod_water_weight st' = s_mod_water_weight st /\ s_mod_sed_weight st' = s_mod_sed_weight st /\
    s_mod_erosion st' = s_mod_erosion st /\
    s_H_SL st' = fadd (s_H_SL st) (fmul (p_SLR P) (p_dt P)) /\
    s_time st' = fadd (s_time st) (p_dt P) /\ s_time_iter st' = s_time_iter st + 1.
  Proof.
    intros E. apply update_inv in E as (st1 & st2 & E1 & E2 & E3).
    apply route_water_frame in E1. apply route_sediment_frame in E2.
    apply write_output_same in E3. apply same_fields in E3.
    pose proof (subsidence_fields st2) as H4. cbn zeta in H4.
    unfold water_frame in E1. unfold sed_frame in E2, H4. cbn in E1.
    destruct E3 as (_ & H0 & _ & _ & _ & _ & _ & _ & _ & _ & _ & _ & _ & _ & H5 & H6 & H7 & H8 & H9 & H10 & H11 & _ & _).
    rewrite H0, H5, H6, H7, H8, H9, H10, H11. cbn -[apply_subsidence].
    destruct H4 as (H4 & _). intuition congruence.
  Qed.

  (** What is written is the state at the end of the step. *)
  Lemma written (st st' : state F S) o : update P st = Ok (st', o) ->
    (forall k t shown, In (Record_ k t shown) o ->
       t = s_time st' /\ same_but_counters shown st' /\ s_save_iter st' = k + 1) /\
    (forall c, In (Checkpoint c) o -> c = save_the_checkpoint st').
  Proof.
    intros E. apply update_inv in E as (st1 & st2 & _ & _ & E).
    generalize dependent (advance_clock P (finalize_timestep P (apply_subsidence P st2))). intros st3 E.
    unfold write_output, output_data, output_checkpoint in E.
    destruct (ext_geb (s_save_time_since_data st3) (p_save_dt P)); cbn -[ext_geb] in E;
      destruct (_ && _) in E; injection E as <- <-; cbn;
      (split; [intros k t shown H|intros c H]); repeat (destruct H as [H|H]; [try discriminate|]); try contradiction;
      injection H; intros; subst; repeat split.
  Qed.

  Lemma updates_run n : forall (st st' : state F S) o, updates P n st = Ok (st', o) ->
    exists tr, run P st tr st' /\ length tr = n /\ o = concat (map snd tr).
  Proof.
    induction n as [|n IH]; intros st st' o E.
    - injection E as <- <-. exists []. split; [constructor|auto].
    - cbn [updates] in E. apply rbind_Ok in E as ([st1 o1] & E1 & E).
      apply rbind_Ok in E as ([st2 o2] & E2 & E). injection E as <- <-.
      apply IH in E2 as (tr & H1 & H2 & ->). exists ((st1, o1) :: tr).
      split; [econstructor; eauto|]. cbn. auto.
  Qed.
End Frames.
