(** Proofs about the reading of a configuration. *)
From Coq Require Import ZArith List Bool String Lia.
From Verif Require Import Base Dict Inputs Config ConfigSpec RunProofs.
Import ListNotations.
Local Open Scope string_scope.

Section ConfigProofs.
  Context {F : Type} {A : Arith F}.
  Implicit Types (user vars : dict (value F)) (table custom : dict (declaration F)).

  Lemma has_type_iff : forall (v : value F) l,
    existsb (has_type v) l = true <-> right_type v l.
  Proof.
    intros v l. rewrite existsb_exists. split.
    - intros [t [I E]]. destruct v, t; try discriminate E; constructor; exact I.
    - intros H. inversion H; subst.
      + exists TInt; auto. + exists TFloat; auto. + exists TStr; auto. + exists TBool; auto.
  Qed.

  (** The value of a parameter. *)
  Definition chosen user k (d : declaration F) : value F :=
    match dget k user with Some v => v | None => snd d end.
  (** A parameter whose given value, if any, is well typed. *)
  Definition fits user k (d : declaration F) : Prop :=
    forall v, dget k user = Some v -> right_type v (fst d).

  Lemma resolve_cases : forall user k d,
    (fits user k d /\ resolve user k d = Ok (chosen user k d)) \/
    (~ fits user k d /\ resolve user k d = Err TypeError).
  Proof.
    intros user k d. unfold fits, resolve, chosen. destruct (dget k user) as [v|] eqn:E.
    - destruct (existsb (has_type v) (fst d)) eqn:H.
      + left. split; [|reflexivity]. intros w [= <-]. apply has_type_iff. exact H.
      + right. split; [|reflexivity]. intros C. specialize (C v eq_refl).
        apply has_type_iff in C. congruence.
    - left. split; [|reflexivity]. intros w; discriminate.
  Qed.

  Lemma populate_cases : forall table user,
    (exists vars, populate table user = Ok vars /\ dkeys vars = dkeys table /\
       (forall k d, In (k, d) table -> fits user k d) /\
       forall k, dget k vars = option_map (chosen user k) (dget k table)) \/
    (populate table user = Err TypeError /\ exists k d, In (k, d) table /\ ~ fits user k d).
  Proof.
    induction table as [|[k d] t IH]; intros user; cbn.
    - left. exists []. repeat split. intros ? ? [].
    - destruct (resolve_cases user k d) as [[Fi E]|[Fi E]]; rewrite E; cbn [rbind].
      + destruct (IH user) as [[vars [P [K [T V]]]]|[P [k' [d' [I N]]]]]; rewrite P; cbn [rbind].
        * left. exists ((k, chosen user k d) :: vars). repeat split.
          -- cbn. unfold dkeys in *. congruence.
          -- intros k' d' [[= <- <-]|I]; [exact Fi|apply T; exact I].
          -- intros k'. cbn. destruct (String.eqb_spec k' k) as [->|N]; [reflexivity|apply V].
        * right. split; [reflexivity|]. exists k', d'. tauto.
      + right. split; [reflexivity|]. exists k, d. tauto.
  Qed.

  Lemma add_custom_cases : forall custom user vars, NoDup (dkeys custom) ->
    (exists vars', add_custom custom user vars = Ok vars' /\
       (dkeys vars' = dkeys vars ++ filter (fun k => negb (dmem k vars)) (dkeys custom))%list /\
       (forall k d, In (k, d) custom -> dget k vars = None -> fits user k d) /\
       forall k, dget k vars' = match dget k vars with
                                | Some v => Some v
                                | None => option_map (chosen user k) (dget k custom) end) \/
    (add_custom custom user vars = Err TypeError /\
       exists k d, In (k, d) custom /\ dget k vars = None /\ ~ fits user k d).
  Proof.
    induction custom as [|[k d] t IH]; intros user vars ND; cbn.
    - left. exists vars. rewrite app_nil_r. repeat split; [intros ? ? []|].
      intros k. destruct (dget k vars); reflexivity.
    - inversion ND as [|? ? NI ND']; subst. destruct (dmem k vars) eqn:M; cbn.
      + destruct (IH user vars ND') as [[vars' [P [K [T V]]]]|[P [k' [d' [I [N1 N2]]]]]]; rewrite P.
        * left. exists vars'. repeat split; [exact K| |].
          -- intros k' d' [[= <- <-]|I] N; [|apply T; assumption].
             apply dmem_false in N. congruence.
          -- intros k'. rewrite V. destruct (String.eqb_spec k' k) as [->|N]; [|reflexivity].
             unfold dmem in M. destruct (dget k vars); [reflexivity|discriminate].
        * right. split; [reflexivity|]. exists k', d'. tauto.
      + apply dmem_false in M.
        destruct (resolve_cases user k d) as [[Fi E]|[Fi E]]; rewrite E; cbn [rbind].
        * destruct (IH user (dset k (chosen user k d) vars) ND')
            as [[vars' [P [K [T V]]]]|[P [k' [d' [I [N1 N2]]]]]]; rewrite P.
          -- left. exists vars'. split; [reflexivity|]. split; [|split].
             ++ rewrite K, dset_keys. unfold dmem at 1. rewrite M. rewrite <- app_assoc. cbn.
                f_equal. f_equal. apply filter_ext_in. intros x Hx. unfold dmem.
                rewrite dget_dset. destruct (String.eqb_spec x k) as [->|N]; [|reflexivity].
                unfold dkeys in NI. contradiction.
             ++ intros k' d' [[= <- <-]|I] N; [exact Fi|]. apply T; [exact I|].
                rewrite dget_dset. destruct (String.eqb_spec k' k) as [->|X]; [|exact N].
                exfalso. apply NI. apply (in_map fst) in I. exact I.
             ++ intros k'. rewrite V, dget_dset. destruct (String.eqb_spec k' k) as [->|N].
                ** rewrite M. reflexivity.
                ** reflexivity.
          -- right. split; [reflexivity|]. exists k', d'. rewrite dget_dset in N1.
             destruct (String.eqb_spec k' k) as [->|X]; [discriminate|]. tauto.
        * right. split; [reflexivity|]. exists k, d. tauto.
  Qed.

  (** The merged user dictionary. *)
  Lemma user_values_readable : forall (f : file F) kw, readable f -> is_dict kw ->
    exists user, user_values f kw = Ok user /\ is_dict user /\
      forall k, dget k user = given f kw k.
  Proof.
    intros f kw R K. destruct f as [| |d]; cbn in *; [|contradiction|].
    - exists (dupdate [] kw). split; [reflexivity|]. split.
      + apply dupdate_NoDup. constructor.
      + intros k. rewrite dget_dupdate by exact K. unfold given. cbn. destruct (dget k kw); reflexivity.
    - exists (dupdate d kw). split; [reflexivity|]. split.
      + apply dupdate_NoDup. exact R.
      + intros k. apply dget_dupdate. exact K.
  Qed.

  Lemma In_dget_dict : forall {V} (d : dict V) k v, is_dict d -> (In (k, v) d <-> dget k d = Some v).
  Proof. intros V d k v H. split; [apply In_dget; exact H|apply dget_In]. Qed.

  (** Reading either succeeds with the chosen values or raises TypeError. *)
  Lemma import_cases : forall table custom (f : file F) kw,
    is_dict table -> is_dict custom -> readable f -> is_dict kw ->
    (well_typed table custom f kw /\
     exists c unused, import_files table custom f kw = Ok (c, unused) /\
       (dkeys c = dkeys table ++ filter (fun k => negb (dmem k table)) (dkeys custom))%list /\
       (forall k, dget k c = option_map
          (fun d => match given f kw k with Some v => v | None => snd d end) (declared table custom k)) /\
       (forall k, In k unused <->
          given f kw k <> None /\ declared table custom k = None /\ ~ In k run_controls)) \/
    (~ well_typed table custom f kw /\ import_files table custom f kw = Err TypeError).
  Proof.
    intros table custom f kw DT DC RF DK.
    destruct (user_values_readable f kw RF DK) as [user [EU [DU GU]]].
    unfold import_files. rewrite EU. cbn [rbind].
    destruct (populate_cases table user) as [[vars [P [K [T V]]]]|[P [k [d [I N]]]]]; rewrite P; cbn [rbind].
    2:{ right. split; [|reflexivity]. intros W. apply N. intros v E. rewrite GU in E.
        apply (W k d v); [|exact E]. unfold declared. rewrite (In_dget _ _ _ DT I). reflexivity. }
    assert (MV : forall k, dmem k vars = dmem k table).
    { intros k. unfold dmem. rewrite V. destruct (dget k table); reflexivity. }
    destruct (add_custom_cases custom user vars DC)
      as [[vars' [P2 [K2 [T2 V2]]]]|[P2 [k [d [I [N1 N2]]]]]]; rewrite P2; cbn [rbind].
    2:{ right. split; [|reflexivity]. intros W. apply N2. intros v E. rewrite GU in E.
        apply (W k d v); [|exact E]. unfold declared. rewrite V in N1.
        destruct (dget k table); [discriminate|]. apply In_dget; assumption. }
    assert (DV : forall k, dget k vars' = option_map (chosen user k) (declared table custom k)).
    { intros k. rewrite V2, V. unfold declared. destruct (dget k table); reflexivity. }
    left. split.
    - intros k d v D G. rewrite <- GU in G. unfold declared in D. destruct (dget k table) as [d'|] eqn:E.
      + injection D as <-. apply (T k d'); [apply dget_In; exact E|exact G].
      + apply (T2 k d); [apply dget_In; exact D| |exact G]. rewrite V, E. reflexivity.
    - eexists _, _. split; [reflexivity|]. split; [|split].
      + rewrite K2, K. f_equal. apply filter_ext. intros k. rewrite MV. reflexivity.
      + intros k. rewrite DV. destruct (declared table custom k); [|reflexivity]. cbn.
        unfold chosen. rewrite GU. reflexivity.
      + intros k. rewrite filter_In. unfold dmem. rewrite DV.
        assert (E : In k (dkeys (filter (fun kv : string * value F => negb (existsb (String.eqb (fst kv)) run_controls)) user))
                    <-> given f kw k <> None /\ ~ In k run_controls).
        { unfold dkeys. rewrite in_map_iff. split.
          - intros [[x v] [<- H]]. apply filter_In in H. destruct H as [H1 H2]. cbn in *. split.
            + rewrite <- GU. rewrite (In_dget _ _ _ DU H1). discriminate.
            + intros C. apply negb_true_iff in H2.
              assert (X : existsb (String.eqb x) run_controls = true).
              { apply existsb_exists. exists x. split; [exact C|apply String.eqb_refl]. }
              cbn in X, H2. congruence.
          - intros [H1 H2]. destruct (given f kw k) as [v|] eqn:E; [|congruence].
            exists (k, v). split; [reflexivity|]. apply filter_In. split.
            + apply dget_In. rewrite GU. exact E.
            + apply negb_true_iff. destruct (existsb (String.eqb (fst (k, v))) run_controls) eqn:X; [|reflexivity].
              exfalso. apply H2. apply existsb_exists in X. destruct X as [y [Y1 Y2]].
              apply String.eqb_eq in Y2. cbn in Y2. congruence. }
        rewrite E. destruct (declared table custom k); cbn; intuition congruence.
  Qed.

  (** ** The numeric attributes *)

  Lemma read_as_Ok : forall {T} (conv : value F -> option T) k c v t,
    dget k c = Some v -> conv v = Some t -> read_as conv k c = Ok t.
  Proof. intros T conv k c v t E H. unfold read_as. rewrite E, H. reflexivity. Qed.

  (** A configuration whose values are given well-typed ones or defaults. *)
  Definition sound_config (c : dict (value F)) : Prop :=
    forall k d, dget k default_table = Some d ->
      exists v, dget k c = Some v /\ (right_type v (fst d) \/ v = snd d).

  Local Ltac rt H := inversion H; subst; clear H;
    repeat match goal with
           | I : In _ _ |- _ => cbn in I; repeat (destruct I as [I|I]; try discriminate I); try contradiction I
           end.

  Local Ltac by_cases :=
    intros k c l v E [H|H];
    [ rt H | subst v ]; (eexists; split; [eapply read_as_Ok; [exact E|reflexivity]|]);
    first [left; reflexivity | right; eexists; split; reflexivity].

  Lemma read_num_f : forall k c x v, dget k c = Some v -> right_type v [TFloat; TInt] \/ v = VFloat x ->
    exists t, read_as as_num k c = Ok t /\ same_value v (VFloat t).
  Proof. by_cases. Qed.
  Lemma read_num_z : forall k c x v, dget k c = Some v -> right_type v [TFloat; TInt] \/ v = VInt x ->
    exists t, read_as as_num k c = Ok t /\ same_value v (VFloat t).
  Proof. by_cases. Qed.
  Lemma read_num_i : forall k c x v, dget k c = Some v -> right_type v [TInt] \/ v = VInt x ->
    exists t, read_as as_num k c = Ok t /\ same_value v (VFloat t).
  Proof. by_cases. Qed.
  Lemma read_int : forall k c x v, dget k c = Some v -> right_type v [TInt] \/ v = VInt x ->
    exists t, read_as as_int k c = Ok t /\ same_value v (VInt t).
  Proof. by_cases. Qed.
  Lemma read_bool : forall k c x v, dget k c = Some v -> right_type v [TBool] \/ v = VBool x ->
    exists t, read_as as_bool k c = Ok t /\ same_value v (VBool t).
  Proof. by_cases. Qed.
  Lemma read_opt_num : forall k c (x : unit) v,
    dget k c = Some v -> right_type v [TFloat; TInt; TNone] \/ v = VNone ->
    exists t, read_as as_opt_num k c = Ok t /\ same_value v (opt_float t).
  Proof. by_cases. Qed.
  Lemma read_opt_num_i : forall k c (x : unit) v,
    dget k c = Some v -> right_type v [TInt; TNone] \/ v = VNone ->
    exists t, read_as as_opt_num k c = Ok t /\ same_value v (opt_float t).
  Proof. by_cases. Qed.
  Lemma read_opt_int : forall k c (x : unit) v,
    dget k c = Some v -> right_type v [TInt; TNone] \/ v = VNone ->
    exists t, read_as as_opt_int k c = Ok t /\ same_value v (opt_int t).
  Proof. by_cases. Qed.

  (** The value of a parameter and what its attribute holds. *)
  Definition holds_value (c : dict (value F)) (kw : string * value F) : Prop :=
    exists v, dget (fst kw) c = Some v /\ same_value v (snd kw).

  Lemma inputs_of_Ok : forall c, sound_config c ->
    exists inp, inputs_of c = Ok inp /\ Forall (holds_value c) (attributes inp).
  Proof.
    intros c H. unfold inputs_of.
    destruct (H "Length" _ eq_refl) as [v_Length [G_Length Q_Length]].
    destruct (read_num_f _ _ _ _ G_Length Q_Length) as [t_Length [E_Length S_Length]]. rewrite E_Length. cbn [rbind].
    destruct (H "Width" _ eq_refl) as [v_Width [G_Width Q_Width]].
    destruct (read_num_f _ _ _ _ G_Width Q_Width) as [t_Width [E_Width S_Width]]. rewrite E_Width. cbn [rbind].
    destruct (H "dx" _ eq_refl) as [v_dx [G_dx Q_dx]].
    destruct (read_num_f _ _ _ _ G_dx Q_dx) as [t_dx [E_dx S_dx]]. rewrite E_dx. cbn [rbind].
    destruct (H "L0_meters" _ eq_refl) as [v_L0_meters [G_L0_meters Q_L0_meters]].
    destruct (read_num_f _ _ _ _ G_L0_meters Q_L0_meters) as [t_L0_meters [E_L0_meters S_L0_meters]]. rewrite E_L0_meters. cbn [rbind].
    destruct (H "S0" _ eq_refl) as [v_S0 [G_S0 Q_S0]].
    destruct (read_num_f _ _ _ _ G_S0 Q_S0) as [t_S0 [E_S0 S_S0]]. rewrite E_S0. cbn [rbind].
    destruct (H "itermax" _ eq_refl) as [v_itermax [G_itermax Q_itermax]].
    destruct (read_int _ _ _ _ G_itermax Q_itermax) as [t_itermax [E_itermax S_itermax]]. rewrite E_itermax. cbn [rbind].
    destruct (H "Np_water" _ eq_refl) as [v_Np_water [G_Np_water Q_Np_water]].
    destruct (read_int _ _ _ _ G_Np_water Q_Np_water) as [t_Np_water [E_Np_water S_Np_water]]. rewrite E_Np_water. cbn [rbind].
    destruct (H "u0" _ eq_refl) as [v_u0 [G_u0 Q_u0]].
    destruct (read_num_f _ _ _ _ G_u0 Q_u0) as [t_u0 [E_u0 S_u0]]. rewrite E_u0. cbn [rbind].
    destruct (H "N0_meters" _ eq_refl) as [v_N0_meters [G_N0_meters Q_N0_meters]].
    destruct (read_num_f _ _ _ _ G_N0_meters Q_N0_meters) as [t_N0_meters [E_N0_meters S_N0_meters]]. rewrite E_N0_meters. cbn [rbind].
    destruct (H "h0" _ eq_refl) as [v_h0 [G_h0 Q_h0]].
    destruct (read_num_f _ _ _ _ G_h0 Q_h0) as [t_h0 [E_h0 S_h0]]. rewrite E_h0. cbn [rbind].
    destruct (H "hb" _ eq_refl) as [v_hb [G_hb Q_hb]].
    destruct (read_opt_num _ _ tt _ G_hb Q_hb) as [t_hb [E_hb S_hb]]. rewrite E_hb. cbn [rbind].
    destruct (H "H_SL" _ eq_refl) as [v_H_SL [G_H_SL Q_H_SL]].
    destruct (read_num_f _ _ _ _ G_H_SL Q_H_SL) as [t_H_SL [E_H_SL S_H_SL]]. rewrite E_H_SL. cbn [rbind].
    destruct (H "SLR" _ eq_refl) as [v_SLR [G_SLR Q_SLR]].
    destruct (read_num_f _ _ _ _ G_SLR Q_SLR) as [t_SLR [E_SLR S_SLR]]. rewrite E_SLR. cbn [rbind].
    destruct (H "Np_sed" _ eq_refl) as [v_Np_sed [G_Np_sed Q_Np_sed]].
    destruct (read_int _ _ _ _ G_Np_sed Q_Np_sed) as [t_Np_sed [E_Np_sed S_Np_sed]]. rewrite E_Np_sed. cbn [rbind].
    destruct (H "f_bedload" _ eq_refl) as [v_f_bedload [G_f_bedload Q_f_bedload]].
    destruct (read_num_f _ _ _ _ G_f_bedload Q_f_bedload) as [t_f_bedload [E_f_bedload S_f_bedload]]. rewrite E_f_bedload. cbn [rbind].
    destruct (H "active_layer_thickness" _ eq_refl) as [v_active_layer_thickness [G_active_layer_thickness Q_active_layer_thickness]].
    destruct (read_opt_num _ _ tt _ G_active_layer_thickness Q_active_layer_thickness) as [t_active_layer_thickness [E_active_layer_thickness S_active_layer_thickness]]. rewrite E_active_layer_thickness. cbn [rbind].
    destruct (H "C0_percent" _ eq_refl) as [v_C0_percent [G_C0_percent Q_C0_percent]].
    destruct (read_num_f _ _ _ _ G_C0_percent Q_C0_percent) as [t_C0_percent [E_C0_percent S_C0_percent]]. rewrite E_C0_percent. cbn [rbind].
    destruct (H "Csmooth" _ eq_refl) as [v_Csmooth [G_Csmooth Q_Csmooth]].
    destruct (read_num_f _ _ _ _ G_Csmooth Q_Csmooth) as [t_Csmooth [E_Csmooth S_Csmooth]]. rewrite E_Csmooth. cbn [rbind].
    destruct (H "toggle_subsidence" _ eq_refl) as [v_toggle_subsidence [G_toggle_subsidence Q_toggle_subsidence]].
    destruct (read_bool _ _ _ _ G_toggle_subsidence Q_toggle_subsidence) as [t_toggle_subsidence [E_toggle_subsidence S_toggle_subsidence]]. rewrite E_toggle_subsidence. cbn [rbind].
    destruct (H "subsidence_rate" _ eq_refl) as [v_subsidence_rate [G_subsidence_rate Q_subsidence_rate]].
    destruct (read_num_f _ _ _ _ G_subsidence_rate Q_subsidence_rate) as [t_subsidence_rate [E_subsidence_rate S_subsidence_rate]]. rewrite E_subsidence_rate. cbn [rbind].
    destruct (H "start_subsidence" _ eq_refl) as [v_start_subsidence [G_start_subsidence Q_start_subsidence]].
    destruct (read_num_z _ _ _ _ G_start_subsidence Q_start_subsidence) as [t_start_subsidence [E_start_subsidence S_start_subsidence]]. rewrite E_start_subsidence. cbn [rbind].
    destruct (H "save_dt" _ eq_refl) as [v_save_dt [G_save_dt Q_save_dt]].
    destruct (read_num_i _ _ _ _ G_save_dt Q_save_dt) as [t_save_dt [E_save_dt S_save_dt]]. rewrite E_save_dt. cbn [rbind].
    destruct (H "checkpoint_dt" _ eq_refl) as [v_checkpoint_dt [G_checkpoint_dt Q_checkpoint_dt]].
    destruct (read_opt_num_i _ _ tt _ G_checkpoint_dt Q_checkpoint_dt) as [t_checkpoint_dt [E_checkpoint_dt S_checkpoint_dt]]. rewrite E_checkpoint_dt. cbn [rbind].
    destruct (H "save_checkpoint" _ eq_refl) as [v_save_checkpoint [G_save_checkpoint Q_save_checkpoint]].
    destruct (read_bool _ _ _ _ G_save_checkpoint Q_save_checkpoint) as [t_save_checkpoint [E_save_checkpoint S_save_checkpoint]]. rewrite E_save_checkpoint. cbn [rbind].
    destruct (H "omega_sfc" _ eq_refl) as [v_omega_sfc [G_omega_sfc Q_omega_sfc]].
    destruct (read_num_f _ _ _ _ G_omega_sfc Q_omega_sfc) as [t_omega_sfc [E_omega_sfc S_omega_sfc]]. rewrite E_omega_sfc. cbn [rbind].
    destruct (H "omega_flow" _ eq_refl) as [v_omega_flow [G_omega_flow Q_omega_flow]].
    destruct (read_num_f _ _ _ _ G_omega_flow Q_omega_flow) as [t_omega_flow [E_omega_flow S_omega_flow]]. rewrite E_omega_flow. cbn [rbind].
    destruct (H "Nsmooth" _ eq_refl) as [v_Nsmooth [G_Nsmooth Q_Nsmooth]].
    destruct (read_int _ _ _ _ G_Nsmooth Q_Nsmooth) as [t_Nsmooth [E_Nsmooth S_Nsmooth]]. rewrite E_Nsmooth. cbn [rbind].
    destruct (H "theta_water" _ eq_refl) as [v_theta_water [G_theta_water Q_theta_water]].
    destruct (read_num_f _ _ _ _ G_theta_water Q_theta_water) as [t_theta_water [E_theta_water S_theta_water]]. rewrite E_theta_water. cbn [rbind].
    destruct (H "coeff_theta_sand" _ eq_refl) as [v_coeff_theta_sand [G_coeff_theta_sand Q_coeff_theta_sand]].
    destruct (read_num_f _ _ _ _ G_coeff_theta_sand Q_coeff_theta_sand) as [t_coeff_theta_sand [E_coeff_theta_sand S_coeff_theta_sand]]. rewrite E_coeff_theta_sand. cbn [rbind].
    destruct (H "coeff_theta_mud" _ eq_refl) as [v_coeff_theta_mud [G_coeff_theta_mud Q_coeff_theta_mud]].
    destruct (read_num_f _ _ _ _ G_coeff_theta_mud Q_coeff_theta_mud) as [t_coeff_theta_mud [E_coeff_theta_mud S_coeff_theta_mud]]. rewrite E_coeff_theta_mud. cbn [rbind].
    destruct (H "beta" _ eq_refl) as [v_beta [G_beta Q_beta]].
    destruct (read_num_i _ _ _ _ G_beta Q_beta) as [t_beta [E_beta S_beta]]. rewrite E_beta. cbn [rbind].
    destruct (H "sed_lag" _ eq_refl) as [v_sed_lag [G_sed_lag Q_sed_lag]].
    destruct (read_num_f _ _ _ _ G_sed_lag Q_sed_lag) as [t_sed_lag [E_sed_lag S_sed_lag]]. rewrite E_sed_lag. cbn [rbind].
    destruct (H "coeff_U_dep_mud" _ eq_refl) as [v_coeff_U_dep_mud [G_coeff_U_dep_mud Q_coeff_U_dep_mud]].
    destruct (read_num_f _ _ _ _ G_coeff_U_dep_mud Q_coeff_U_dep_mud) as [t_coeff_U_dep_mud [E_coeff_U_dep_mud S_coeff_U_dep_mud]]. rewrite E_coeff_U_dep_mud. cbn [rbind].
    destruct (H "coeff_U_ero_mud" _ eq_refl) as [v_coeff_U_ero_mud [G_coeff_U_ero_mud Q_coeff_U_ero_mud]].
    destruct (read_num_f _ _ _ _ G_coeff_U_ero_mud Q_coeff_U_ero_mud) as [t_coeff_U_ero_mud [E_coeff_U_ero_mud S_coeff_U_ero_mud]]. rewrite E_coeff_U_ero_mud. cbn [rbind].
    destruct (H "coeff_U_ero_sand" _ eq_refl) as [v_coeff_U_ero_sand [G_coeff_U_ero_sand Q_coeff_U_ero_sand]].
    destruct (read_num_f _ _ _ _ G_coeff_U_ero_sand Q_coeff_U_ero_sand) as [t_coeff_U_ero_sand [E_coeff_U_ero_sand S_coeff_U_ero_sand]]. rewrite E_coeff_U_ero_sand. cbn [rbind].
    destruct (H "alpha" _ eq_refl) as [v_alpha [G_alpha Q_alpha]].
    destruct (read_num_f _ _ _ _ G_alpha Q_alpha) as [t_alpha [E_alpha S_alpha]]. rewrite E_alpha. cbn [rbind].
    destruct (H "stepmax" _ eq_refl) as [v_stepmax [G_stepmax Q_stepmax]].
    destruct (read_opt_num _ _ tt _ G_stepmax Q_stepmax) as [t_stepmax [E_stepmax S_stepmax]]. rewrite E_stepmax. cbn [rbind].
    destruct (H "sand_frac_bc" _ eq_refl) as [v_sand_frac_bc [G_sand_frac_bc Q_sand_frac_bc]].
    destruct (read_num_z _ _ _ _ G_sand_frac_bc Q_sand_frac_bc) as [t_sand_frac_bc [E_sand_frac_bc S_sand_frac_bc]]. rewrite E_sand_frac_bc. cbn [rbind].
    destruct (H "seed" _ eq_refl) as [v_seed [G_seed Q_seed]].
    destruct (read_opt_int _ _ tt _ G_seed Q_seed) as [t_seed [E_seed S_seed]]. rewrite E_seed. cbn [rbind].
    eexists. split; [reflexivity|]. unfold attributes.
    repeat (apply Forall_cons; [eexists; cbn [fst snd]; split; [eassumption|assumption]|]).
    apply Forall_nil.
  Qed.

  Lemma default_table_dict : is_dict (default_table (F:=F)).
  Proof. unfold is_dict, default_table, dkeys. cbn. repeat constructor; cbn; intuition discriminate. Qed.

  Lemma import_sound : forall custom (f : file F) kw c unused,
    is_dict custom -> readable f -> is_dict kw ->
    import_files default_table custom f kw = Ok (c, unused) -> sound_config c.
  Proof.
    intros custom f kw c unused DC RF DK E.
    destruct (import_cases default_table custom f kw default_table_dict DC RF DK)
      as [[W [c' [u [E' [_ [V _]]]]]]|[_ E']]; rewrite E in E'; [|discriminate].
    injection E' as <- <-. intros k d D.
    assert (DD : declared default_table custom k = Some d).
    { unfold declared. rewrite D. reflexivity. }
    rewrite V, DD. cbn. eexists. split; [reflexivity|].
    destruct (given f kw k) as [v|] eqn:G; [left|right; reflexivity]. exact (W k d v DD G).
  Qed.
End ConfigProofs.

(** ** Consequences *)
Section Cor.
  Context {F : Type} {A : Arith F}.

  Lemma dict_ext : forall {V} (d e : dict V), NoDup (dkeys d) -> dkeys d = dkeys e ->
    (forall k, dget k d = dget k e) -> d = e.
  Proof.
    intros V. induction d as [|[k v] d IH]; intros e ND K G; destruct e as [|[k' v'] e]; cbn in K;
      try discriminate; [reflexivity|]. injection K as -> K.
    inversion ND as [|? ? NI ND']; subst.
    assert (v = v') as ->. { specialize (G k'). cbn in G. rewrite String.eqb_refl in G. congruence. }
    f_equal. apply IH; [exact ND'|exact K|]. intros x. specialize (G x). cbn in G.
    destruct (String.eqb_spec x k') as [Ex|N]; [rewrite Ex; clear G|exact G].
    transitivity (@None V); [apply dget_None; exact NI|symmetry; apply dget_None].
    unfold dkeys in *. rewrite <- K. exact NI.
  Qed.

  Lemma import_same : forall (table custom : dict (declaration F)) (f f' : file F) kw kw',
    is_dict table -> is_dict custom -> readable f -> readable f' -> is_dict kw -> is_dict kw' ->
    (forall k, declared table custom k <> None -> given f kw k = given f' kw' k) ->
    rbind (import_files table custom f kw) (fun r => Ok (fst r))
    = rbind (import_files table custom f' kw') (fun r => Ok (fst r)).
  Proof.
    intros table custom f f' kw kw' DT DC R1 R2 K1 K2 H.
    assert (W : well_typed table custom f kw <-> well_typed table custom f' kw').
    { split; intros W k d v D G; apply (W k d v D); rewrite <- G; [|symmetry]; apply H; congruence. }
    destruct (import_cases table custom f kw DT DC R1 K1) as [[W1 [c1 [u1 [E1 [N1 [V1 _]]]]]]|[W1 E1]];
    destruct (import_cases table custom f' kw' DT DC R2 K2) as [[W2 [c2 [u2 [E2 [N2 [V2 _]]]]]]|[W2 E2]];
      rewrite E1, E2; cbn; try tauto.
    f_equal. apply dict_ext.
    - rewrite N1. clear - DT DC. unfold is_dict in *.
      induction (dkeys custom) as [|k l IH]; cbn; [rewrite app_nil_r; exact DT|].
      inversion DC as [|? ? NI ND]; subst. specialize (IH ND).
      destruct (dmem k table) eqn:M; cbn; [exact IH|].
      apply NoDup_Add with (a := k) (l := (dkeys table ++ filter (fun k => negb (dmem k table)) l)%list).
      + apply Add_app.
      + split; [exact IH|]. rewrite in_app_iff, filter_In. intros [C|[C _]]; [|contradiction].
        apply dmem_iff in C. congruence.
    - congruence.
    - intros k. rewrite V1, V2. destruct (declared table custom k) eqn:D; [|reflexivity]. cbn.
      rewrite (H k) by congruence. reflexivity.
  Qed.
End Cor.
