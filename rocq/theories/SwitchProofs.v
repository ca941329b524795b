(** Proofs about the output switches. *)
From Coq Require Import ZArith NArith List Bool String Lia.
From Verif Require Import Base Dict Text Switches SwitchSpec.
Import ListNotations.
Local Open Scope string_scope.

Lemma fig_beq_spec : forall f g, reflect (f = g) (fig_beq f g).
Proof. intros [] []; constructor; congruence. Qed.
Lemma grd_beq_spec : forall f g, reflect (f = g) (grd_beq f g).
Proof. intros [] []; constructor; congruence. Qed.
Lemma same_switch_spec : forall s t, reflect (s = t) (same_switch s t).
Proof.
  intros [f|f] [g|g]; cbn; try (constructor; congruence).
  - destruct (fig_beq_spec f g); constructor; congruence.
  - destruct (grd_beq_spec f g); constructor; congruence.
Qed.

Lemma current_snoc : forall start l s b t,
  current start (l ++ [(s, b)]) t = if same_switch s t then b else current start l t.
Proof. intros. unfold current. rewrite fold_left_app. reflexivity. Qed.

(** ** One assignment *)
Lemma toggle_spec : forall l key attr b (P : string -> string -> Prop),
  (forall k a, dget k l = Some a <-> P k a) -> (forall a, P key a -> a = attr) ->
  forall k a, dget k (toggle key attr b l) = Some a <->
    (if String.eqb k key then b = true /\ a = attr else P k a).
Proof.
  intros l key attr b P H HP k a. unfold toggle, dmem.
  destruct b; destruct (dget key l) as [x|] eqn:E.
  - destruct (String.eqb_spec k key) as [->|N]; [|apply H]. rewrite E.
    assert (x = attr) as -> by (apply HP; apply H; exact E). intuition congruence.
  - rewrite dget_dset. destruct (String.eqb k key); [intuition congruence|apply H].
  - rewrite dget_ddel. destruct (String.eqb k key); [intuition discriminate|apply H].
  - destruct (String.eqb_spec k key) as [->|N]; [|apply H]. rewrite E. intuition discriminate.
Qed.

Lemma toggle_NoDup : forall l key attr b, NoDup (dkeys l) -> NoDup (dkeys (toggle key attr b l)).
Proof.
  intros l key attr b H. unfold toggle. destruct b; destruct (dmem key l); auto.
  - apply dset_NoDup; exact H. - apply ddel_NoDup; exact H.
Qed.

Lemma dget_iff_In : forall {V} (d : dict V) k v, NoDup (dkeys d) -> (dget k d = Some v <-> In (k, v) d).
Proof. intros V d k v H. split; [apply dget_In|apply In_dget; exact H]. Qed.

Lemma fig_output_inj : forall f g, fst (fig_output f) = fst (fig_output g) -> f = g.
Proof. intros [] []; cbn; intros H; congruence. Qed.

Lemma fig_entry_plain : forall f b l, f <> FVelocity \/ b = true \/ dmem "velocity" l = false ->
  fig_entry f b l = Ok (toggle (fst (fig_output f)) (snd (fig_output f)) b l).
Proof.
  intros f b l H. destruct f; cbn; try reflexivity. destruct b; [reflexivity|].
  destruct H as [H|[H|H]]; [congruence|congruence|]. rewrite H. unfold toggle. rewrite H. reflexivity.
Qed.

Local Ltac grd_case H :=
  intros k a;
  repeat match goal with
  | |- context [String.eqb k ?s] => destruct (String.eqb_spec k s) as [->|?]
  end; cbn; firstorder congruence.

Lemma assign_ok : forall x on s b, selects x on ->
  (s = Fig FVelocity -> b = false -> on (Fig FVelocity) = false) ->
  exists x', assign_switch s b x = Ok x' /\
    selects x' (fun t => if same_switch s t then b else on t).
Proof.
  intros x on s b H V. destruct s as [f|g]; cbn [assign_switch].
  - rewrite fig_entry_plain.
    2:{ destruct f; try (left; discriminate). destruct b; [right; left; reflexivity|]. right; right.
        apply dmem_false. specialize (V eq_refl eq_refl).
        destruct (dget "velocity" (fig_list x)) as [a|] eqn:E; [|reflexivity].
        apply dget_In in E. apply (se_figs x on H) in E. destruct E as [f [O E]].
        assert (f = FVelocity) as -> by (apply fig_output_inj; rewrite E; reflexivity). congruence. }
    cbn [rbind]. eexists. split; [reflexivity|].
    assert (T : forall k a, dget k (toggle (fst (fig_output f)) (snd (fig_output f)) b (fig_list x)) = Some a <->
      (if String.eqb k (fst (fig_output f)) then b = true /\ a = snd (fig_output f)
       else exists h, on (Fig h) = true /\ fig_output h = (k, a))).
    { apply toggle_spec.
      - intros k a. rewrite dget_iff_In by apply (se_figs_once x on H). apply (se_figs x on H).
      - intros a [h [_ E]]. assert (h = f) as -> by (apply fig_output_inj; rewrite E; reflexivity).
        rewrite E. reflexivity. }
    constructor; cbn [fig_list var_list fig_on grd_on same_switch].
    + intros k a. rewrite <- dget_iff_In by (apply toggle_NoDup; apply (se_figs_once x on H)).
      rewrite T. destruct (String.eqb_spec k (fst (fig_output f))) as [->|N].
      * split.
        -- intros [-> ->]. exists f. destruct (fig_beq_spec f f); [|congruence].
           split; [reflexivity|destruct (fig_output f); reflexivity].
        -- intros [h [O E]]. assert (h = f) as -> by (apply fig_output_inj; rewrite E; reflexivity).
           destruct (fig_beq_spec f f); [|congruence]. rewrite E. auto.
      * split; intros [h [O E]]; exists h; (split; [|exact E]);
          destruct (fig_beq_spec f h) as [->|]; auto; exfalso; apply N; rewrite E; reflexivity.
    + apply (se_vars x on H).
    + apply toggle_NoDup. apply (se_figs_once x on H).
    + apply (se_vars_once x on H).
    + intros h. destruct (fig_beq f h); [reflexivity|apply (se_fig_on x on H)].
    + apply (se_grd_on x on H).
  - eexists. split; [reflexivity|].
    assert (ND : NoDup (dkeys (grd_entry g b (var_list x)))).
    { destruct g; cbn; repeat apply toggle_NoDup; apply (se_vars_once x on H). }
    assert (HP : forall k a, dget k (var_list x) = Some a <-> exists h, on (Grd h) = true /\ In (k, a) (grd_outputs h)).
    { intros k a. rewrite dget_iff_In by apply (se_vars_once x on H). apply (se_vars x on H). }
    assert (U : forall h1 h2 k a1 a2, In (k, a1) (grd_outputs h1) -> In (k, a2) (grd_outputs h2) -> h1 = h2 /\ a1 = a2).
    { clear. intros [] [] k a1 a2; cbn; intuition congruence. }
    assert (OUT : forall k a, dget k (grd_entry g b (var_list x)) = Some a <->
      (if existsb (fun e => String.eqb k (fst e)) (grd_outputs g)
       then b = true /\ In (k, a) (grd_outputs g)
       else exists h, on (Grd h) = true /\ In (k, a) (grd_outputs h))).
    { assert (one : forall key attr, (forall a, (exists h, on (Grd h) = true /\ In (key, a) (grd_outputs h)) -> a = attr) ->
        forall k a, dget k (toggle key attr b (var_list x)) = Some a <->
          (if String.eqb k key then b = true /\ a = attr
           else exists h, on (Grd h) = true /\ In (k, a) (grd_outputs h))).
      { intros key attr HU. apply toggle_spec; [exact HP|exact HU]. }
      assert (single : forall key attr, In (key, attr) (grd_outputs g) ->
        forall a, (exists h, on (Grd h) = true /\ In (key, a) (grd_outputs h)) -> a = attr).
      { intros key attr I a [h [_ I2]]. exact (proj2 (U h g key a attr I2 I)). }
      destruct g; cbn [grd_entry grd_outputs existsb fst];
        try (intros k a; rewrite orb_false_r;
             rewrite (one _ _ (single _ _ (or_introl eq_refl)));
             match goal with |- context [String.eqb k ?s] => destruct (String.eqb_spec k s) as [->|?] end;
             [cbn; intuition congruence|reflexivity]).
      - intros k a.
        rewrite (toggle_spec _ "discharge_y" "qy" b _ (one _ _ (single _ _ (or_introl eq_refl)))).
        + destruct (String.eqb_spec k "discharge_y") as [->|N1]; [cbn; intuition congruence|].
          destruct (String.eqb_spec k "discharge_x") as [->|N2]; [cbn; intuition congruence|]. reflexivity.
        + cbn. intros a0 Ha. exact (single "discharge_y" "qy" (or_intror (or_introl eq_refl)) a0 Ha).
      - intros k a.
        rewrite (toggle_spec _ "velocity_y" "uy" b _ (one _ _ (single _ _ (or_introl eq_refl)))).
        + destruct (String.eqb_spec k "velocity_y") as [->|N1]; [cbn; intuition congruence|].
          destruct (String.eqb_spec k "velocity_x") as [->|N2]; [cbn; intuition congruence|]. reflexivity.
        + cbn. intros a0 Ha. exact (single "velocity_y" "uy" (or_intror (or_introl eq_refl)) a0 Ha). }
    constructor; cbn [fig_list var_list fig_on grd_on same_switch].
    + apply (se_figs x on H).
    + intros k a. rewrite <- dget_iff_In by exact ND. rewrite OUT.
      destruct (existsb (fun e => String.eqb k (fst e)) (grd_outputs g)) eqn:E.
      * apply existsb_exists in E. destruct E as [[k' a'] [I E]]. cbn in E. apply String.eqb_eq in E. subst k'.
        split.
        -- intros [-> I2]. exists g. destruct (grd_beq_spec g g); [|congruence]. auto.
        -- intros [h [O I2]]. destruct (U h g k a a' I2 I) as [-> ->].
           destruct (grd_beq_spec g g); [|congruence]. auto.
      * split; intros [h [O I2]]; exists h; (split; [|exact I2]);
          destruct (grd_beq_spec g h) as [->|]; auto; exfalso;
          (assert (C : existsb (fun e => String.eqb k (fst e)) (grd_outputs h) = true);
           [apply existsb_exists; exists (k, a); split; [exact I2|apply String.eqb_refl]|congruence]).
    + apply (se_figs_once x on H).
    + exact ND.
    + apply (se_fig_on x on H).
    + intros h. destruct (grd_beq g h); [reflexivity|apply (se_grd_on x on H)].
Qed.

(** ** Sequences *)
Lemma selects_ext : forall x on on', (forall s, on s = on' s) -> selects x on -> selects x on'.
Proof.
  intros x on on' E H. destruct H as [H1 H2 H3 H4 H5 H6]. constructor; auto.
  - intros k a. rewrite H1. split; intros [f [O X]]; exists f; split; auto; congruence.
  - intros k a. rewrite H2. split; intros [f [O X]]; exists f; split; auto; congruence.
  - intros f. rewrite H5. apply E. - intros g. rewrite H6. apply E.
Qed.

Lemma no_selection_selects : selects no_selection all_off.
Proof. constructor; cbn; try constructor; try contradiction; firstorder discriminate. Qed.

Lemma assign_all_app : forall l1 l2 x, assign_all (l1 ++ l2) x = rbind (assign_all l1 x) (assign_all l2).
Proof.
  induction l1 as [|[s b] l1 IH]; cbn; intros l2 x; [reflexivity|].
  destruct (assign_switch s b x) as [x'|e]; cbn; [apply IH|reflexivity].
Qed.

Lemma assign_all_ok : forall l start x, selects x start -> velocity_kept start l ->
  exists x', assign_all l x = Ok x' /\ selects x' (current start l).
Proof.
  induction l as [|[s b] l IH] using rev_ind; intros start x H V.
  - exists x. split; [reflexivity|]. exact H.
  - destruct (IH start x H) as [x1 [E1 H1]].
    { intros l1 l2 E. apply (V l1 (l2 ++ [(s, b)])%list). rewrite E. rewrite <- app_assoc. reflexivity. }
    destruct (assign_ok x1 (current start l) s b H1) as [x2 [E2 H2]].
    { intros -> ->. apply (V l []). reflexivity. }
    exists x2. rewrite assign_all_app, E1. cbn [rbind assign_all]. rewrite E2. cbn [rbind].
    split; [reflexivity|]. eapply selects_ext; [|exact H2]. intros t. cbn.
    rewrite current_snoc. reflexivity.
Qed.

(** Switching the velocity figure off while it is on. *)
Lemma velocity_off : forall x on, selects x on -> on (Fig FVelocity) = true ->
  (on (Fig FSedflux) = false -> assign_switch (Fig FVelocity) false x = Err KeyError) /\
  (on (Fig FSedflux) = true -> exists x', assign_switch (Fig FVelocity) false x = Ok x' /\
     In ("velocity", "uw") (fig_list x') /\ ~ In "sedflux" (dkeys (fig_list x')) /\
     fig_on x' FVelocity = false /\ fig_on x' FSedflux = true).
Proof.
  intros x on H V.
  assert (MV : dget "velocity" (fig_list x) = Some "uw").
  { apply dget_iff_In; [apply (se_figs_once x on H)|]. apply (se_figs x on H). exists FVelocity. auto. }
  assert (MV' : dmem "velocity" (fig_list x) = true) by (unfold dmem; rewrite MV; reflexivity).
  split; intros O; cbn [assign_switch fig_entry]; rewrite MV'.
  - assert (M : dmem "sedflux" (fig_list x) = false).
    { apply dmem_false. destruct (dget "sedflux" (fig_list x)) as [a|] eqn:E; [|reflexivity].
      apply dget_In in E. apply (se_figs x on H) in E. destruct E as [f [Of E]].
      assert (f = FSedflux) as -> by (apply fig_output_inj; rewrite E; reflexivity). congruence. }
    rewrite M. reflexivity.
  - assert (M : dget "sedflux" (fig_list x) = Some "qs").
    { apply dget_iff_In; [apply (se_figs_once x on H)|]. apply (se_figs x on H). exists FSedflux. auto. }
    assert (M' : dmem "sedflux" (fig_list x) = true) by (unfold dmem; rewrite M; reflexivity).
    rewrite M'. cbn [rbind]. eexists. split; [reflexivity|]. cbn [fig_list fig_on fig_beq]. repeat split.
    + apply dget_In. rewrite dget_ddel. cbn. exact MV.
    + intros C. apply ddel_keys in C. tauto.
    + rewrite (se_fig_on x on H). exact O.
Qed.

(** ** Construction and records *)
Lemma configured_current : forall on s, current all_off (configured on) s = on s.
Proof. intros on [[]|[]]; reflexivity. Qed.

Lemma current_notin : forall start l s, ~ In s (map fst l) -> current start l s = start s.
Proof.
  intros start l s. induction l as [|[t b] l IH] using rev_ind; intros N; [reflexivity|].
  rewrite current_snoc. rewrite map_app, in_app_iff in N. cbn in N.
  destruct (same_switch_spec t s) as [E|_]; [exfalso; apply N; auto|]. apply IH. tauto.
Qed.

Lemma configured_kept : forall on, velocity_kept all_off (configured on).
Proof.
  intros on l1 l2 E. apply current_notin.
  assert (D : NoDup (map fst (configured on))).
  { unfold configured. rewrite map_map. cbn.
    repeat (constructor; [cbn; intuition discriminate|]). constructor. }
  rewrite E, map_app in D. cbn in D. apply NoDup_remove_2 in D. rewrite in_app_iff in D. tauto.
Qed.

Lemma configured_ok : forall on, exists x, assign_all (configured on) no_selection = Ok x /\ selects x on.
Proof.
  intros on. destruct (assign_all_ok (configured on) all_off no_selection no_selection_selects (configured_kept on))
    as [x [E H]]. exists x. split; [exact E|]. eapply selects_ext; [|exact H]. apply configured_current.
Qed.

Lemma any_iff : forall x on, selects x on -> (existsb (grd_on x) all_grds = true <-> any_grid on).
Proof.
  intros x on H. rewrite existsb_exists. split.
  - intros [g [_ O]]. exists g. rewrite <- (se_grd_on x on H). exact O.
  - intros [g O]. exists g. split; [destruct g; cbn; tauto|]. rewrite (se_grd_on x on H). exact O.
Qed.

Lemma no_grid_empty : forall x on, selects x on -> ~ any_grid on -> var_list x = [].
Proof.
  intros x on H N. destruct (var_list x) as [|[k a] l] eqn:E; [reflexivity|]. exfalso. apply N.
  assert (I : In (k, a) (var_list x)) by (rewrite E; left; reflexivity).
  apply (se_vars x on H) in I. destruct I as [g [O _]]. exists g. exact O.
Qed.

(** A record of a model none of whose switches has changed since it was
    built. *)
Lemma record_ok : forall x on md ts, selects x on ->
  exists r, save_grids_and_figs (open_writer x md ts) = Ok r /\
    sv_figs r = fig_list x /\ sv_grids r = var_list x /\
    (sv_time r = true <-> metas_on on md) /\
    ((metas_on on md -> sv_meta r = ["H_SL"; "f_bedload"; "C0_percent"; "u0"]) /\
     (~ metas_on on md -> sv_meta r = [])).
Proof.
  intros x on md ts H. unfold save_grids_and_figs, open_writer. cbv zeta. cbn [w_meta w_any w_file w_sel w_metas].
  pose proof (any_iff x on H) as A. destruct (existsb (grd_on x) all_grds) eqn:E.
  - rewrite !orb_true_r. cbn [rbind].
    assert (FB : forallb (fun k => existsb (String.eqb k) (dkeys (var_list x))) (dkeys (var_list x)) = true).
    { apply forallb_forall. intros k I. apply existsb_exists. exists k. split; [exact I|apply String.eqb_refl]. }
    rewrite FB. cbn [rbind]. eexists. split; [reflexivity|]. cbn.
    assert (M : metas_on on md) by (right; apply A; reflexivity).
    repeat split; auto; try tauto. intros _. destruct ts; reflexivity.
  - rewrite !orb_false_r. assert (N : ~ any_grid on) by (intros C; apply A in C; discriminate).
    destruct md; cbn [rbind orb].
    + eexists. split; [reflexivity|]. cbn. rewrite (no_grid_empty x on H N).
      assert (M : metas_on on true) by (left; reflexivity).
      repeat split; auto; try tauto. intros _. destruct ts; reflexivity.
    + eexists. split; [reflexivity|]. cbn. rewrite (no_grid_empty x on H N).
      assert (M : ~ metas_on on false) by (intros [C|C]; [discriminate|contradiction]).
      repeat split; auto; try tauto; discriminate.
Qed.

(** A grid switched on after construction. *)
Lemma late_grid : forall x on md ts g w', selects x on -> on (Grd g) = false ->
  writer_assign (Grd g) true (open_writer x md ts) = Ok w' ->
  (any_grid on -> save_grids_and_figs w' = Err PlainException) /\
  (~ any_grid on -> exists r, save_grids_and_figs w' = Ok r /\ sv_grids r = []).
Proof.
  intros x on md ts g w' H O E. remember (open_writer x md ts) as w0 eqn:W0.
  unfold writer_assign in E. replace (w_sel w0) with x in E by (rewrite W0; reflexivity).
  destruct (assign_ok x on (Grd g) true H) as [x' [E' H']]; [discriminate|].
  rewrite E' in E. cbn [rbind] in E. injection E as <-. rewrite W0.
  unfold save_grids_and_figs, open_writer. cbv zeta. cbn [w_meta w_any w_file w_sel w_metas].
  pose proof (any_iff x on H) as A. destruct (existsb (grd_on x) all_grds) eqn:Ea.
  - split; [|intros C; exfalso; apply C; apply A; reflexivity]. intros _.
    rewrite !orb_true_r. cbn [rbind].
    assert (FB : forallb (fun k => existsb (String.eqb k) (dkeys (var_list x))) (dkeys (var_list x')) = false).
    { destruct (forallb _ _) eqn:F; [|reflexivity]. exfalso. rewrite forallb_forall in F.
      assert (X : exists k a, In (k, a) (grd_outputs g)) by (destruct g; cbn; eauto).
      destruct X as [k [a I]].
      assert (I' : In (k, a) (var_list x')).
      { apply (se_vars x' _ H'). exists g. cbn. destruct (grd_beq_spec g g); [auto|congruence]. }
      specialize (F k (in_map fst _ _ I')). apply existsb_exists in F. destruct F as [k2 [I2 E2]].
      apply String.eqb_eq in E2. subst k2. apply key_dget in I2. destruct I2 as [a2 I2]. apply dget_In in I2.
      apply (se_vars x on H) in I2. destruct I2 as [h [Oh I2]].
      assert (h = g) as ->. { clear - I I2. destruct g, h; cbn in *; intuition congruence. }
      congruence. }
    rewrite FB. reflexivity.
  - split; [intros C; apply A in C; discriminate|]. intros _. rewrite !orb_false_r.
    destruct md; cbn; eexists; split; try reflexivity.
Qed.

(** ** Figure files *)
Lemma append_split : forall (sep : Ascii.ascii) s t u v,
  all_chars (fun c => negb (Ascii.eqb c sep)) s = true ->
  all_chars (fun c => negb (Ascii.eqb c sep)) t = true ->
  s ++ String sep u = t ++ String sep v -> s = t /\ u = v.
Proof.
  intros sep. induction s as [|c s IH]; intros t u v Hs Ht E; destruct t as [|d t]; cbn in *.
  - injection E as E. auto.
  - injection E as -> E. rewrite Ascii.eqb_refl in Ht. discriminate.
  - injection E as -> E. rewrite Ascii.eqb_refl in Hs. discriminate.
  - injection E as -> E. apply andb_true_iff in Hs. apply andb_true_iff in Ht.
    destruct (IH t u v) as [-> ->]; tauto.
Qed.

Lemma figure_file_inj : forall f g n m,
  figure_file true (fst (fig_output f)) n = figure_file true (fst (fig_output g)) m -> f = g /\ n = m.
Proof.
  intros f g n m E. unfold figure_file in E. rewrite !append_assoc in E.
  set (X := zfill 5 (pystr n) ++ ".png") in E. set (Y := zfill 5 (pystr m) ++ ".png") in E.
  change ("_" ++ X) with (String (Ascii.Ascii true true true true true false true false) X) in E.
  change ("_" ++ Y) with (String (Ascii.Ascii true true true true true false true false) Y) in E.
  apply append_split in E; [|destruct f; reflexivity|destruct g; reflexivity].
  destruct E as [E1 E2]. apply fig_output_inj in E1. split; [exact E1|].
  unfold X, Y in E2. apply append_inj_r in E2. apply zfill_inj in E2. exact E2.
Qed.

Lemma figure_latest : forall f g n m,
  figure_file false (fst (fig_output f)) n = figure_file false (fst (fig_output g)) m <-> f = g.
Proof.
  intros f g n m. split.
  - destruct f, g; cbn; intros E; congruence.
  - intros ->. reflexivity.
Qed.
