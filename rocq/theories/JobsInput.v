(** Proofs about what jobs read. *)
From Coq Require Import ZArith List Bool String.
From Verif Require Import Base Dict Config Expand ExpandSpec ExpandProofs ExpandRuns ExpandCor Params State Inputs Init Session Jobs JobsSpec.
Import ListNotations.
Local Open Scope string_scope.

Section Input.
  Context {F : Type}.
  Notation value := (value F).
  Notation cfg := (dict value).

  Lemma dget_dupdate_other : forall (e d : cfg) k, ~ In k (dkeys e) -> dget k (dupdate d e) = dget k d.
  Proof.
    induction e as [|[k0 v0] e IH]; intros d k H; [reflexivity|]. cbn in H.
    change (dupdate d ((k0, v0) :: e)) with (dupdate (dset k0 v0 d) e). rewrite IH by tauto. rewrite dget_dset.
    destruct (String.eqb_spec k k0); [subst; tauto|reflexivity].
  Qed.

  (** Without a set: refused, one job, or the jobs of a matrix. *)
  Lemma construct_no_set : forall seeds reload (c : cfg) d, ~ In "set" (dkeys c) ->
    (exists e, construct_file_list seeds reload c d = (d, Err e)) \/
    exists c', (forall k, k <> "ensemble" -> k <> "matrix" -> dget k c' = dget k c) /\ (well_formed c -> well_formed c') /\
      (construct_file_list seeds reload c d = (d, Ok (mkPlan c' [c'] [UserFile] None)) \/
       construct_file_list seeds reload c d = ibind (prepare_multijob_output c' d) (finish reload true c')).
  Proof.
    intros seeds reload c d Hs. unfold construct_file_list, well_formed. rewrite prelim_Ok by tauto.
    rewrite (absent _ _ Hs). cbn [rbind f_ensemble f_set f_matrix].
    destruct (dmem "ensemble" c) eqn:Ef.
    - unfold expand_ensemble. destruct (dget "ensemble" c) as [v|]; [|left; eauto].
      destruct (as_pyint v) as [z|]; [|left; eauto].
      destruct (z =? 1)%Z.
      + cbn [f_ensemble f_set f_matrix orb]. right. exists (ddel "ensemble" c). split; [|split].
        * intros k K _. rewrite dget_ddel. apply String.eqb_neq in K. now rewrite K.
        * apply ddel_NoDup.
        * destruct (dmem "matrix" c); [right|left]; reflexivity.
      + cbn [f_set].
        set (m := match dget "matrix" (ddel "ensemble" c) with Some m => m | None => VDict [] end).
        destruct m as [| | | | | |m]; try (left; eexists; reflexivity).
        destruct (dmem "seed" m); [left; eauto|]. cbn [f_ensemble f_set f_matrix orb].
        right. eexists. split; [|split; [|right; reflexivity]].
        * intros k K1 K2. rewrite dget_dset, !dget_ddel. apply String.eqb_neq in K1, K2. now rewrite K1, K2.
        * intros W. apply dset_NoDup, ddel_NoDup, ddel_NoDup, W.
    - cbn [f_ensemble f_set f_matrix orb]. right. exists c. repeat split; auto.
      destruct (dmem "matrix" c); [right|left]; reflexivity.
  Qed.

  Lemma arguments_reach_jobs : forall seeds reload (c : cfg) d d' p, ~ In "set" (dkeys c) -> well_formed c ->
    construct_file_list seeds reload c d = (d', Ok p) ->
    forall j k v, In j (pl_configs p) -> k <> "out_dir" -> k <> "matrix" -> k <> "ensemble" ->
      dget k c = Some v -> dget k j = Some v.
  Proof.
    intros seeds reload c d d' p Hs W H j k v Hj K1 K2 K3 Hv.
    destruct (construct_no_set seeds reload c d Hs) as [[e E]|(c' & Ha & W' & [E|E])].
    - congruence.
    - rewrite E in H. injection H as <- <-. cbn in Hj. destruct Hj as [<-|[]]. rewrite Ha; auto.
    - rewrite E in H. apply ibind_Ok in H as (d1 & root & Hp & Hf).
      apply finish_Ok in Hf as (cs & t & dirs & Ex & _ & Ecs & _). rewrite Ecs in Hj. cbn in Ex.
      apply expand_matrix_Ok in Ex as (md & m & Em & Hr & _ & Hc & Ho & Ex). injection Ex as _ -> _.
      assert (Hk : dget k (ddel "matrix" c') = Some v).
      { rewrite dget_ddel. apply String.eqb_neq in K2 as K2'. rewrite K2'. rewrite Ha; auto. }
      apply In_nth_error in Hj as (i & Hi). rewrite job_configs_nth in Hi.
      destruct (nth_error (matrix_combs m) i) as [kvs|] eqn:En; [|discriminate]. cbn in Hi. injection Hi as <-.
      apply nth_error_In in En. apply matrix_combs_keys in En.
      assert (Hn : ~ In k (dkeys kvs)).
      { rewrite En. intros C. apply (ck_fixed _ _ Hc) in C. apply C. apply dget_key in Hk. exact Hk. }
      unfold job_config. rewrite dget_dupdate_other by exact Hn. rewrite dget_dset.
      apply String.eqb_neq in K1. now rewrite K1.
  Qed.

  (** The plan of a single job. *)
  Lemma single_plan : forall seeds reload user (args : cfg) d d' p,
    preprocessor seeds reload user args d = (d', Ok p) -> pl_files p = [UserFile] ->
    exists c, pl_configs p = [c] /\ d' = d /\
      forall k, k <> "ensemble" -> k <> "matrix" -> dget k c = dget k (merged user args).
  Proof.
    intros seeds reload user args d d' p H Hf.
    assert (H' : construct_file_list seeds reload (merged user args) d = (d', Ok p)).
    { unfold preprocessor in H. destruct user, args; try discriminate; exact H. }
    clear H. set (c := merged user args) in *.
    destruct (dmem "set" c) eqn:Es.
    2:{ destruct (construct_no_set seeds reload c d) as [[e E]|(c' & Ha & W' & [E|E])].
        - intros C. apply dmem_iff in C. congruence.
        - congruence.
        - rewrite E in H'. injection H' as <- <-. exists c'. auto.
        - exfalso. rewrite E in H'. apply ibind_Ok in H' as (d1 & root & Hp & Hfi).
          apply finish_Ok in Hfi as (cs & t & dirs & _ & _ & _ & Ef & _). rewrite Hf in Ef. destruct dirs; discriminate. }
    exfalso. destruct (construct_cases seeds reload c d) as [[e E]|[[c' E]|(mat & c' & E & _)]].
    - congruence.
    - apply (construct_single_only _ _ _ _ _ _ E). left. apply dmem_iff, Es.
    - rewrite E in H'. apply ibind_Ok in H' as (d1 & root & Hp & Hfi).
      apply finish_Ok in Hfi as (cs & t & dirs & _ & _ & _ & Ef & _). rewrite Hf in Ef. destruct dirs; discriminate.
  Qed.

  Lemma single_input : forall seeds reload user (args : cfg) d d' p,
    (forall f, user = Some f -> well_formed f) -> well_formed args ->
    preprocessor seeds reload user args d = (d', Ok p) -> pl_files p = [UserFile] ->
    exists c c', pl_configs p = [c] /\ job_input user d' c UserFile = Ok (own_file user, c') /\
      forall k, k <> "ensemble" -> k <> "matrix" ->
        dget k c = match dget k args with Some v => Some v | None => given user k end /\
        dget k c' = match given user k with Some v => Some v | None => dget k args end.
  Proof.
    intros seeds reload user args d d' p Wf Wa H Hf. destruct (single_plan _ _ _ _ _ _ _ H Hf) as (c & Ec & -> & Hc).
    exists c, (dupdate c (match user with Some f => f | None => [] end)). split; [exact Ec|]. split.
    { destruct user; reflexivity. }
    intros k K1 K2. specialize (Hc k K1 K2). rewrite (merged_get user args k Wf Wa) in Hc.
    split; [rewrite Hc; destruct (dget k args); [reflexivity|]; destruct user; reflexivity|].
    destruct user as [f|]; cbn [given].
    - rewrite dget_dupdate by (apply Wf; reflexivity). destruct (dget k f) eqn:E; [reflexivity|]. rewrite Hc.
      destruct (dget k args); reflexivity.
    - change (dupdate c []) with c. rewrite Hc. destruct (dget k args); reflexivity.
  Qed.
End Input.
