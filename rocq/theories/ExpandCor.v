(** The statements about jobs in the form used by the properties. *)
From Coq Require Import ZArith NArith List Bool String Ascii Lia.
From Verif Require Import Base Dict Text Config Expand ExpandSpec ExpandProofs ExpandRuns.
Import ListNotations.
Local Open Scope string_scope.

Section Cor.
  Context {F : Type}.
  Notation value := (value F).
  Notation cfg := (dict value).

  Lemma finish_Ok : forall reload mat (c : cfg) d root d' p,
    finish reload mat c d root = (d', Ok p) ->
    exists cs t dirs, (if mat then expand_matrix root c else expand_set root c) = Ok (pl_config p, cs, t) /\
      cs <> [] /\ pl_configs p = cs /\ pl_files p = map JobFile dirs /\ pl_table p = Some t /\
      write_jobs reload (resuming c) cs d = (d', Ok dirs).
  Proof.
    intros reload mat c d root d' p. unfold finish.
    destruct (if mat then expand_matrix root c else expand_set root c) as [[[c1 cs] t]|e] eqn:E; [|discriminate].
    assert (R := finish_resuming _ _ _ _ _ _ E).
    unfold write_job_configs. destruct cs as [|c0 cs]; [discriminate|]. rewrite R.
    destruct (write_jobs reload (resuming c) (c0 :: cs) d) as [d2 [dirs|]] eqn:Ew; cbn -[write_jobs]; [|discriminate].
    intros [= <- <-]. exists (c0 :: cs), t, dirs. cbn -[write_jobs]. repeat apply conj; auto. discriminate.
  Qed.

  Lemma prepare_Ok : forall (c : cfg) d d' root,
    prepare_multijob_output c d = (d', Ok root) ->
    dget "out_dir" c = Some (VStr root) /\
    (In root (d_dirs d) /\ resuming c = true /\ d' = d \/ ~ In root (d_dirs d) /\ d' = mkdir root d).
  Proof.
    intros c d d' root. unfold prepare_multijob_output.
    destruct (dget "out_dir" c) as [v|]; [|discriminate]. destruct v as [| | | |r| |]; try discriminate.
    destruct (is_dir r d) eqn:E.
    - destruct (resuming c); [|discriminate]. intros [= <- <-]. split; [reflexivity|left].
      repeat split. apply is_dir_iff. exact E.
    - intros [= <- <-]. split; [reflexivity|right]. split; [|reflexivity]. rewrite <- is_dir_iff. congruence.
  Qed.

  Lemma ibind_Ok : forall {T U} (m : io (F:=F) T) (f : disk F -> T -> io U) d u,
    ibind m f = (d, Ok u) -> exists d1 t, m = (d1, Ok t) /\ f d1 t = (d, Ok u).
  Proof. intros T U [d1 [t|e]] f d u; cbn; [eauto|discriminate]. Qed.

  (** *** Matrix *)

  Theorem matrix_jobs : forall seeds reload (c md : cfg) m root d d' p,
    well_formed c -> well_formed md ->
    dget "matrix" c = Some (VDict md) -> matrix_reads md m -> ~ In "ensemble" (dkeys c) ->
    dget "out_dir" c = Some (VStr root) ->
    construct_file_list seeds reload c d = (d', Ok p) ->
    cartesian (ddel "matrix" c) root m (pl_configs p).
  Proof.
    intros seeds reload c md m root d d' p Wc Wm Hm Hr He Ho H.
    assert (Hs : ~ In "set" (dkeys c)).
    { intros C. revert H. unfold construct_file_list, prelim_config_parsing.
      apply dmem_iff in C. rewrite C, (present _ _ _ Hm). discriminate. }
    rewrite (construct_matrix _ _ _ _ _ Hm Hs He) in H.
    apply ibind_Ok in H. destruct H as (d1 & r & Hp & Hf).
    apply prepare_Ok in Hp. destruct Hp as [Ho' _]. assert (r = root) by congruence. subst r.
    apply finish_Ok in Hf. destruct Hf as (cs & t & dirs & E & _ & Ecs & _).
    apply expand_matrix_Ok in E. destruct E as (md' & m' & Em & Hr' & _ & _ & O & Er).
    assert (md' = md) by congruence. subst md'.
    assert (m' = m) by (eapply matrix_reads_fun; eassumption). subst m'.
    injection Er as _ -> _. rewrite Ecs. apply matrix_cartesian; [|exact O].
    rewrite (matrix_reads_keys _ _ Hr). exact Wm.
  Qed.

  Lemma combinations_pos : forall m : matrix (F:=F),
    (forall k vs, In (k, vs) m -> vs <> []) <-> (0 < combinations m)%nat.
  Proof.
    induction m as [|[k vs] m IH]; cbn; [split; [lia|intros _ ? ? []]|]. split.
    - intros H. assert (0 < combinations m)%nat by (apply IH; intros; eapply H; right; eassumption).
      assert (vs <> []) by (eapply H; left; reflexivity). destruct vs; cbn; [congruence|lia].
    - intros H k0 vs0 [E|E].
      + injection E as <- <-. intros ->. cbn in H. lia.
      + assert (0 < combinations m)%nat by nia. apply (proj2 IH H0 k0 vs0 E).
  Qed.

  Lemma matrix_combs_length : forall m : matrix (F:=F), List.length (matrix_combs m) = combinations m.
  Proof. intros. unfold matrix_combs. rewrite map_length. apply product_same_length. Qed.

  Lemma job_folders : forall (fixed : cfg) root combs n, (forall kvs, In kvs combs -> NoDup (dkeys kvs) /\ ~ In "out_dir" (dkeys kvs)) ->
    Forall2 (fun c f => dget "out_dir" c = Some (VStr f)) (job_configs fixed root n combs)
      (map (fun i => join root (job_id i)) (seq n (List.length combs))).
  Proof.
    induction combs as [|kvs combs IH]; intros n H; cbn; [constructor|]. constructor.
    - destruct (H kvs) as [N O]; [left; reflexivity|]. rewrite job_config_get by exact N.
      apply dget_None in O. rewrite O. reflexivity.
    - apply IH. intros; apply H; right; assumption.
  Qed.

  Lemma NoDup_folders : forall root n l, NoDup (map (fun i => join root (job_id i)) (seq n l)).
  Proof.
    intros. apply FinFun.Injective_map_NoDup; [|apply seq_NoDup]. intros i j H. eapply folder_inj; exact H.
  Qed.

  (** *** Which matrices are accepted *)
  Theorem matrix_accepted : forall seeds reload (c : cfg) v root d,
    well_formed c -> (forall md, v = VDict md -> well_formed md) ->
    dget "matrix" c = Some v -> ~ In "set" (dkeys c) -> ~ In "ensemble" (dkeys c) ->
    dget "out_dir" c = Some (VStr root) -> fresh root d ->
    ((exists md m, v = VDict md /\ matrix_reads md m /\ acceptable (ddel "matrix" c) m) ->
       exists d' p, construct_file_list seeds reload c d = (d', Ok p)) /\
    (~ (exists md m, v = VDict md /\ matrix_reads md m /\ acceptable (ddel "matrix" c) m) ->
       exists d' e, construct_file_list seeds reload c d = (d', Err e) /\ (e = ValueError \/ e = TypeError)).
  Proof.
    intros seeds reload c v root d Wc Wm Hm Hs He Ho [Fr Fj].
    rewrite (construct_matrix _ _ _ _ _ Hm Hs He).
    unfold prepare_multijob_output. rewrite Ho.
    assert (E : is_dir root d = false).
    { destruct (is_dir root d) eqn:E; [|reflexivity]. apply is_dir_iff in E. contradiction. }
    rewrite E. cbn [ibind].
    assert (Wr : forall m, NoDup (map fst m) -> ~ In "out_dir" (map fst m) -> m <> [] -> matrix_combs m <> [] ->
      exists d', write_job_configs reload (ddel "matrix" c) (job_configs (ddel "matrix" c) root 0 (matrix_combs m)) (mkdir root d)
        = (d', Ok (map (fun i => join root (job_id i)) (seq 0 (List.length (matrix_combs m)))))).
    { intros m Nm Om _ Hne.
      assert (K : forall kvs, In kvs (matrix_combs m) -> NoDup (dkeys kvs) /\ ~ In "out_dir" (dkeys kvs)).
      { intros kvs H. apply matrix_combs_keys in H. rewrite H. auto. }
      destruct (write_jobs_fresh reload (resuming (ddel "matrix" c)) _ _ (mkdir root d) (job_folders (ddel "matrix" c) root _ 0 K)) as [d' E'].
      - apply NoDup_folders.
      - intros f Hf. apply in_map_iff in Hf. destruct Hf as [i [<- _]]. cbn. intros [C|C].
        + symmetry in C. exact (join_not_root _ _ C).
        + exact (Fj i C).
      - exists d'. rewrite <- E'. unfold write_job_configs.
        destruct (matrix_combs m); [congruence|reflexivity]. }
    split.
    - intros (md & m & -> & Hr & Ac).
      assert (Km := matrix_reads_keys _ _ Hr).
      assert (C : checked (ddel "matrix" c) m).
      { split; [apply (ac_flat _ _ Ac)|apply (ac_keys _ _ Ac)|apply (ac_fixed _ _ Ac)]. }
      assert (Em : check_matrix (ddel "matrix" c) md = Ok m) by (apply check_matrix_iff; auto).
      unfold finish, expand_matrix. rewrite Hm.
      assert (Eo : dmem "out_dir" md = false).
      { apply absent. rewrite <- Km. apply (ac_folder _ _ Ac). }
      rewrite Eo, Em. cbn [rbind]. assert (Hne := ac_some _ _ Ac).
      destruct m as [|km m]; [congruence|]. fold (matrix_combs (km :: m)). set (m1 := km :: m) in *.
      destruct (Wr m1) as [d' E'].
      + rewrite Km. apply Wm. reflexivity.
      + apply (ac_folder _ _ Ac).
      + exact Hne.
      + intros C0. assert (L := matrix_combs_length m1). rewrite C0 in L. cbn in L.
        assert (0 < combinations m1)%nat by (apply combinations_pos; apply (ac_values _ _ Ac)). unfold m1 in *. cbn in *. lia.
      + rewrite E'. cbn. eauto.
    - intros Hno. unfold finish, expand_matrix. rewrite Hm.
      destruct v as [| | | | | |md]; try (do 2 eexists; split; [reflexivity|auto]).
      destruct (dmem "out_dir" md) eqn:Eo; [do 2 eexists; split; [reflexivity|auto]|].
      destruct (check_matrix (ddel "matrix" c) md) as [m|e] eqn:Em; cbn [rbind].
      2:{ do 2 eexists. split; [reflexivity|]. eapply check_matrix_err; exact Em. }
      destruct (proj1 (check_matrix_iff _ _ _) Em) as [Hr C].
      destruct m as [|km m]; [do 2 eexists; split; [reflexivity|auto]|].
      fold (matrix_combs (km :: m)). set (m1 := km :: m) in *.
      destruct (matrix_combs m1) as [|x xs] eqn:Ex.
      + cbn. do 2 eexists. split; [reflexivity|auto].
      + exfalso. apply Hno. exists md, m1. split; [reflexivity|]. split; [exact Hr|].
        split; [discriminate| |apply (ck_flat _ _ C)|apply (ck_keys _ _ C)|apply (ck_fixed _ _ C)|].
        * apply combinations_pos. rewrite <- matrix_combs_length, Ex. cbn. lia.
        * rewrite (matrix_reads_keys _ _ Hr). rewrite <- dmem_iff. congruence.
  Qed.

  (** *** Job files *)

  Theorem job_files : forall seeds reload (c : cfg) d d' p,
    well_formed c -> disk_ok d -> ~ asks_resume c -> multi_job c ->
    construct_file_list seeds reload c d = (d', Ok p) ->
    exists dirs,
      pl_files p = map JobFile dirs /\ NoDup dirs /\ (forall f, In f dirs -> ~ In f (d_dirs d)) /\
      List.length dirs = List.length (pl_configs p) /\
      forall i f j, nth_error dirs i = Some f -> nth_error (pl_configs p) i = Some j ->
        dget "out_dir" j = Some (VStr f) /\
        exists file, dget f (d_jobs d') = Some file /\
          forall k, dget k file = option_map reload (dget k j).
  Proof.
    intros seeds reload c d d' p Wc Hd Hr M H.
    destruct (construct_cases seeds reload c d) as [[e E]|[[c' E]|(mat & c' & E & Er & Eo & Wc')]].
    - congruence.
    - exfalso. exact (construct_single_only _ _ _ _ _ _ E M).
    - specialize (Wc' Wc). rewrite E in H. clear E.
      assert (Hr' : resuming c' = false).
      { destruct (resuming c') eqn:X; [|reflexivity]. apply resuming_iff in X. unfold asks_resume in *. congruence. }
      apply ibind_Ok in H. destruct H as (d1 & root & Hp & Hf).
      apply prepare_Ok in Hp. destruct Hp as [_ [[_ [X _]]|[Hn ->]]]; [congruence|].
      apply finish_Ok in Hf. destruct Hf as (cs & t & dirs & Ex & _ & Ecs & Ef & _ & Ew).
      rewrite Hr' in Ew. apply write_jobs_Ok in Ew; [|apply disk_ok_mkdir; exact Hd].
      destruct Ew as (H1 & H2 & H3 & H4). exists dirs. rewrite Ecs.
      assert (HL : List.length dirs = List.length cs) by (clear -H1; induction H1; cbn; congruence).
      repeat apply conj; auto.
      + intros f Hf C. apply (H3 f Hf). cbn. auto.
      + intros i f j Hf Hj. split.
        * clear -H1 Hf Hj. revert i Hf Hj. induction H1; intros [|i]; cbn; try discriminate; try congruence. apply IHForall2.
        * exists (loaded reload j). split; [eapply H4; eassumption|]. intros k. apply loaded_get.
          assert (Nj : forall combs root fixed n, NoDup (dkeys fixed) -> forall x, In x (job_configs (F:=F) fixed root n combs) -> NoDup (dkeys x)).
          { induction combs as [|a combs IH]; cbn; intros rt fx n Nf x; [intros []|]. intros [<-|Hx].
            - unfold job_config. apply dupdate_NoDup, dset_NoDup, Nf.
            - eapply IH; eassumption. }
          apply nth_error_In in Hj. destruct mat.
          -- apply expand_matrix_Ok in Ex. destruct Ex as (? & ? & _ & _ & _ & _ & _ & Ex). injection Ex as _ -> _.
             eapply Nj; [|exact Hj]. apply ddel_NoDup, Wc'.
          -- apply expand_set_Ok in Ex. destruct Ex as (? & ? & ? & _ & _ & _ & Ex). injection Ex as _ -> _.
             eapply Nj; [|exact Hj]. apply ddel_NoDup, Wc'.
  Qed.

  (** *** Job table *)

  Lemma table_rows_length : forall (l : list cfg) n, List.length (table_rows n l) = List.length l.
  Proof. induction l; cbn; intros; [reflexivity|]. rewrite IHl. reflexivity. Qed.

  Theorem matrix_table : forall seeds reload (c md : cfg) d d' p,
    well_formed md -> dget "matrix" c = Some (VDict md) -> ~ In "ensemble" (dkeys c) ->
    construct_file_list seeds reload c d = (d', Ok p) ->
    exists header rows, pl_table p = Some ("job_id" :: header, rows) /\ header = dkeys md /\
      List.length rows = List.length (pl_configs p) /\
      forall i row j, nth_error rows i = Some row -> nth_error (pl_configs p) i = Some j ->
        exists vals, row = VStr (job_id i) :: vals /\ List.length vals = List.length header /\
        forall n k v, nth_error header n = Some k -> nth_error vals n = Some v -> dget k j = Some v.
  Proof.
    intros seeds reload c md d d' p Wm Hm He H.
    assert (Hs : ~ In "set" (dkeys c)).
    { intros C. revert H. unfold construct_file_list, prelim_config_parsing.
      apply dmem_iff in C. rewrite C, (present _ _ _ Hm). discriminate. }
    rewrite (construct_matrix _ _ _ _ _ Hm Hs He) in H.
    apply ibind_Ok in H. destruct H as (d1 & root & Hp & Hf).
    apply finish_Ok in Hf. destruct Hf as (cs & t & dirs & E & _ & Ecs & _ & Et & _).
    apply expand_matrix_Ok in E. destruct E as (md' & m & Em & Hr & _ & _ & O & Er).
    assert (md' = md) by congruence. subst md'. injection Er as _ -> ->.
    assert (Km := matrix_reads_keys _ _ Hr). exists (map fst m), (table_rows 0 (matrix_combs m)).
    rewrite Et, Ecs. repeat apply conj; auto.
    - rewrite job_configs_length. apply table_rows_length.
    - intros i row j Hrow Hj. rewrite table_rows_nth in Hrow. rewrite job_configs_nth in Hj.
      destruct (nth_error (matrix_combs m) i) as [kvs|] eqn:Ek; [|discriminate]. cbn in Hrow, Hj.
      injection Hrow as <-. injection Hj as <-. exists (map snd kvs). split; [reflexivity|].
      apply nth_error_In in Ek. apply matrix_combs_keys in Ek.
      assert (Nk : NoDup (dkeys kvs)) by (rewrite Ek, Km; exact Wm).
      split; [rewrite <- Ek; unfold dkeys; rewrite !map_length; reflexivity|].
      intros n k v Hk Hv. rewrite job_config_get by exact Nk.
      rewrite (In_dget kvs k v Nk); [reflexivity|].
      rewrite <- Ek in Hk. unfold dkeys in Hk. clear -Hk Hv. revert n Hk Hv.
      induction kvs as [|[a b] kvs IH]; intros [|n]; cbn; try discriminate.
      + intros [= ->] [= ->]. auto.
      + intros H1 H2. right. eapply IH; eassumption.
  Qed.

  (** *** Sets *)

  Theorem set_jobs : forall seeds reload (c : cfg) s root d d' p,
    (forall e, In e s -> well_formed e) ->
    dget "set" c = Some (VList (map VDict s)) -> ~ In "ensemble" (dkeys c) ->
    dget "out_dir" c = Some (VStr root) ->
    construct_file_list seeds reload c d = (d', Ok p) ->
    one_per_entry (ddel "set" c) root s (pl_configs p).
  Proof.
    intros seeds reload c s root d d' p Ws Hs He Ho H.
    assert (Hm : ~ In "matrix" (dkeys c)).
    { intros C. revert H. unfold construct_file_list, prelim_config_parsing.
      apply dmem_iff in C. rewrite C, (present _ _ _ Hs). discriminate. }
    rewrite (construct_set _ _ _ _ _ Hs Hm He) in H.
    apply ibind_Ok in H. destruct H as (d1 & r & Hp & Hf).
    apply prepare_Ok in Hp. destruct Hp as [Ho' _]. assert (r = root) by congruence. subst r.
    apply finish_Ok in Hf. destruct Hf as (cs & t & dirs & E & _ & Ecs & _).
    apply expand_set_Ok in E. destruct E as (s1 & s0 & s' & E1 & _ & _ & Er).
    rewrite Hs in E1. injection E1 as E1.
    assert (s = s1).
    { clear -E1. revert s1 E1. induction s as [|a s IH]; intros [|b s1]; cbn; try discriminate; [reflexivity|].
      intros [= -> E]. f_equal. apply IH, E. }
    subst s1. injection Er as _ -> _. rewrite Ecs. apply set_one_per_entry. exact Ws.
  Qed.

  Theorem set_accepted : forall seeds reload (c : cfg) v root d,
    dget "set" c = Some v -> ~ In "matrix" (dkeys c) -> ~ In "ensemble" (dkeys c) ->
    dget "out_dir" c = Some (VStr root) -> fresh root d ->
    ((exists s, v = VList (map VDict s) /\ usable s /\
        forall e, In e s -> well_formed e /\ ~ In "out_dir" (dkeys e)) ->
       exists d' p, construct_file_list seeds reload c d = (d', Ok p)) /\
    (~ (exists s, v = VList (map VDict s) /\ usable s) ->
       exists d' e, construct_file_list seeds reload c d = (d', Err e)).
  Proof.
    intros seeds reload c v root d Hs Hm He Ho [Fr Fj].
    rewrite (construct_set _ _ _ _ _ Hs Hm He).
    unfold prepare_multijob_output. rewrite Ho.
    assert (E : is_dir root d = false).
    { destruct (is_dir root d) eqn:E; [|reflexivity]. apply is_dir_iff in E. contradiction. }
    rewrite E. cbn [ibind]. unfold finish. split.
    - intros (s & -> & U & W). destruct s as [|s0 s']; [destruct (us_some _ U); reflexivity|].
      assert (Ex : expand_set root c = Ok (ddel "set" c, job_configs (ddel "set" c) root 0 (s0 :: s'), ("job_id" :: dkeys s0, table_rows 0 (s0 :: s')))).
      { apply expand_set_Ok. exists (s0 :: s'), s0, s'. auto. }
      rewrite Ex.
      destruct (write_jobs_fresh reload (resuming (ddel "set" c)) _ _ (mkdir root d) (job_folders (ddel "set" c) root (s0 :: s') 0 W)) as [d' E'].
      + apply NoDup_folders.
      + intros f Hf. apply in_map_iff in Hf. destruct Hf as [i [<- _]]. cbn. intros [C|C].
        * symmetry in C. exact (join_not_root _ _ C).
        * exact (Fj i C).
      + unfold write_job_configs. cbn [job_configs] in *. rewrite E'. cbn. eauto.
    - intros Hno. destruct (expand_set root c) as [r|e] eqn:Ex; [|eauto].
      apply expand_set_Ok in Ex. destruct Ex as (s & s0 & s' & Es & _ & U & _).
      exfalso. apply Hno. exists s. split; [congruence|exact U].
  Qed.

  (** *** Ensembles *)

  Lemma as_pyint_VInt : forall z, as_pyint (F:=F) (VInt z) = Some z.
  Proof. reflexivity. Qed.

  Theorem ensemble_of_set : forall seeds reload (c : cfg) n s root d d' p,
    (forall e, In e s -> well_formed e) ->
    dget "ensemble" c = Some (VInt (Z.of_nat n)) -> n <> 1%nat ->
    dget "set" c = Some (VList (map VDict s)) ->
    dget "out_dir" c = Some (VStr root) ->
    construct_file_list seeds reload c d = (d', Ok p) ->
    copies_per_entry n seeds (ddel "set" (ddel "ensemble" c)) root s (pl_configs p).
  Proof.
    intros seeds reload c n s root d d' p Ws He Hn Hs Ho H.
    revert H. unfold construct_file_list, prelim_config_parsing.
    destruct (dmem "set" c && dmem "matrix" c)%bool eqn:Esm; [discriminate|].
    assert (Hm : dmem "matrix" c = false) by (rewrite (present _ _ _ Hs) in Esm; exact Esm).
    cbn [rbind f_ensemble]. rewrite (present _ _ _ He), (present _ _ _ Hs), Hm.
    unfold expand_ensemble. rewrite He, as_pyint_VInt.
    replace (Z.of_nat n =? 1)%Z with false by (symmetry; apply Z.eqb_neq; lia).
    cbn [f_set]. rewrite dget_ddel. cbn [String.eqb Ascii.eqb Bool.eqb]. rewrite Hs. cbn [as_seq rbind].
    rewrite Nat2Z.id, ensemble_set_map. cbn [rbind f_ensemble f_set f_matrix orb].
    intros H. apply ibind_Ok in H. destruct H as (d1 & r & Hp & Hf).
    apply prepare_Ok in Hp. destruct Hp as [Ho' _].
    rewrite dget_dset, !dget_ddel in Ho'. cbn [String.eqb Ascii.eqb Bool.eqb] in Ho'.
    assert (r = root) by congruence. subst r.
    apply (finish_Ok reload false) in Hf. destruct Hf as (cs & t & dirs & E & _ & Ecs & _).
    apply expand_set_Ok in E. destruct E as (s1 & s0 & s' & E1 & _ & _ & Er).
    rewrite dget_dset, String.eqb_refl in E1. injection E1 as E1.
    assert (set_copies seeds 0 n s = s1).
    { clear -E1. revert s1 E1. induction (set_copies seeds 0 n s) as [|a l IH]; intros [|b s1]; cbn; try discriminate; [reflexivity|].
      intros [= -> E]. f_equal. apply IH, E. }
    subst s1. injection Er as _ -> _. rewrite Ecs, ddel_dset_ddel. apply copies_lemma. exact Ws.
  Qed.

  Lemma matrix_reads_snoc : forall (d : cfg) m k v vs, matrix_reads d m -> value_list v vs ->
    matrix_reads (d ++ [(k, v)])%list (m ++ [(k, vs)])%list.
  Proof.
    intros d m k v vs H V. apply Forall2_app; [exact H|]. constructor; [split; [reflexivity|exact V]|constructor].
  Qed.

  Lemma matrix_reads_app_inv : forall (d e : cfg) m, matrix_reads (d ++ e)%list m ->
    exists m1 m2, m = (m1 ++ m2)%list /\ matrix_reads d m1 /\ matrix_reads e m2.
  Proof.
    intros d e m H. apply Forall2_app_inv_l in H. destruct H as (m1 & m2 & H1 & H2 & ->). eauto.
  Qed.

  Theorem ensemble_of_matrix : forall seeds reload (c md : cfg) m n root d d' p,
    well_formed md -> ~ In "set" (dkeys c) ->
    dget "ensemble" c = Some (VInt (Z.of_nat n)) -> n <> 1%nat ->
    (dget "matrix" c = Some (VDict md) \/ ~ In "matrix" (dkeys c) /\ md = []) -> matrix_reads md m ->
    dget "out_dir" c = Some (VStr root) ->
    construct_file_list seeds reload c d = (d', Ok p) ->
    cartesian_copies n seeds (ddel "matrix" (ddel "ensemble" c)) root m (pl_configs p).
  Proof.
    intros seeds reload c md m n root d d' p Wm Hs He Hn Hm Hr Ho H.
    revert H. unfold construct_file_list.
    rewrite prelim_Ok by tauto. cbn [rbind f_ensemble].
    rewrite (present _ _ _ He), (absent _ _ Hs).
    unfold expand_ensemble. rewrite He, as_pyint_VInt.
    replace (Z.of_nat n =? 1)%Z with false by (symmetry; apply Z.eqb_neq; lia).
    cbn [f_set]. rewrite dget_ddel. cbn [String.eqb Ascii.eqb Bool.eqb].
    replace (match dget "matrix" c with Some m => m | None => VDict [] end) with (VDict md).
    2:{ destruct Hm as [->|[Hm ->]]; [reflexivity|]. apply dget_None in Hm. rewrite Hm. reflexivity. }
    destruct (dmem "seed" md) eqn:Esd; [discriminate|].
    assert (Sd : ~ In "seed" (dkeys md)) by (rewrite <- dmem_iff; congruence).
    rewrite (dset_new "seed") by exact Sd.
    rewrite Nat2Z.id. cbn [rbind f_ensemble f_set f_matrix orb].
    intros H. apply ibind_Ok in H. destruct H as (d1 & r & Hp & Hf).
    apply prepare_Ok in Hp. destruct Hp as [Ho' _].
    rewrite dget_dset, !dget_ddel in Ho'. cbn [String.eqb Ascii.eqb Bool.eqb] in Ho'.
    assert (r = root) by congruence. subst r.
    apply (finish_Ok reload true) in Hf. destruct Hf as (cs & t & dirs & E & _ & Ecs & _).
    apply expand_matrix_Ok in E. destruct E as (md' & m' & Em & Hr' & _ & _ & O & Er).
    rewrite dget_dset, String.eqb_refl in Em. injection Em as <-.
    assert (m' = (m ++ [("seed", seed_values seeds 0 n)])%list).
    { eapply matrix_reads_fun; [exact Hr'|]. apply matrix_reads_snoc; [exact Hr|]. constructor. }
    subst m'. injection Er as _ -> _. rewrite Ecs, ddel_dset_ddel.
    assert (Km := matrix_reads_keys _ _ Hr).
    apply matrix_copies.
    - rewrite Km. exact Wm.
    - intros C. apply O. rewrite map_app, in_app_iff. auto.
    - rewrite Km. exact Sd.
  Qed.

  Theorem ensemble_of_one : forall seeds reload (c : cfg) v d,
    dget "ensemble" c = Some v -> v = VInt 1 \/ v = VBool true ->
    construct_file_list seeds reload c d = construct_file_list seeds reload (ddel "ensemble" c) d.
  Proof.
    intros seeds reload c v d He Hv. unfold construct_file_list, prelim_config_parsing.
    assert (K : forall k, k <> "ensemble" -> dmem k (ddel "ensemble" c) = dmem k c).
    { intros k N. unfold dmem. rewrite dget_ddel. apply String.eqb_neq in N. rewrite N. reflexivity. }
    rewrite !K by discriminate.
    assert (K' : dmem "ensemble" (ddel "ensemble" c) = false).
    { unfold dmem. rewrite dget_ddel. reflexivity. }
    rewrite K', (present _ _ _ He).
    destruct (dmem "set" c && dmem "matrix" c)%bool; [reflexivity|]. cbn [rbind f_ensemble].
    unfold expand_ensemble. rewrite He.
    assert (E : as_pyint v = Some 1%Z) by (destruct Hv as [-> | ->]; reflexivity).
    rewrite E. reflexivity.
  Qed.

  Theorem ensemble_refused : forall seeds reload (c : cfg) v d,
    dget "ensemble" c = Some v ->
    (forall z, v = VInt z -> (z <= 0)%Z) -> v <> VBool true ->
    exists d' e, construct_file_list seeds reload c d = (d', Err e).
  Proof.
    intros seeds reload c v d He Hz Hb. unfold construct_file_list, prelim_config_parsing.
    destruct (dmem "set" c && dmem "matrix" c)%bool eqn:Esm; [cbn; eauto|].
    cbn [rbind f_ensemble]. rewrite (present _ _ _ He). unfold expand_ensemble. rewrite He.
    destruct (as_pyint v) as [z|] eqn:Ev; [|eauto].
    assert (Z0 : Z.to_nat z = 0%nat /\ (z =? 1)%Z = false).
    { destruct v as [|[|]|z'| | | |]; cbn in Ev; try discriminate; try congruence.
      - injection Ev as <-. split; reflexivity.
      - injection Ev as <-. specialize (Hz _ eq_refl). split; [lia|]. apply Z.eqb_neq. lia. }
    destruct Z0 as [Z0 Z1]. rewrite Z1, Z0. cbn [f_set].
    destruct (dmem "set" c) eqn:Es.
    - destruct (dget "set" (ddel "ensemble" c)) as [old|]; [|eauto].
      destruct (as_seq old) as [l|]; cbn [rbind]; [|eauto].
      assert (E0 : ensemble_set seeds 0 0 l = Ok []).
      { generalize 0%nat at 1. induction l as [|a l IH]; intros k; cbn; [reflexivity|]. rewrite IH. reflexivity. }
      rewrite E0. cbn [rbind f_ensemble f_set f_matrix orb].
      destruct (prepare_multijob_output _ d) as [d1 [root|e]]; cbn [ibind]; [|eauto].
      cbn [andb] in Esm. rewrite Esm.
      unfold expand_set. rewrite dget_dset, String.eqb_refl. cbn. eauto.
    - set (m := match dget "matrix" (ddel "ensemble" c) with Some m => m | None => VDict [] end).
      destruct m as [| | | | | |m]; try (do 2 eexists; reflexivity).
      destruct (dmem "seed" m) eqn:Esd; [eauto|]. cbn [rbind f_ensemble f_set f_matrix orb].
      destruct (prepare_multijob_output _ d) as [d1 [root|e]]; cbn [ibind]; [|eauto].
      destruct (expand_matrix root _) as [[[c1 cs] t]|e] eqn:Ex; [|eauto].
      apply expand_matrix_Ok in Ex. destruct Ex as (md & m' & Em & Hr & _ & _ & _ & Er).
      rewrite dget_dset, String.eqb_refl in Em. injection Em as <-.
      rewrite dset_new in Hr by (rewrite <- dmem_iff; congruence).
      apply matrix_reads_app_inv in Hr. destruct Hr as (m1 & m2 & -> & _ & H2).
      inversion H2 as [|? km ? ? [Hk Hv] H3]; subst. inversion H3; subst.
      cbn in Hv. inversion Hv; subst. destruct km as [k vs]. cbn in *. subst.
      injection Er as _ -> _.
      assert (L := matrix_combs_length (m1 ++ [("seed", [])])%list).
      rewrite combinations_snoc in L. cbn in L. rewrite Nat.mul_0_r in L. apply length_zero_iff_nil in L.
      rewrite L. cbn. eauto.
  Qed.

  Theorem ensemble_fixed_seed : forall seeds reload (c : cfg) z d,
    dget "ensemble" c = Some (VInt z) -> z <> 1%Z -> ~ In "set" (dkeys c) -> In "seed" (dkeys c) ->
    exists d' e, construct_file_list seeds reload c d = (d', Err e).
  Proof.
    intros seeds reload c z d He Hz Hs Hseed. unfold construct_file_list.
    rewrite prelim_Ok by tauto. cbn [rbind f_ensemble]. rewrite (present _ _ _ He), (absent _ _ Hs).
    unfold expand_ensemble. rewrite He, as_pyint_VInt. apply Z.eqb_neq in Hz. rewrite Hz. cbn [f_set].
    set (m := match dget "matrix" (ddel "ensemble" c) with Some m => m | None => VDict [] end).
    destruct m as [| | | | | |m]; try (do 2 eexists; reflexivity).
    destruct (dmem "seed" m) eqn:Esd; [eauto|]. cbn [rbind f_ensemble f_set f_matrix orb].
    destruct (prepare_multijob_output _ d) as [d1 [root|e]]; cbn [ibind]; [|eauto].
    destruct (expand_matrix root _) as [[[c1 cs] t]|e] eqn:Ex; [|eauto].
    exfalso. apply expand_matrix_Ok in Ex. destruct Ex as (md & m' & Em & Hr & _ & C & _).
    rewrite dget_dset, String.eqb_refl in Em. injection Em as <-.
    apply (ck_fixed _ _ C "seed").
    - rewrite (matrix_reads_keys _ _ Hr). apply In_dset_keys. auto.
    - rewrite ddel_dset_ddel, !ddel_keys. repeat split; try discriminate. exact Hseed.
  Qed.

  Theorem set_with_matrix : forall seeds reload (c : cfg) d,
    In "set" (dkeys c) -> In "matrix" (dkeys c) ->
    construct_file_list seeds reload c d = (d, Err ValueError).
  Proof.
    intros seeds reload c d Hs Hm. apply dmem_iff in Hs. apply dmem_iff in Hm.
    unfold construct_file_list, prelim_config_parsing. rewrite Hs, Hm. reflexivity.
  Qed.

  (** *** Arguments over the file *)

  Theorem merged_get : forall (file : option cfg) (args : cfg) k,
    (forall f, file = Some f -> well_formed f) -> well_formed args ->
    dget k (merged file args) =
    match dget k args with
    | Some v => Some v
    | None => match file with Some f => dget k f | None => None end
    end.
  Proof.
    intros file args k Wf Wa. unfold merged. rewrite dget_dupdate by exact Wa.
    destruct (dget k args); [reflexivity|]. destruct file as [f|]; [|reflexivity].
    rewrite dget_dupdate by (apply Wf; reflexivity). destruct (dget k f); reflexivity.
  Qed.
End Cor.
