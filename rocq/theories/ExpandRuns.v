(** Proofs about construct_file_list: ensembles, folders and files. *)
From Coq Require Import ZArith NArith List Bool String Ascii Lia FinFun.
From Verif Require Import Base Dict Text Config Expand ExpandSpec ExpandProofs.
Import ListNotations.
Local Open Scope string_scope.

Lemma nth_flat_map_const : forall {A B} (f : A -> list B) n l i j,
  (forall x, In x l -> List.length (f x) = n) -> (j < n)%nat ->
  nth_error (flat_map f l) (i * n + j) =
  match nth_error l i with Some x => nth_error (f x) j | None => None end.
Proof.
  induction l as [|x l IH]; intros i j H Hj.
  - cbn. destruct (i * n + j)%nat, i; reflexivity.
  - cbn [flat_map]. destruct i as [|i].
    + cbn. apply nth_error_app1. rewrite H by (left; reflexivity). exact Hj.
    + rewrite nth_error_app2 by (rewrite H by (left; reflexivity); nia).
      rewrite H by (left; reflexivity). replace (S i * n + j - n)%nat with (i * n + j)%nat by lia.
      cbn [nth_error]. apply IH; [intros; apply H; right; assumption|exact Hj].
Qed.

Lemma product_snoc : forall {T} (L : list (list T)) x,
  product (L ++ [x])%list = flat_map (fun p => map (fun v => p ++ [v])%list x) (product L).
Proof.
  induction L as [|l L IH]; intros x; cbn.
  - rewrite app_nil_r. induction x; cbn; congruence.
  - induction l as [|v l IHl]; cbn; [reflexivity|].
    rewrite IHl, flat_map_app. f_equal.
    rewrite IH, map_flat_map, flat_map_map. apply flat_map_ext. intros p. rewrite map_map. reflexivity.
Qed.

Section Runs.
  Context {F : Type}.
  Notation value := (value F).
  Notation cfg := (dict value).

  (** ** Dictionaries *)

  Lemma dset_new : forall k (v : value) d, ~ In k (dkeys d) -> dset k v d = (d ++ [(k, v)])%list.
  Proof.
    induction d as [|[k' v'] d IH]; cbn; intros H; [reflexivity|].
    destruct (String.eqb_spec k k') as [->|N]; [exfalso; apply H; auto|]. rewrite IH; auto.
  Qed.

  Lemma ddel_absent : forall k (d : cfg), ~ In k (dkeys d) -> ddel k d = d.
  Proof.
    unfold ddel. induction d as [|[k' v'] d IH]; cbn; intros H; [reflexivity|].
    destruct (String.eqb_spec k k') as [->|N]; [exfalso; apply H; auto|]. cbn. rewrite IH; auto.
  Qed.

  Lemma ddel_dset_ddel : forall k (v : value) d, ddel k (dset k v (ddel k d)) = ddel k d.
  Proof.
    intros k v d. assert (N : ~ In k (dkeys (ddel k d))) by (rewrite ddel_keys; tauto).
    rewrite dset_new by exact N. unfold ddel at 1. rewrite filter_app.
    change (filter (fun kv : string * value => negb (String.eqb k (fst kv))) (ddel k d)) with (ddel k (ddel k d)).
    rewrite ddel_absent by exact N. cbn. rewrite String.eqb_refl. cbn. apply app_nil_r.
  Qed.

  (** ** Ensembles *)

  Lemma seed_values_length : forall seeds k n, List.length (seed_values (F:=F) seeds k n) = n.
  Proof. intros. unfold seed_values. rewrite map_length, seq_length. reflexivity. Qed.

  Lemma seed_values_nth : forall seeds k n j, (j < n)%nat ->
    nth_error (seed_values (F:=F) seeds k n) j = Some (VInt (seeds (k + j)%nat)).
  Proof.
    intros. unfold seed_values.
    erewrite map_nth_error; [reflexivity|].
    rewrite nth_error_nth' with (d := 0%nat) by (rewrite seq_length; lia).
    rewrite seq_nth by lia. reflexivity.
  Qed.

  (** The entries of an ensemble of a set. *)
  Fixpoint set_copies (seeds : nat -> Z) (k n : nat) (s : list cfg) : list cfg :=
    match s with
    | [] => []
    | e :: s' => (map (fun v => dset "seed" v e) (seed_values seeds k n) ++ set_copies seeds (k + n) n s')%list
    end.

  Lemma ensemble_set_map : forall seeds n s k,
    ensemble_set (F:=F) seeds k n (map VDict s) = Ok (map VDict (set_copies seeds k n s)).
  Proof.
    induction s as [|e s IH]; intros k; cbn; [reflexivity|].
    replace (copies seeds k n (VDict e)) with
      (Ok (map VDict (map (fun v => dset "seed" v e) (seed_values seeds k n)))).
    2:{ destruct n; cbn; [reflexivity|]. rewrite !map_map. reflexivity. }
    cbn. rewrite IH. cbn. rewrite map_app. reflexivity.
  Qed.

  Lemma ensemble_set_inv : forall seeds n l k l', (0 < n)%nat ->
    ensemble_set (F:=F) seeds k n l = Ok l' -> exists s, l = map VDict s.
  Proof.
    induction l as [|v l IH]; intros k l' Hn; cbn; [exists []; reflexivity|].
    destruct n as [|n]; [lia|]. destruct v; cbn; try discriminate.
    destruct (ensemble_set seeds (k + S n) (S n) l) as [r|] eqn:E; [|discriminate]. intros _.
    destruct (IH _ _ Hn E) as [s ->]. exists (d :: s). reflexivity.
  Qed.

  Lemma set_copies_length : forall seeds n s k, List.length (set_copies seeds k n s) = (List.length s * n)%nat.
  Proof.
    induction s as [|e s IH]; intros k; cbn; [reflexivity|].
    rewrite app_length, map_length, seed_values_length, IH. reflexivity.
  Qed.

  Lemma set_copies_nth : forall seeds n s k i j, (j < n)%nat ->
    nth_error (set_copies seeds k n s) (i * n + j) =
    option_map (dset "seed" (VInt (seeds (k + i * n + j)%nat))) (nth_error s i).
  Proof.
    induction s as [|e s IH]; intros k i j Hj; cbn [set_copies].
    - destruct (i * n + j)%nat, i; reflexivity.
    - assert (HL : List.length (map (fun v => dset "seed" v e) (seed_values seeds k n)) = n)
        by (rewrite map_length; apply seed_values_length).
      destruct i as [|i].
      + rewrite nth_error_app1 by (rewrite HL; lia). cbn [nth_error option_map].
        erewrite map_nth_error; [|apply seed_values_nth; lia].
        replace (k + (0 * n + j))%nat with (k + 0 * n + j)%nat by lia. reflexivity.
      + rewrite nth_error_app2 by (rewrite HL; nia). rewrite HL.
        replace (S i * n + j - n)%nat with (i * n + j)%nat by lia.
        rewrite IH by exact Hj. cbn [nth_error].
        replace (k + n + i * n + j)%nat with (k + S i * n + j)%nat by lia. reflexivity.
  Qed.

  Lemma set_copies_In : forall seeds n s k e, In e (set_copies seeds k n s) ->
    exists e0 v, In e0 s /\ e = dset "seed" v e0.
  Proof.
    induction s as [|e0 s IH]; intros k e; cbn; [intros []|].
    rewrite in_app_iff. intros [H|H].
    - apply in_map_iff in H. destruct H as [v [<- _]]. eauto.
    - destruct (IH _ _ H) as (e1 & v & H1 & ->). eauto.
  Qed.

  Lemma copies_lemma : forall n seeds fixed root s, (forall e, In e s -> NoDup (dkeys e)) ->
    copies_per_entry n seeds fixed root s
      (job_configs (F:=F) fixed root 0 (set_copies seeds 0 n s)).
  Proof.
    intros n seeds fixed root s N. split; [rewrite job_configs_length; apply set_copies_length|].
    intros i j e c Hj He Hc. rewrite job_configs_nth, set_copies_nth, He in Hc by exact Hj. cbn in Hc.
    injection Hc as <-.
    assert (Ne : NoDup (dkeys e)) by (apply N; eapply nth_error_In; exact He).
    assert (Ns := dset_NoDup e "seed" (VInt (seeds (i * n + j)%nat)) Ne).
    repeat apply conj.
    - rewrite job_config_get by exact Ns. rewrite dget_dset. reflexivity.
    - intros k v Hs Hk. rewrite job_config_get by exact Ns. rewrite dget_dset.
      apply String.eqb_neq in Hs. rewrite Hs, Hk. reflexivity.
    - intros k Hk Ho Hs. unfold agree. rewrite job_config_get by exact Ns. rewrite dget_dset.
      apply String.eqb_neq in Hs. apply String.eqb_neq in Ho. apply dget_None in Hk.
      rewrite Hs, Ho, Hk. reflexivity.
    - intros Ho. rewrite job_config_get by exact Ns. rewrite dget_dset. apply dget_None in Ho. rewrite Ho. reflexivity.
  Qed.

  Lemma combinations_snoc : forall (m : matrix (F:=F)) k vs,
    combinations (m ++ [(k, vs)])%list = (combinations m * List.length vs)%nat.
  Proof. induction m as [|[k0 v0] m IH]; intros; cbn; [lia|]. rewrite IH. lia. Qed.

  Lemma combine_snoc : forall {A B} (ks : list A) (vs : list B) k v, List.length ks = List.length vs ->
    combine (ks ++ [k]) (vs ++ [v]) = (combine ks vs ++ [(k, v)])%list.
  Proof. induction ks as [|a ks IH]; intros [|b vs] k v; cbn; try discriminate; auto. intros [= H]. rewrite IH; auto. Qed.

  (** Combination [i * n + j] when the last key has [n] values. *)
  Lemma matrix_combs_snoc : forall (m : matrix (F:=F)) k vs i j, (j < List.length vs)%nat ->
    nth_error (matrix_combs (m ++ [(k, vs)])%list) (i * List.length vs + j) =
    match nth_error (matrix_combs m) i, nth_error vs j with
    | Some kvs, Some v => Some (kvs ++ [(k, v)])%list
    | _, _ => None
    end.
  Proof.
    intros m k vs i j Hj. unfold matrix_combs. rewrite !map_app. cbn [map fst snd].
    rewrite product_snoc, map_flat_map, nth_flat_map_const with (n := List.length vs);
      [|intros; rewrite !map_length; reflexivity|exact Hj].
    destruct (nth_error (product (map snd m)) i) as [p|] eqn:Ep.
    - rewrite (map_nth_error _ _ _ Ep).
      destruct (nth_error vs j) as [v|] eqn:Ev; [|apply nth_error_None in Ev; lia].
      rewrite map_map. rewrite (map_nth_error _ _ _ Ev). rewrite combine_snoc; [reflexivity|].
      rewrite (product_elem_length _ _ (nth_error_In _ _ Ep)). apply length_keys.
    - match goal with |- _ = match ?x with _ => _ end => assert (E : x = None) end.
      { apply nth_error_None. rewrite map_length. apply nth_error_None. exact Ep. }
      rewrite E. reflexivity.
  Qed.

  Lemma dget_app_l : forall (a b : cfg) k v, dget k a = Some v -> dget k (a ++ b)%list = Some v.
  Proof.
    induction a as [|[k' v'] a IH]; cbn; [discriminate|]. intros b k v.
    destruct (String.eqb k k'); auto.
  Qed.

  Lemma matrix_copies : forall n seeds fixed root (m : matrix (F:=F)),
    NoDup (map fst m) -> ~ In "out_dir" (map fst m) -> ~ In "seed" (map fst m) ->
    cartesian_copies n seeds fixed root m
      (job_configs fixed root 0 (matrix_combs (m ++ [("seed", seed_values seeds 0 n)])%list)).
  Proof.
    intros n seeds fixed root m N O Sd.
    set (m' := (m ++ [("seed", seed_values seeds 0 n)])%list).
    assert (N' : NoDup (map fst m')).
    { unfold m'. rewrite map_app. apply NoDup_snoc; assumption. }
    assert (O' : ~ In "out_dir" (map fst m')).
    { unfold m'. rewrite map_app, in_app_iff. cbn. intros [C|[C|[]]]; [contradiction|discriminate]. }
    destruct (matrix_cartesian fixed root m' N' O') as (ch & [HN _] & _ & Hfix & Hfold).
    split.
    { rewrite HN. unfold m'. rewrite combinations_snoc, seed_values_length. reflexivity. }
    exists (choice_of m). repeat apply conj.
    - reflexivity.
    - apply numbering_choice.
    - apply numbering_choice.
    - intros i j c Hj Hc. rewrite job_configs_nth in Hc. unfold m' in Hc.
      assert (HS := matrix_combs_snoc m "seed" (seed_values seeds 0 n) i j).
      rewrite seed_values_length in HS. rewrite HS in Hc by exact Hj.
      rewrite seed_values_nth in Hc by exact Hj.
      destruct (nth_error (matrix_combs m) i) as [kvs|] eqn:E; [|discriminate]. cbn in Hc. injection Hc as <-.
      assert (Ek := matrix_combs_keys m kvs (nth_error_In _ _ E)).
      assert (Nk : NoDup (dkeys (kvs ++ [("seed", VInt (seeds j))])%list)).
      { unfold dkeys in *. rewrite map_app. cbn. rewrite Ek. apply NoDup_snoc; assumption. }
      split.
      + intros j' k vs p Hm Hp.
        destruct (proj2 (matrix_combs_chooses m i kvs N E) j' k vs p Hm Hp) as [v [Hv Hg]].
        exists v. split; [exact Hv|]. rewrite job_config_get by exact Nk.
        rewrite (dget_app_l _ _ _ _ Hg). reflexivity.
      + rewrite job_config_get by exact Nk.
        rewrite (In_dget _ "seed" (VInt (seeds j)) Nk); [reflexivity|]. apply in_app_iff. right. left. reflexivity.
    - intros i c k Hc Hk Ho Hs. apply (Hfix i c k Hc); [|exact Ho].
      unfold m'. rewrite map_app, in_app_iff. cbn. intros [C|[C|[]]]; [contradiction|congruence].
    - apply Hfold.
    - apply folder_inj.
  Qed.

  (** ** Writing job folders *)

  Definition loaded (reload : value -> value) (c : cfg) : cfg :=
    dupdate [] (map (fun kv => (fst kv, reload (snd kv))) c).

  Lemma loaded_get : forall reload c k, NoDup (dkeys c) ->
    dget k (loaded reload c) = option_map reload (dget k c).
  Proof.
    intros reload c k N. unfold loaded.
    assert (K : dkeys (map (fun kv : string * value => (fst kv, reload (snd kv))) c) = dkeys c).
    { unfold dkeys. rewrite map_map. reflexivity. }
    rewrite dget_dupdate by (rewrite K; exact N).
    assert (E : dget k (map (fun kv : string * value => (fst kv, reload (snd kv))) c) = option_map reload (dget k c)).
    { clear N K. induction c as [|[k' v] c IH]; cbn; [reflexivity|].
      destruct (String.eqb k k'); [reflexivity|exact IH]. }
    rewrite E. destruct (dget k c); reflexivity.
  Qed.

  Lemma is_dir_iff : forall p (d : disk F), is_dir p d = true <-> In p (d_dirs d).
  Proof.
    intros p d. unfold is_dir. rewrite existsb_exists. split.
    - intros [x [H E]]. apply String.eqb_eq in E. congruence.
    - intros H. exists p. split; [exact H|apply String.eqb_refl].
  Qed.

  Lemma kept_refl : forall d : disk F, kept d d.
  Proof. intros; split; auto. Qed.
  Lemma kept_trans : forall a b c : disk F, kept a b -> kept b c -> kept a c.
  Proof. intros a b c [A1 A2] [B1 B2]; split; auto. Qed.

  Lemma kept_mkdir : forall p (d : disk F), kept d (mkdir p d).
  Proof. intros; split; cbn; auto. Qed.
  Lemma disk_ok_mkdir : forall p (d : disk F), disk_ok d -> disk_ok (mkdir p d).
  Proof. intros p d H q Hq. cbn in *. right. apply H. exact Hq. Qed.

  Lemma append_new : forall reload dir c (d : disk F), dget dir (d_jobs d) = None ->
    append_yaml reload dir c d = mkDisk (d_dirs d) (dset dir (loaded reload c) (d_jobs d)).
  Proof. intros. unfold append_yaml. rewrite H. reflexivity. Qed.

  (** Not resuming: what was there stays, whatever the outcome. *)
  Lemma write_jobs_kept : forall reload cs d d' r, disk_ok d ->
    write_jobs (F:=F) reload false cs d = (d', r) -> kept d d' /\ disk_ok d'.
  Proof.
    induction cs as [|c cs IH]; intros d d' r Hd; cbn.
    - intros [= <- <-]. split; [apply kept_refl|exact Hd].
    - destruct (dget "out_dir" c) as [v|]; [|intros [= <- <-]; split; [apply kept_refl|exact Hd]].
      destruct v as [| | | |dir| |]; try (intros [= <- <-]; split; [apply kept_refl|exact Hd]).
      destruct (is_dir dir d) eqn:E; cbn; [intros [= <- <-]; split; [apply kept_refl|exact Hd]|].
      assert (Nd : ~ In dir (d_dirs d)) by (rewrite <- is_dir_iff; congruence).
      assert (Nj : dget dir (d_jobs (mkdir dir d)) = None).
      { cbn. apply dget_None. intros C. apply Nd, Hd, C. }
      rewrite append_new by exact Nj. set (d1 := mkDisk _ _).
      assert (K1 : kept d d1).
      { split; cbn; auto. intros p c0 Hp. rewrite dget_dset. destruct (String.eqb_spec p dir) as [->|]; [|exact Hp].
        cbn in Nj. congruence. }
      assert (O1 : disk_ok d1).
      { intros p Hp. cbn in *. apply In_dset_keys in Hp. destruct Hp as [->|Hp]; auto. }
      destruct (write_jobs reload false cs d1) as [d2 r2] eqn:E2.
      destruct (IH _ _ _ O1 E2) as [K2 O2].
      destruct r2; cbn; intros [= <- <-]; (split; [eapply kept_trans; eassumption|exact O2]).
  Qed.

  (** Successful writing without resuming. *)
  Lemma write_jobs_Ok : forall reload cs d d' dirs, disk_ok d ->
    write_jobs (F:=F) reload false cs d = (d', Ok dirs) ->
    Forall2 (fun c f => dget "out_dir" c = Some (VStr f)) cs dirs /\ NoDup dirs /\
    (forall f, In f dirs -> ~ In f (d_dirs d)) /\
    (forall i c f, nth_error cs i = Some c -> nth_error dirs i = Some f ->
       dget f (d_jobs d') = Some (loaded reload c)).
  Proof.
    induction cs as [|c cs IH]; intros d d' dirs Hd; cbn.
    - intros [= <- <-]. repeat apply conj; [constructor|constructor|intros ? []|].
      intros [|i] c f; discriminate.
    - destruct (dget "out_dir" c) as [v|] eqn:Ec; [|discriminate].
      destruct v as [| | | |dir| |]; try discriminate.
      destruct (is_dir dir d) eqn:E; cbn; [discriminate|].
      assert (Nd : ~ In dir (d_dirs d)) by (rewrite <- is_dir_iff; congruence).
      assert (Nj : dget dir (d_jobs (mkdir dir d)) = None).
      { cbn. apply dget_None. intros C. apply Nd, Hd, C. }
      rewrite append_new by exact Nj. set (d1 := mkDisk _ _).
      assert (O1 : disk_ok d1).
      { intros p Hp. cbn in *. apply In_dset_keys in Hp. destruct Hp as [->|Hp]; auto. }
      destruct (write_jobs reload false cs d1) as [d2 r2] eqn:E2.
      destruct r2 as [fs|]; cbn; [|discriminate]. intros [= <- <-].
      destruct (IH _ _ _ O1 E2) as (H1 & H2 & H3 & H4).
      destruct (write_jobs_kept _ _ _ _ _ O1 E2) as [[_ K2] _].
      repeat apply conj.
      + constructor; assumption.
      + constructor; [|exact H2]. intros C. apply (H3 _ C). cbn. auto.
      + intros f [<-|Hf]; [exact Nd|]. intros C. apply (H3 _ Hf). cbn. auto.
      + intros [|i] c0 f; cbn.
        * intros [= <-] [= <-]. apply K2. cbn. rewrite dget_dset, String.eqb_refl. reflexivity.
        * apply H4.
  Qed.

  Lemma write_jobs_folders : forall reload resume cs d d' dirs,
    write_jobs (F:=F) reload resume cs d = (d', Ok dirs) ->
    Forall2 (fun c f => dget "out_dir" c = Some (VStr f)) cs dirs.
  Proof.
    induction cs as [|c cs IH]; intros d d' dirs; cbn.
    - intros [= <- <-]. constructor.
    - destruct (dget "out_dir" c) as [v|] eqn:Ec; [|discriminate].
      destruct v as [| | | |dir| |]; try discriminate.
      destruct (is_dir dir d && negb resume); [discriminate|].
      match goal with |- context [ibind (write_jobs ?a ?b ?e ?f) _] => destruct (write_jobs a b e f) as [d2 [fs|]] eqn:E2 end;
        cbn; [|discriminate].
      intros [= <- <-]. constructor; [exact Ec|]. eapply IH; exact E2.
  Qed.

  (** New folders can be written. *)
  Lemma write_jobs_fresh : forall reload resume cs dirs d,
    Forall2 (fun c f => dget "out_dir" c = Some (VStr f)) cs dirs -> NoDup dirs ->
    (forall f, In f dirs -> ~ In f (d_dirs d)) ->
    exists d', write_jobs (F:=F) reload resume cs d = (d', Ok dirs).
  Proof.
    intros reload resume cs dirs d H. revert d. induction H as [|c f cs dirs Hc H IH]; intros d N Fr.
    - exists d. reflexivity.
    - inversion N as [|? ? Nf N']; subst. cbn. rewrite Hc.
      assert (E : is_dir f d = false).
      { destruct (is_dir f d) eqn:E; [|reflexivity]. apply is_dir_iff in E. exfalso. eapply Fr; [left; reflexivity|exact E]. }
      rewrite E. cbn.
      destruct (IH (append_yaml reload f c (mkdir f d)) N') as [d' E'].
      { intros g Hg C. cbn in C. destruct C as [<-|C]; [contradiction|]. eapply Fr; [right; exact Hg|exact C]. }
      rewrite E'. eexists. reflexivity.
  Qed.

  (** ** The whole construction *)

  Lemma prelim_Ok : forall (c : cfg), ~ (In "set" (dkeys c) /\ In "matrix" (dkeys c)) ->
    prelim_config_parsing c = Ok (mkFlags (dmem "set" c) (dmem "matrix" c) (dmem "ensemble" c)).
  Proof.
    intros c H. unfold prelim_config_parsing.
    destruct (dmem "set" c) eqn:E1, (dmem "matrix" c) eqn:E2; cbn; try reflexivity.
    exfalso. apply H. split; apply dmem_iff; assumption.
  Qed.

  Lemma absent : forall k (c : cfg), ~ In k (dkeys c) -> dmem k c = false.
  Proof. intros k c H. destruct (dmem k c) eqn:E; [|reflexivity]. apply dmem_iff in E. contradiction. Qed.
  Lemma present : forall k (c : cfg) v, dget k c = Some v -> dmem k c = true.
  Proof. intros k c v H. unfold dmem. rewrite H. reflexivity. Qed.

  (** After the root folder is prepared. *)
  Definition finish (reload : value -> value) (mat : bool) (c : cfg) (d : disk F) (root : string) : io (plan F) :=
    match (if mat then expand_matrix root c else expand_set root c) with
    | Err e => (d, Err e)
    | Ok (c, cs, t) =>
        ibind (write_job_configs reload c cs d) (fun d dirs =>
          (d, Ok (mkPlan c cs (map JobFile dirs) (Some t))))
    end.

  Lemma construct_matrix : forall seeds reload (c : cfg) d v,
    dget "matrix" c = Some v -> ~ In "set" (dkeys c) -> ~ In "ensemble" (dkeys c) ->
    construct_file_list seeds reload c d = ibind (prepare_multijob_output c d) (finish reload true c).
  Proof.
    intros seeds reload c d v Hm Hs He. unfold construct_file_list.
    rewrite prelim_Ok by tauto. rewrite (absent _ _ Hs), (absent _ _ He), (present _ _ _ Hm). reflexivity.
  Qed.

  Lemma construct_set : forall seeds reload (c : cfg) d v,
    dget "set" c = Some v -> ~ In "matrix" (dkeys c) -> ~ In "ensemble" (dkeys c) ->
    construct_file_list seeds reload c d = ibind (prepare_multijob_output c d) (finish reload false c).
  Proof.
    intros seeds reload c d v Hm Hs He. unfold construct_file_list.
    rewrite prelim_Ok by tauto. rewrite (absent _ _ Hs), (absent _ _ He), (present _ _ _ Hm). reflexivity.
  Qed.

  Lemma construct_single : forall seeds reload (c : cfg) d,
    ~ In "set" (dkeys c) -> ~ In "matrix" (dkeys c) -> ~ In "ensemble" (dkeys c) ->
    construct_file_list seeds reload c d = (d, Ok (mkPlan c [c] [UserFile] None)).
  Proof.
    intros seeds reload c d Hs Hm He. unfold construct_file_list.
    rewrite prelim_Ok by tauto. rewrite (absent _ _ Hs), (absent _ _ He), (absent _ _ Hm). reflexivity.
  Qed.

  (** Every construction is one of: refused before anything is written, a
      single job, or several jobs of a configuration [c'] without
      "ensemble". *)
  Lemma construct_cases : forall seeds reload (c : cfg) d,
    (exists e, construct_file_list seeds reload c d = (d, Err e)) \/
    (exists c', construct_file_list seeds reload c d = (d, Ok (mkPlan c' [c'] [UserFile] None))) \/
    (exists mat c', construct_file_list seeds reload c d = ibind (prepare_multijob_output c' d) (finish reload mat c') /\
       dget "resume_checkpoint" c' = dget "resume_checkpoint" c /\ dget "out_dir" c' = dget "out_dir" c /\
       (well_formed c -> well_formed c')).
  Proof.
    intros seeds reload c d. unfold construct_file_list, well_formed.
    destruct (prelim_config_parsing c) as [fl|e] eqn:Ep; cbn [rbind]; [|left; eauto].
    destruct (f_ensemble fl) eqn:Ef.
    - unfold expand_ensemble. destruct (dget "ensemble" c) as [v|]; [|left; eauto].
      destruct (as_pyint v) as [z|]; [|left; eauto].
      destruct (z =? 1)%Z.
      + cbn [f_ensemble f_set f_matrix orb]. destruct (f_set fl || f_matrix fl)%bool; [|right; left; eauto].
        right; right. exists (f_matrix fl), (ddel "ensemble" c). split; [reflexivity|].
        rewrite !dget_ddel. repeat split. apply ddel_NoDup.
      + destruct (f_set fl) eqn:Es.
        * destruct (dget "set" (ddel "ensemble" c)) as [old|]; [|left; eauto].
          destruct (as_seq old) as [l|]; cbn [rbind]; [|left; eauto].
          destruct (ensemble_set seeds 0 (Z.to_nat z) l) as [l'|]; cbn [rbind]; [|left; eauto].
          rewrite Ef. cbn [orb]. right; right. do 2 eexists. split; [reflexivity|].
          rewrite !dget_dset, !dget_ddel. repeat split. intros W. apply dset_NoDup, ddel_NoDup, ddel_NoDup, W.
        * set (m := match dget "matrix" (ddel "ensemble" c) with Some m => m | None => VDict [] end).
          destruct m as [| | | | | |m]; try (left; eexists; reflexivity).
          destruct (dmem "seed" m); [left; eauto|]. cbn [f_ensemble f_set f_matrix]. rewrite Ef. cbn [orb].
          right; right. exists true; eexists. split; [reflexivity|].
          rewrite !dget_dset, !dget_ddel. repeat split. intros W. apply dset_NoDup, ddel_NoDup, ddel_NoDup, W.
    - cbn [orb]. rewrite Ef. cbn [orb]. destruct (f_set fl || f_matrix fl)%bool; [|right; left; eauto].
      right; right. exists (f_matrix fl), c. repeat split. auto.
  Qed.

  Lemma resuming_iff : forall c : cfg, resuming c = true <-> asks_resume c.
  Proof.
    intros c. unfold resuming, asks_resume. destruct (dget "resume_checkpoint" c) as [v|]; [|split; discriminate].
    destruct v as [|[|]| | | | |]; split; congruence.
  Qed.

  Lemma resuming_ddel : forall k (c : cfg), k <> "resume_checkpoint" -> resuming (ddel k c) = resuming c.
  Proof.
    intros k c N. unfold resuming. rewrite dget_ddel. destruct (String.eqb_spec "resume_checkpoint" k); [congruence|reflexivity].
  Qed.

  Lemma finish_resuming : forall (mat : bool) root (c c1 : cfg) cs t,
    (if mat then expand_matrix root c else expand_set root c) = Ok (c1, cs, t) -> resuming c1 = resuming c.
  Proof.
    intros [|] root c c1 cs t H.
    - apply expand_matrix_Ok in H. destruct H as (? & ? & _ & _ & _ & _ & _ & E). injection E as -> _ _.
      apply resuming_ddel. discriminate.
    - apply expand_set_Ok in H. destruct H as (? & ? & ? & _ & _ & _ & E). injection E as -> _ _.
      apply resuming_ddel. discriminate.
  Qed.

  Lemma write_job_configs_kept : forall reload (c : cfg) cs d d' r, disk_ok d -> resuming c = false ->
    write_job_configs reload c cs d = (d', r) -> kept d d' /\ disk_ok d'.
  Proof.
    intros reload c cs d d' r Hd Hr. unfold write_job_configs. destruct cs as [|c0 cs].
    - intros [= <- <-]. split; [apply kept_refl|exact Hd].
    - rewrite Hr. apply write_jobs_kept. exact Hd.
  Qed.

  Lemma finish_kept : forall reload mat (c : cfg) d root d' r, disk_ok d -> resuming c = false ->
    finish reload mat c d root = (d', r) -> kept d d' /\ disk_ok d'.
  Proof.
    intros reload mat c d root d' r Hd Hr. unfold finish.
    destruct (if mat then expand_matrix root c else expand_set root c) as [[[c1 cs] t]|e] eqn:E;
      [|intros [= <- <-]; split; [apply kept_refl|exact Hd]].
    apply finish_resuming in E.
    destruct (write_job_configs reload c1 cs d) as [d2 r2] eqn:E2.
    assert (K := write_job_configs_kept _ _ _ _ _ _ Hd (eq_trans E Hr) E2).
    destruct r2; cbn; intros [= <- <-]; exact K.
  Qed.

  (** Without resuming nothing on disk is changed or removed, whatever the
      outcome. *)
  Theorem construct_kept : forall seeds reload (c : cfg) d d' r, disk_ok d -> ~ asks_resume c ->
    construct_file_list seeds reload c d = (d', r) -> kept d d' /\ disk_ok d'.
  Proof.
    intros seeds reload c d d' r Hd Hr.
    destruct (construct_cases seeds reload c d) as [[e ->]|[[c' ->]|(mat & c' & -> & Er & Eo & _)]].
    - intros [= <- <-]. split; [apply kept_refl|exact Hd].
    - intros [= <- <-]. split; [apply kept_refl|exact Hd].
    - assert (Hr' : resuming c' = false).
      { destruct (resuming c') eqn:E; [|reflexivity]. apply resuming_iff in E. unfold asks_resume in *. congruence. }
      unfold prepare_multijob_output. destruct (dget "out_dir" c') as [v|]; cbn;
        [|intros [= <- <-]; split; [apply kept_refl|exact Hd]].
      destruct v as [| | | |root| |]; cbn; try (intros [= <- <-]; split; [apply kept_refl|exact Hd]).
      destruct (is_dir root d); cbn.
      + rewrite Hr'. cbn. intros [= <- <-]. split; [apply kept_refl|exact Hd].
      + intros E. destruct (finish_kept _ _ _ _ _ _ _ (disk_ok_mkdir root d Hd) Hr' E) as [K O].
        split; [|exact O]. eapply kept_trans; [apply kept_mkdir|exact K].
  Qed.

  Lemma multi_not_single : forall reload mat (c : cfg) d d1 c' fs,
    ibind (prepare_multijob_output c d) (finish reload mat c) <> (d1, Ok (mkPlan c' [c'] fs None)).
  Proof.
    intros reload mat c d d1 c' fs H.
    destruct (prepare_multijob_output c d) as [d2 [root|e]]; [|discriminate]. cbn in H. unfold finish in H.
    destruct (if mat then expand_matrix root c else expand_set root c) as [[[c1 cs] t]|e]; [|discriminate].
    destruct (write_job_configs reload c1 cs d2) as [d3 [dirs|e]]; discriminate.
  Qed.

  (** A single job is planned only for a configuration that asks for one. *)
  Lemma construct_single_only : forall seeds reload (c : cfg) d d1 c',
    construct_file_list seeds reload c d = (d1, Ok (mkPlan c' [c'] [UserFile] None)) -> ~ multi_job c.
  Proof.
    intros seeds reload c d d1 c' H M. revert H. unfold construct_file_list.
    destruct (prelim_config_parsing c) as [fl|e] eqn:Ep; cbn [rbind]; [|discriminate].
    unfold prelim_config_parsing in Ep.
    destruct (dmem "set" c && dmem "matrix" c)%bool eqn:Esm; [discriminate|]. injection Ep as <-.
    cbn [f_ensemble]. unfold multi_job in M.
    destruct (dmem "ensemble" c) eqn:Een.
    - unfold expand_ensemble. destruct (dget "ensemble" c) as [v|] eqn:Ev; [|discriminate].
      destruct (as_pyint v) as [z|] eqn:Ez; [|discriminate].
      destruct (z =? 1)%Z eqn:E1.
      + cbn [f_ensemble f_set f_matrix orb].
        assert (K : (dmem "set" c || dmem "matrix" c)%bool = true).
        { destruct M as [M|[M|(w & Ew & Nw)]].
          - apply dmem_iff in M. rewrite M. reflexivity.
          - apply dmem_iff in M. rewrite M. apply orb_true_r.
          - exfalso. injection Ew as <-. apply Z.eqb_eq in E1. subst z.
            destruct v as [|[|]|z| | | |]; cbn in Ez; try discriminate; try tauto.
            injection Ez as ->. tauto. }
        rewrite K. apply multi_not_single.
      + cbn [f_set]. destruct (dmem "set" c).
        * destruct (dget "set" (ddel "ensemble" c)) as [old|]; [|discriminate].
          destruct (as_seq old) as [l|]; cbn [rbind]; [|discriminate].
          destruct (ensemble_set seeds 0 (Z.to_nat z) l) as [l'|]; cbn [rbind]; [|discriminate].
          cbn [f_ensemble orb]. apply multi_not_single.
        * match goal with |- context [match ?m with VDict _ => _ | _ => _ end] => destruct m as [| | | | | |d0] end; try discriminate.
          destruct (dmem "seed" d0); [discriminate|]. cbn [f_ensemble orb].
          apply (multi_not_single reload true).
    - cbn [f_ensemble f_set f_matrix orb].
      assert (K : (dmem "set" c || dmem "matrix" c)%bool = true).
      { destruct M as [M|[M|(w & Ew & Nw)]].
        - apply dmem_iff in M. rewrite M. reflexivity.
        - apply dmem_iff in M. rewrite M. apply orb_true_r.
        - exfalso. apply present in Ew. congruence. }
      rewrite K. apply multi_not_single.
  Qed.

  (** Several jobs in an existing root folder are refused. *)
  Theorem construct_root_exists : forall seeds reload (c : cfg) d root,
    multi_job c -> ~ asks_resume c -> dget "out_dir" c = Some (VStr root) -> In root (d_dirs d) ->
    exists e, construct_file_list seeds reload c d = (d, Err e).
  Proof.
    intros seeds reload c d root M Hr Ho Hd.
    destruct (construct_cases seeds reload c d) as [H|[[c' H]|(mat & c' & -> & Er & Eo & _)]].
    - exact H.
    - exfalso. exact (construct_single_only _ _ _ _ _ _ H M).
    - unfold prepare_multijob_output. rewrite Eo, Ho. apply is_dir_iff in Hd. rewrite Hd.
      assert (Hr' : resuming c' = false).
      { destruct (resuming c') eqn:E; [|reflexivity]. apply resuming_iff in E. unfold asks_resume in *. congruence. }
      rewrite Hr'. cbn. eauto.
  Qed.
End Runs.
