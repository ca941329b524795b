(** Proofs about the expansion of configurations into jobs. *)
From Coq Require Import ZArith NArith List Bool String Ascii Lia FinFun.
From Verif Require Import Base Dict Text Config Expand ExpandSpec.
Import ListNotations.
Local Open Scope string_scope.

(** ** Folders *)

Lemma join_inj : forall root a b, join root a = join root b -> a = b.
Proof.
  intros root a b. unfold join. destruct root as [|c r]; [auto|].
  destruct (ends_with_slash (String c r)); intros H.
  - eapply append_inj_l; exact H.
  - apply append_inj_l in H. apply (append_inj_l "/") in H. exact H.
Qed.

Lemma job_id_inj : forall i j, job_id i = job_id j -> i = j.
Proof.
  intros i j H. unfold job_id in H. apply append_inj_l in H. apply zfill_inj in H.
  apply Nnat.Nat2N.inj in H. exact H.
Qed.

Lemma join_not_root : forall root i, join root (job_id i) <> root.
Proof.
  intros root i H. apply (f_equal String.length) in H. revert H.
  unfold join, job_id. destruct root as [|c r]; [cbn; discriminate|].
  destruct (ends_with_slash (String c r)).
  - rewrite append_length. cbn. lia.
  - rewrite !append_length. cbn. lia.
Qed.

Lemma folder_inj : forall root i j, join root (job_id i) = join root (job_id j) -> i = j.
Proof. intros. eapply job_id_inj, join_inj; eassumption. Qed.

Lemma has_colon_iff : forall k, has_colon k = true <-> colon_in k.
Proof.
  unfold colon_in. induction k as [|c k IH]; cbn; [split; [discriminate|intros []]|].
  rewrite orb_true_iff, IH. split.
  - intros [H|H]; [left; apply Ascii.eqb_eq in H; congruence|right; exact H].
  - intros [H|H]; [left; subst; reflexivity|right; exact H].
Qed.

(** ** Products *)

Lemma In_product : forall {T} (L : list (list T)) p,
  In p (product L) <-> Forall2 (fun l x => In x l) L p.
Proof.
  induction L as [|l L IH]; cbn; intros p.
  - split; [intros [<-|[]]; constructor|intros H; inversion H; auto].
  - rewrite in_flat_map. split.
    + intros [x [Hx Hp]]. apply in_map_iff in Hp. destruct Hp as [q [<- Hq]].
      constructor; [exact Hx|apply IH; exact Hq].
    + intros H. inversion H as [|? x ? q Hx Hq]; subst. exists x. split; [exact Hx|].
      apply in_map. apply IH. exact Hq.
Qed.

Lemma NoDup_app_intro : forall {T} (a b : list T), NoDup a -> NoDup b ->
  (forall x, In x a -> ~ In x b) -> NoDup (a ++ b)%list.
Proof.
  induction a as [|x a IH]; cbn; intros b Ha Hb D; [exact Hb|].
  inversion Ha; subst. constructor.
  - rewrite in_app_iff. intros [C|C]; [contradiction|]. apply (D x); auto.
  - apply IH; auto.
Qed.

Lemma NoDup_product : forall {T} (L : list (list T)), Forall (@NoDup T) L -> NoDup (product L).
Proof.
  induction L as [|l L IH]; cbn; intros H; [repeat constructor; intros []|].
  inversion H as [|? ? Hl HL]; subst. specialize (IH HL). clear H HL.
  induction l as [|x l IHl]; cbn; [constructor|].
  inversion Hl as [|? ? Nx Hl']; subst. specialize (IHl Hl').
  apply NoDup_app_intro; [|exact IHl|].
  - apply Injective_map_NoDup; [intros a b E; congruence|exact IH].
  - intros q Hq C. apply in_map_iff in Hq. destruct Hq as [r [<- _]].
    apply in_flat_map in C. destruct C as [y [Hy C]]. apply in_map_iff in C.
    destruct C as [s [E _]]. congruence.
Qed.

Lemma flat_map_const_length : forall {A B} (f : A -> list B) n l,
  (forall x, In x l -> List.length (f x) = n) -> List.length (flat_map f l) = (List.length l * n)%nat.
Proof.
  induction l as [|x l IH]; cbn; intros H; [reflexivity|].
  rewrite app_length, H, IH; auto.
Qed.

Lemma product_length : forall {T} (L : list (list T)),
  List.length (product L) = fold_right Nat.mul 1 (map (@List.length T) L).
Proof.
  induction L as [|l L IH]; cbn; [reflexivity|].
  rewrite (flat_map_const_length _ (List.length (product L))); [|intros; apply map_length].
  rewrite IH. reflexivity.
Qed.

(** All lists of positions. *)
Definition index_lists {T} (L : list (list T)) : list (list nat) := map (fun l => seq 0 (List.length l)) L.

(** The elements at the given positions. *)
Fixpoint pick {T} (L : list (list T)) (p : list nat) : list (option T) :=
  match L, p with
  | l :: L', n :: p' => nth_error l n :: pick L' p'
  | _, _ => []
  end.

Lemma map_nth_error_seq : forall {T} (l : list T),
  map Some l = map (nth_error l) (seq 0 (List.length l)).
Proof.
  intros T l. induction l as [|x l IH]; cbn; [reflexivity|].
  f_equal. rewrite <- seq_shift, map_map. exact IH.
Qed.

Lemma flat_map_map : forall {A B C} (f : B -> list C) (g : A -> B) l,
  flat_map f (map g l) = flat_map (fun x => f (g x)) l.
Proof. induction l; cbn; congruence. Qed.

Lemma map_flat_map : forall {A B C} (f : B -> C) (g : A -> list B) l,
  map f (flat_map g l) = flat_map (fun x => map f (g x)) l.
Proof. induction l; cbn; [reflexivity|]. rewrite map_app. congruence. Qed.

Lemma flat_map_ext_in : forall {A B} (f g : A -> list B) l,
  (forall x, f x = g x) -> flat_map f l = flat_map g l.
Proof. intros A B f g l H. apply flat_map_ext. exact H. Qed.

Lemma product_pick : forall {T} (L : list (list T)),
  map (map Some) (product L) = map (pick L) (product (index_lists L)).
Proof.
  induction L as [|l L IH]; cbn; [reflexivity|].
  rewrite !map_flat_map.
  transitivity (flat_map (fun o => map (cons o) (map (map Some) (product L))) (map Some l)).
  - rewrite flat_map_map. apply flat_map_ext_in. intros x. rewrite !map_map. reflexivity.
  - rewrite map_nth_error_seq, flat_map_map. apply flat_map_ext_in. intros n.
    rewrite IH, !map_map. reflexivity.
Qed.

Lemma nth_error_map_inv : forall {A B} (f : A -> B) l i y,
  nth_error (map f l) i = Some y -> exists x, nth_error l i = Some x /\ y = f x.
Proof.
  induction l as [|a l IH]; intros [|i] y; cbn; try discriminate.
  - intros [= <-]. eauto.
  - apply IH.
Qed.

(** The [i]-th combination is the values at the [i]-th positions. *)
Lemma nth_product : forall {T} (L : list (list T)) i vs,
  nth_error (product L) i = Some vs ->
  exists p, nth_error (product (index_lists L)) i = Some p /\ map Some vs = pick L p.
Proof.
  intros T L i vs H. apply (map_nth_error (map Some)) in H. rewrite product_pick in H.
  apply nth_error_map_inv in H. exact H.
Qed.

Lemma pick_nth : forall {T} (L : list (list T)) p vs j l n,
  Forall2 (fun l n => (n < List.length l)%nat) L p -> map Some vs = pick L p ->
  nth_error L j = Some l -> nth_error p j = Some n ->
  exists v, nth_error vs j = Some v /\ nth_error l n = Some v.
Proof.
  intros T L p vs j l n H. revert vs j. induction H as [|a b L p Hab H IH]; intros vs j E Hl Hn.
  - destruct j; discriminate.
  - destruct vs as [|v vs]; [discriminate|]. cbn in E. injection E as E1 E2.
    destruct j as [|j]; cbn in *.
    + injection Hl as <-. injection Hn as <-. eauto.
    + eapply IH; eassumption.
Qed.

Lemma In_index_lists : forall {T} (L : list (list T)) p,
  In p (product (index_lists L)) <-> Forall2 (fun l n => (n < List.length l)%nat) L p.
Proof.
  intros T L p. rewrite In_product. unfold index_lists.
  revert p. induction L as [|l L IH]; cbn; intros p.
  - split; intros H; inversion H; constructor.
  - split; intros H; inversion H; subst; constructor; try (apply IH; assumption).
    + match goal with H : In _ (seq _ _) |- _ => apply in_seq in H; lia end.
    + apply in_seq. lia.
Qed.

Lemma NoDup_index_lists : forall {T} (L : list (list T)), NoDup (product (index_lists L)).
Proof.
  intros. apply NoDup_product. unfold index_lists. apply Forall_forall. intros x H.
  apply in_map_iff in H. destruct H as [l [<- _]]. apply seq_NoDup.
Qed.

Section Expand.
  Context {F : Type}.
  Notation value := (value F).
  Notation cfg := (dict value).

  Definition choice_of (m : matrix (F:=F)) (i : nat) : list nat :=
    nth i (product (index_lists (map snd m))) [].

  Lemma positions_iff : forall (m : matrix (F:=F)) p,
    positions m p <-> In p (product (index_lists (map snd m))).
  Proof.
    intros m p. rewrite In_index_lists. unfold positions.
    revert p. induction m as [|kv m IH]; cbn; intros p.
    - split; intros H; inversion H; constructor.
    - split; intros H; inversion H; subst; constructor; auto; apply IH; assumption.
  Qed.

  Lemma combinations_length : forall m : matrix (F:=F),
    combinations m = List.length (product (index_lists (map snd m))).
  Proof.
    intros m. rewrite product_length. unfold index_lists. rewrite map_map.
    induction m as [|[k vs] m IH]; cbn; [reflexivity|]. rewrite seq_length, IH. reflexivity.
  Qed.

  Lemma numbering_choice : forall m : matrix (F:=F), numbering m (combinations m) (choice_of m).
  Proof.
    intros m. split; [reflexivity|]. rewrite combinations_length. split.
    - intros i H. apply positions_iff. unfold choice_of. apply nth_In. exact H.
    - intros p H. apply positions_iff in H. apply In_nth with (d := []) in H.
      destruct H as [i [Hi E]]. exists i. split; [split; [exact Hi|exact E]|].
      intros j [Hj Ej]. unfold choice_of in Ej.
      exact (proj1 (NoDup_nth _ []) (NoDup_index_lists (map snd m)) i j Hi Hj (eq_trans E (eq_sym Ej))).
  Qed.

  Lemma product_same_length : forall m : matrix (F:=F),
    List.length (product (map snd m)) = combinations m.
  Proof.
    intros m. rewrite product_length. induction m as [|[k vs] m IH]; cbn; [reflexivity|].
    rewrite IH. reflexivity.
  Qed.

  (** ** Job configurations *)

  Lemma job_configs_nth : forall fixed root l i n,
    nth_error (job_configs (F:=F) fixed root n l) i =
    option_map (job_config fixed root (n + i)) (nth_error l i).
  Proof.
    induction l as [|a l IH]; intros [|i] n; cbn; try reflexivity.
    - rewrite Nat.add_0_r. reflexivity.
    - rewrite IH. replace (S n + i)%nat with (n + S i)%nat by lia. reflexivity.
  Qed.

  Lemma job_configs_length : forall fixed root l n,
    List.length (job_configs (F:=F) fixed root n l) = List.length l.
  Proof. induction l; cbn; intros; [reflexivity|]. rewrite IHl. reflexivity. Qed.

  Lemma table_rows_nth : forall l i n,
    nth_error (table_rows (F:=F) n l) i =
    option_map (fun kvs => VStr (job_id (n + i)) :: map snd kvs) (nth_error l i).
  Proof.
    induction l as [|a l IH]; intros [|i] n; cbn; try reflexivity.
    - rewrite Nat.add_0_r. reflexivity.
    - rewrite IH. replace (S n + i)%nat with (n + S i)%nat by lia. reflexivity.
  Qed.

  Lemma job_config_get : forall fixed root i kvs k, NoDup (dkeys kvs) ->
    dget k (job_config (F:=F) fixed root i kvs) =
    match dget k kvs with
    | Some v => Some v
    | None => if String.eqb k "out_dir" then Some (VStr (join root (job_id i))) else dget k fixed
    end.
  Proof.
    intros. unfold job_config. rewrite dget_dupdate by assumption. rewrite dget_dset.
    destruct (dget k kvs); reflexivity.
  Qed.

  Lemma dkeys_combine : forall ks (vs : list value), List.length ks = List.length vs ->
    dkeys (combine ks vs) = ks.
  Proof.
    unfold dkeys. induction ks as [|k ks IH]; intros [|v vs]; cbn; try discriminate; auto.
    intros [= H]. rewrite IH; auto.
  Qed.

  Lemma dget_combine : forall ks (vs : list value) j k v, NoDup ks ->
    nth_error ks j = Some k -> nth_error vs j = Some v -> List.length ks = List.length vs ->
    dget k (combine ks vs) = Some v.
  Proof.
    intros ks vs j k v N Hk Hv HL. apply In_dget; [rewrite dkeys_combine; assumption|].
    clear N. revert vs j Hk Hv HL. induction ks as [|k0 ks IH]; intros vs j Hk Hv HL; [destruct j; discriminate|].
    destruct vs as [|v0 vs]; [discriminate|]. destruct j as [|j]; cbn in *.
    - injection Hk as ->. injection Hv as ->. auto.
    - right. eapply IH; eauto.
  Qed.

  Lemma product_elem_length : forall {T} (L : list (list T)) vs,
    In vs (product L) -> List.length vs = List.length L.
  Proof. intros T L vs H. apply In_product in H. induction H; cbn; congruence. Qed.

  Lemma length_keys : forall m : matrix (F:=F), List.length (map fst m) = List.length (map snd m).
  Proof. intros. rewrite !map_length. reflexivity. Qed.

  Definition matrix_combs (m : matrix (F:=F)) : list cfg :=
    map (combine (map fst m)) (product (map snd m)).

  Lemma matrix_combs_keys : forall m kvs, In kvs (matrix_combs m) -> dkeys kvs = map fst m.
  Proof.
    intros m kvs H. apply in_map_iff in H. destruct H as [vs [<- H]].
    apply dkeys_combine. rewrite (product_elem_length _ _ H). apply length_keys.
  Qed.

  Lemma matrix_combs_chooses : forall m i kvs, NoDup (map fst m) ->
    nth_error (matrix_combs m) i = Some kvs ->
    (i < combinations m)%nat /\
    forall j k vs n, nth_error m j = Some (k, vs) -> nth_error (choice_of m i) j = Some n ->
      exists v, nth_error vs n = Some v /\ dget k kvs = Some v.
  Proof.
    intros m i kvs N H. unfold matrix_combs in H. apply nth_error_map_inv in H.
    destruct H as [vs0 [H ->]].
    assert (HL := product_elem_length _ _ (nth_error_In _ _ H)).
    split.
    { rewrite <- product_same_length. apply nth_error_Some. congruence. }
    intros j k vs n Hm Hp. destruct (nth_product _ _ _ H) as [p [Ep E]].
    assert (Hc : choice_of m i = p) by (unfold choice_of; apply nth_error_nth; exact Ep).
    rewrite Hc in Hp.
    assert (Hpos : Forall2 (fun l n => (n < List.length l)%nat) (map snd m) p).
    { apply In_index_lists. eapply nth_error_In; exact Ep. }
    assert (Hs : nth_error (map snd m) j = Some vs) by (apply (map_nth_error snd) in Hm; exact Hm).
    assert (Hk : nth_error (map fst m) j = Some k) by (apply (map_nth_error fst) in Hm; exact Hm).
    destruct (pick_nth _ _ _ _ _ _ Hpos E Hs Hp) as [v [Hv Hn]].
    exists v. split; [exact Hn|]. eapply dget_combine; eauto. rewrite HL. apply length_keys.
  Qed.

  Lemma folders_lemma : forall fixed root combs,
    (forall kvs, In kvs combs -> NoDup (dkeys kvs) /\ ~ In "out_dir" (dkeys kvs)) ->
    numbered_folders root (job_configs (F:=F) fixed root 0 combs).
  Proof.
    intros fixed root combs H. split; [|apply folder_inj].
    intros i c Hc. rewrite job_configs_nth in Hc.
    destruct (nth_error combs i) as [kvs|] eqn:E; [|discriminate]. cbn in Hc.
    apply nth_error_In in E. destruct (H _ E) as [N O]. injection Hc as <-.
    rewrite job_config_get by exact N. apply dget_None in O. rewrite O. reflexivity.
  Qed.

  (** The jobs made from a matrix. *)
  Lemma matrix_cartesian : forall fixed root m, NoDup (map fst m) -> ~ In "out_dir" (map fst m) ->
    cartesian fixed root m (job_configs fixed root 0 (matrix_combs m)).
  Proof.
    intros fixed root m N O. exists (choice_of m).
    rewrite job_configs_length.
    assert (HL : List.length (matrix_combs m) = combinations m).
    { unfold matrix_combs. rewrite map_length. apply product_same_length. }
    rewrite HL. repeat apply conj.
    - reflexivity.
    - apply numbering_choice.
    - apply numbering_choice.
    - intros i c Hc. rewrite job_configs_nth in Hc.
      destruct (nth_error (matrix_combs m) i) as [kvs|] eqn:E; [|discriminate]. cbn in Hc. injection Hc as <-.
      intros j k vs n Hm Hp.
      destruct (proj2 (matrix_combs_chooses m i kvs N E) j k vs n Hm Hp) as [v [Hv Hg]].
      exists v. split; [exact Hv|]. rewrite job_config_get.
      + rewrite Hg. reflexivity.
      + rewrite (matrix_combs_keys m kvs) by (eapply nth_error_In; exact E). exact N.
    - intros i c k Hc Hk Hk'. rewrite job_configs_nth in Hc.
      destruct (nth_error (matrix_combs m) i) as [kvs|] eqn:E; [|discriminate]. cbn in Hc. injection Hc as <-.
      apply nth_error_In in E. apply matrix_combs_keys in E. unfold agree.
      rewrite job_config_get by (rewrite E; exact N).
      replace (dget k kvs) with (@None value) by (symmetry; apply dget_None; rewrite E; exact Hk).
      apply String.eqb_neq in Hk'. rewrite Hk'. reflexivity.
    - apply folders_lemma. intros kvs E. apply matrix_combs_keys in E. rewrite E. auto.
    - apply folder_inj.
  Qed.

  (** ** Reading the matrix *)

  Lemma chars_map : forall s, chars (F:=F) s = map (fun c => VStr (String c "")) (list_ascii_of_string s).
  Proof. induction s; cbn; congruence. Qed.

  Lemma as_seq_iff : forall (v : value) l, as_seq v = Ok l <-> value_list v l.
  Proof.
    intros v l. split.
    - destruct v; cbn; try discriminate; intros [= <-].
      + constructor. apply chars_map.
      + constructor.
      + constructor.
    - intros H. inversion H; subst; cbn; try reflexivity. rewrite chars_map. reflexivity.
  Qed.

  Lemma value_list_fun : forall (v : value) l l', value_list v l -> value_list v l' -> l = l'.
  Proof. intros v l l' H H'. apply as_seq_iff in H. apply as_seq_iff in H'. congruence. Qed.

  Lemma is_list_iff : forall v : value, is_list v = true <-> is_list_value v.
  Proof.
    intros v. unfold is_list_value. destruct v; cbn; split; try discriminate; try (intros [? H]; discriminate); eauto.
  Qed.

  Lemma existsb_false : forall {T} (f : T -> bool) l, existsb f l = false <-> forall x, In x l -> f x = false.
  Proof.
    intros T f l. induction l as [|a l IH]; cbn.
    - split; [intros _ ? []|reflexivity].
    - rewrite orb_false_iff, IH. split.
      + intros [H1 H2] x [<-|H]; auto.
      + intros H. split; [apply H; auto|intros; apply H; auto].
  Qed.

  Record checked (fixed : cfg) (m : matrix (F:=F)) : Prop := {
    ck_flat : forall k vs v, In (k, vs) m -> In v vs -> ~ is_list_value v;
    ck_keys : forall k, In k (map fst m) -> ~ colon_in k;
    ck_fixed : forall k, In k (map fst m) -> ~ In k (dkeys fixed) }.

  Lemma check_matrix_iff : forall fixed d m,
    check_matrix (F:=F) fixed d = Ok m <-> matrix_reads d m /\ checked fixed m.
  Proof.
    intros fixed. induction d as [|[k v] d IH]; intros m; cbn.
    - split.
      + intros [= <-]. split; [constructor|]. split; cbn; intros; contradiction.
      + intros [H _]. inversion H. reflexivity.
    - destruct (as_seq v) as [vs|e] eqn:Ev; cbn.
      2:{ split; [discriminate|]. intros [H _]. inversion H as [|? km ? ? [_ Hv] ?]; subst.
          apply as_seq_iff in Hv. cbn in Hv. congruence. }
      destruct (existsb is_list vs) eqn:E1.
      { split; [discriminate|]. intros [H C]. inversion H as [|? km ? ? [Hk Hv] ?]; subst.
        apply as_seq_iff in Hv. cbn in Hv. rewrite Ev in Hv. destruct km as [k' vs']. cbn in *. injection Hv as <-.
        apply existsb_exists in E1. destruct E1 as [x [Hx Lx]]. apply is_list_iff in Lx.
        exfalso. eapply (ck_flat _ _ C k' vs); [left; reflexivity|exact Hx|exact Lx]. }
      destruct (has_colon k) eqn:E2.
      { split; [discriminate|]. intros [H C]. inversion H as [|? km ? ? [Hk Hv] ?]; subst. cbn in Hk.
        apply has_colon_iff in E2. exfalso. apply (ck_keys _ _ C k); [left; symmetry; exact Hk|exact E2]. }
      destruct (dmem k fixed) eqn:E3.
      { split; [discriminate|]. intros [H C]. inversion H as [|? km ? ? [Hk Hv] ?]; subst. cbn in Hk.
        apply dmem_iff in E3. exfalso. apply (ck_fixed _ _ C k); [left; symmetry; exact Hk|exact E3]. }
      split.
      + intros H. destruct (check_matrix fixed d) as [r|] eqn:Er; [|discriminate]. cbn in H. injection H as <-.
        destruct (proj1 (IH r) eq_refl) as [Hr C]. split.
        * constructor; [|exact Hr]. cbn. split; [reflexivity|apply as_seq_iff; exact Ev].
        * split.
          -- intros k0 vs0 v0 [E|E] Hv; [|eapply (ck_flat _ _ C); eassumption]. injection E as <- <-.
             intros L. apply is_list_iff in L. rewrite existsb_false in E1. rewrite (E1 _ Hv) in L. discriminate.
          -- intros k0 [<-|Hk]; [|apply (ck_keys _ _ C); exact Hk]. cbn [fst]. rewrite <- has_colon_iff. congruence.
          -- intros k0 [<-|Hk]; [|apply (ck_fixed _ _ C); exact Hk]. cbn [fst]. rewrite <- dmem_iff. congruence.
      + intros [H C]. inversion H as [|? [k' vs'] ? m' [Hk Hv] Hm]; subst. cbn in Hk, Hv. subst k'.
        apply as_seq_iff in Hv. rewrite Ev in Hv. injection Hv as <-.
        assert (E : check_matrix fixed d = Ok m').
        { apply IH. split; [exact Hm|]. split.
          - intros k0 vs0 v0 H1. eapply (ck_flat _ _ C). right; exact H1.
          - intros k0 H1. apply (ck_keys _ _ C). right; exact H1.
          - intros k0 H1. apply (ck_fixed _ _ C). right; exact H1. }
        rewrite E. reflexivity.
  Qed.

  Lemma matrix_reads_keys : forall d (m : matrix (F:=F)), matrix_reads d m -> map fst m = dkeys d.
  Proof. intros d m H. unfold dkeys. induction H as [|? ? ? ? [E _] H IH]; cbn; congruence. Qed.

  Lemma matrix_reads_fun : forall d (m m' : matrix (F:=F)), matrix_reads d m -> matrix_reads d m' -> m = m'.
  Proof.
    intros d m m' H. revert m'. induction H as [|? [k vs] ? ? [E V] H IH]; intros m' H'; inversion H' as [|? [k' vs'] ? ? [E' V'] ?]; subst; [reflexivity|].
    cbn in *. f_equal; [|apply IH; assumption]. f_equal; [congruence|]. eapply value_list_fun; eassumption.
  Qed.

  Lemma check_matrix_err : forall fixed d e, check_matrix (F:=F) fixed d = Err e -> e = ValueError \/ e = TypeError.
  Proof.
    intros fixed. induction d as [|[k v] d IH]; intros e; cbn; [discriminate|].
    destruct v; cbn; try (intros [= <-]; auto).
    all: destruct (existsb is_list _); [intros [= <-]; auto|];
         destruct (has_colon k); [intros [= <-]; auto|]; destruct (dmem k fixed); [intros [= <-]; auto|];
         destruct (check_matrix fixed d) eqn:E; cbn; [discriminate|]; intros [= <-]; apply IH; reflexivity.
  Qed.

  (** The result of expanding a matrix. *)
  Lemma expand_matrix_Ok : forall root (c : cfg) r,
    expand_matrix root c = Ok r ->
    exists d m, dget "matrix" c = Some (VDict d) /\ matrix_reads d m /\ m <> [] /\
      checked (ddel "matrix" c) m /\ ~ In "out_dir" (map fst m) /\
      r = (ddel "matrix" c, job_configs (ddel "matrix" c) root 0 (matrix_combs m),
           ("job_id" :: map fst m, table_rows 0 (matrix_combs m))).
  Proof.
    intros root c r. unfold expand_matrix. destruct (dget "matrix" c) as [v|]; [|discriminate].
    destruct v as [| | | | | |d]; try discriminate.
    destruct (dmem "out_dir" d) eqn:Eo; [discriminate|].
    destruct (check_matrix (ddel "matrix" c) d) as [m|] eqn:Em; [|discriminate]. cbn.
    destruct (proj1 (check_matrix_iff _ _ _) Em) as [Hr C].
    destruct m as [|km m]; [discriminate|]. intros [= <-].
    exists d, (km :: m). repeat apply conj; auto; [discriminate|].
    rewrite (matrix_reads_keys _ _ Hr). rewrite <- dmem_iff. congruence.
  Qed.

  (** ** Reading a set *)

  Lemma check_set_iff : forall l s,
    check_set (F:=F) l = Ok s <->
    l = map VDict s /\ forall e k, In e s -> In k (dkeys e) -> ~ colon_in k.
  Proof.
    induction l as [|v l IH]; intros s; cbn.
    - split.
      + intros [= <-]. split; [reflexivity|intros ? ? []].
      + intros [H _]. destruct s; [reflexivity|discriminate].
    - destruct v as [| | | | | |d]; try (split; [discriminate|intros [H _]; destruct s; discriminate]).
      destruct (existsb has_colon (dkeys d)) eqn:E.
      + split; [discriminate|]. intros [H C]. destruct s as [|e s]; [discriminate|]. cbn in H. injection H as <- H.
        apply existsb_exists in E. destruct E as [k [Hk E]]. apply has_colon_iff in E. exfalso.
        eapply C; [left; reflexivity|exact Hk|exact E].
      + split.
        * intros H. destruct (check_set l) as [r|] eqn:Er; [|discriminate]. cbn in H. injection H as <-.
          destruct (proj1 (IH r) eq_refl) as [-> C]. split; [reflexivity|].
          intros e k [<-|He] Hk; [|eapply C; eassumption]. rewrite <- has_colon_iff.
          rewrite existsb_false in E. rewrite (E _ Hk). discriminate.
        * intros [H C]. destruct s as [|e s]; [discriminate|]. cbn in H. injection H as <- H.
          assert (Er : check_set l = Ok s).
          { apply IH. split; [exact H|]. intros e k He. apply C. right; exact He. }
          rewrite Er. reflexivity.
  Qed.

  Lemma same_keys_iff : forall a b : cfg, same_keys a b = true <-> forall k, In k (dkeys a) <-> In k (dkeys b).
  Proof.
    intros a b. unfold same_keys. rewrite andb_true_iff, !forallb_forall. split.
    - intros [H1 H2] k. split; intros H; apply dmem_iff; auto.
    - intros H. split; intros k Hk; apply dmem_iff, H, Hk.
  Qed.

  Lemma expand_set_Ok : forall root (c : cfg) r,
    expand_set root c = Ok r <->
    exists s s0 s', dget "set" c = Some (VList (map VDict s)) /\ s = s0 :: s' /\ usable s /\
      r = (ddel "set" c, job_configs (ddel "set" c) root 0 s, ("job_id" :: dkeys s0, table_rows 0 s)).
  Proof.
    intros root c r. unfold expand_set. split.
    - destruct (dget "set" c) as [v|]; [|discriminate]. destruct v as [| | | | |l|]; try discriminate.
      destruct (check_set l) as [s|] eqn:Es; [|discriminate]. cbn.
      destruct (proj1 (check_set_iff _ _) Es) as [-> C].
      destruct s as [|s0 s']; [discriminate|]. destruct (forallb (same_keys s0) s') eqn:K; [|discriminate].
      intros [= <-]. exists (s0 :: s'), s0, s'. repeat apply conj; auto.
      split; [discriminate|exact C|].
      rewrite forallb_forall in K.
      assert (K0 : forall e, In e (s0 :: s') -> forall k, In k (dkeys s0) <-> In k (dkeys e)).
      { intros e [<-|He]; [tauto|]. apply same_keys_iff, K, He. }
      intros e e' k He He' Hk. apply (K0 e' He'). apply (K0 e He). exact Hk.
    - intros (s & s0 & s' & E & -> & U & ->). rewrite E.
      assert (Es : check_set (map VDict (s0 :: s')) = Ok (s0 :: s')).
      { apply check_set_iff. split; [reflexivity|]. apply (us_colon _ U). }
      rewrite Es. cbn -[job_configs table_rows].
      assert (K : forallb (same_keys s0) s' = true).
      { apply forallb_forall. intros e He. apply same_keys_iff. intros k.
        split; apply (us_keys _ U); cbn; auto. }
      rewrite K. reflexivity.
  Qed.

  Lemma set_one_per_entry : forall fixed root s, (forall e, In e s -> NoDup (dkeys e)) ->
    one_per_entry fixed root s (job_configs (F:=F) fixed root 0 s).
  Proof.
    intros fixed root s N. split; [apply job_configs_length|].
    intros i e c He Hc. rewrite job_configs_nth, He in Hc. cbn in Hc. injection Hc as <-.
    assert (Ne : NoDup (dkeys e)) by (apply N; eapply nth_error_In; exact He).
    repeat apply conj.
    - intros k v Hk. rewrite job_config_get by exact Ne. rewrite Hk. reflexivity.
    - intros k Hk Ho. unfold agree. rewrite job_config_get by exact Ne. apply dget_None in Hk. rewrite Hk.
      apply String.eqb_neq in Ho. rewrite Ho. reflexivity.
    - intros Ho. rewrite job_config_get by exact Ne. apply dget_None in Ho. rewrite Ho. reflexivity.
  Qed.
End Expand.
