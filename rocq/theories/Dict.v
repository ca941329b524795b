(** Python dictionaries with string keys, as insertion-ordered lists, and the
    facts about them used in the proofs.  Dictionaries are used all over
    /repo; YAML mappings (init_tools.py:106-120, preprocessor.py:183-206) and
    keyword arguments (model.py:37) are dictionaries.  Keys that are not
    strings are not modelled. *)
From Coq Require Import List Bool String Lia.
Import ListNotations.
Local Open Scope string_scope.

(** Python dictionaries, as used at init_tools.py:76-230 and preprocessor.py:327-497 *)
Definition dict (V : Type) : Type := list (string * V).

Section Dict.
  Context {V : Type}.

  (** d.get(k), d[k] — Python dictionaries, as used at init_tools.py:76-230 and preprocessor.py:327-497 *)
  Fixpoint dget (k : string) (d : dict V) : option V :=
    match d with
    | [] => None
    | (k', v) :: d' => if String.eqb k k' then Some v else dget k d'
    end.
  (** k in d — Python dictionaries, as used at init_tools.py:76-230 and preprocessor.py:327-497 *)
  Definition dmem (k : string) (d : dict V) : bool :=
    match dget k d with Some _ => true | None => false end.
  (** d[k] = v: in place, or at the end for a new key — Python dictionaries, as used at init_tools.py:76-230 and preprocessor.py:327-497 *)
  Fixpoint dset (k : string) (v : V) (d : dict V) : dict V :=
    match d with
    | [] => [(k, v)]
    | (k', v') :: d' => if String.eqb k k' then (k, v) :: d' else (k', v') :: dset k v d'
    end.
  (** d.update(e) — Python dictionaries, as used at init_tools.py:76-230 and preprocessor.py:327-497 *)
  Definition dupdate (d e : dict V) : dict V :=
    fold_left (fun acc kv => dset (fst kv) (snd kv) acc) e d.
  (** d without the key k (del d[k], d.pop(k)) — Python dictionaries, as used at init_tools.py:76-230 and preprocessor.py:327-497 *)
  Definition ddel (k : string) (d : dict V) : dict V :=
    filter (fun kv => negb (String.eqb k (fst kv))) d.
  (** list(d.keys()) — Python dictionaries, as used at init_tools.py:76-230 and preprocessor.py:327-497 *)
  Definition dkeys (d : dict V) : list string := map fst d.

  (** ** Facts *)

  Lemma dget_In : forall d k v, dget k d = Some v -> In (k, v) d.
  Proof.
    induction d as [|[k' v'] d IH]; cbn; [discriminate|]. intros k v.
    destruct (String.eqb_spec k k') as [->|N].
    - intros [= ->]. left; reflexivity.
    - intros H. right. apply IH; exact H.
  Qed.

  Lemma dget_key : forall d k v, dget k d = Some v -> In k (dkeys d).
  Proof.
    intros d k v H. apply dget_In in H. apply (in_map fst) in H. exact H.
  Qed.

  Lemma key_dget : forall d k, In k (dkeys d) -> exists v, dget k d = Some v.
  Proof.
    induction d as [|[k' v'] d IH]; cbn; [intros ? []|]. intros k H.
    destruct (String.eqb_spec k k') as [->|N].
    - eauto.
    - destruct H as [H|H]; [congruence|]. apply IH; exact H.
  Qed.

  Lemma dget_None : forall d k, dget k d = None <-> ~ In k (dkeys d).
  Proof.
    intros d k. split.
    - intros H C. apply key_dget in C. destruct C as [v E]. congruence.
    - intros H. destruct (dget k d) eqn:E; [|reflexivity]. apply dget_key in E. contradiction.
  Qed.

  Lemma dmem_iff : forall d k, dmem k d = true <-> In k (dkeys d).
  Proof.
    intros d k. unfold dmem. destruct (dget k d) eqn:E.
    - split; [intros _; apply dget_key in E; exact E|reflexivity].
    - apply dget_None in E. split; [discriminate|contradiction].
  Qed.

  Lemma dmem_false : forall d k, dmem k d = false <-> dget k d = None.
  Proof. intros d k. unfold dmem. destruct (dget k d); split; congruence. Qed.

  Lemma In_dget : forall d k v, NoDup (dkeys d) -> In (k, v) d -> dget k d = Some v.
  Proof.
    induction d as [|[k' v'] d IH]; cbn; [intros ? ? _ []|]. intros k v ND H.
    inversion ND as [|? ? NI ND']; subst.
    destruct H as [[= -> ->]|H].
    - rewrite String.eqb_refl. reflexivity.
    - destruct (String.eqb_spec k k') as [->|N].
      + exfalso. apply NI. apply (in_map fst) in H. exact H.
      + apply IH; assumption.
  Qed.

  Lemma dget_dset : forall d k v x, dget x (dset k v d) = if String.eqb x k then Some v else dget x d.
  Proof.
    induction d as [|[k' v'] d IH]; intros k v x; cbn.
    - destruct (String.eqb x k); reflexivity.
    - destruct (String.eqb_spec k k') as [->|N]; cbn.
      + destruct (String.eqb_spec x k'); reflexivity.
      + rewrite IH. destruct (String.eqb_spec x k') as [->|M]; [|reflexivity].
        destruct (String.eqb_spec k' k); [congruence|reflexivity].
  Qed.

  Lemma dset_keys : forall d k v,
    dkeys (dset k v d) = if dmem k d then dkeys d else (dkeys d ++ [k])%list.
  Proof.
    induction d as [|[k' v'] d IH]; intros k v; cbn; [reflexivity|].
    unfold dmem. cbn. destruct (String.eqb_spec k k') as [->|N]; cbn; [reflexivity|].
    rewrite IH. unfold dmem. destruct (dget k d); reflexivity.
  Qed.

  Lemma NoDup_snoc : forall {T} (l : list T) x, NoDup l -> ~ In x l -> NoDup (l ++ [x])%list.
  Proof.
    intros T l x. induction l as [|y l IH]; cbn; intros ND N.
    - constructor; [intros []|constructor].
    - inversion ND; subst. constructor.
      + rewrite in_app_iff. cbn. intuition congruence.
      + apply IH; intuition.
  Qed.

  Lemma dset_NoDup : forall d k v, NoDup (dkeys d) -> NoDup (dkeys (dset k v d)).
  Proof.
    intros d k v H. rewrite dset_keys. destruct (dmem k d) eqn:E; [exact H|].
    apply NoDup_snoc; [exact H|]. rewrite <- dmem_iff. congruence.
  Qed.

  Lemma In_dset_keys : forall d k v x, In x (dkeys (dset k v d)) <-> x = k \/ In x (dkeys d).
  Proof.
    intros d k v x. rewrite dset_keys. destruct (dmem k d) eqn:E.
    - apply dmem_iff in E. split; [tauto|]. intros [->|H]; assumption.
    - rewrite in_app_iff. cbn. intuition.
  Qed.

  Lemma dupdate_NoDup : forall e d, NoDup (dkeys d) -> NoDup (dkeys (dupdate d e)).
  Proof.
    unfold dupdate. induction e as [|[k v] e IH]; cbn; intros d H; [exact H|].
    apply IH. apply dset_NoDup. exact H.
  Qed.

  Lemma dget_dupdate : forall e d k, NoDup (dkeys e) ->
    dget k (dupdate d e) = match dget k e with Some v => Some v | None => dget k d end.
  Proof.
    unfold dupdate. induction e as [|[k' v'] e IH]; cbn; intros d k ND; [reflexivity|].
    inversion ND as [|? ? NI ND']; subst. rewrite IH by exact ND'. rewrite dget_dset.
    destruct (String.eqb_spec k k') as [->|N]; [|reflexivity].
    apply dget_None in NI. rewrite NI. reflexivity.
  Qed.

  Lemma dkeys_dupdate : forall e d k, In k (dkeys (dupdate d e)) <-> In k (dkeys d) \/ In k (dkeys e).
  Proof.
    unfold dupdate. induction e as [|[k' v'] e IH]; cbn; intros d k; [tauto|].
    rewrite IH, In_dset_keys. intuition congruence.
  Qed.

  Lemma dget_ddel : forall d k x, dget x (ddel k d) = if String.eqb x k then None else dget x d.
  Proof.
    unfold ddel. induction d as [|[k' v'] d IH]; intros k x; cbn.
    - destruct (String.eqb x k); reflexivity.
    - destruct (String.eqb_spec k k') as [->|N]; cbn.
      + rewrite IH. destruct (String.eqb_spec x k'); reflexivity.
      + rewrite IH. destruct (String.eqb_spec x k') as [->|M].
        * destruct (String.eqb_spec k' k); [congruence|reflexivity].
        * reflexivity.
  Qed.

  Lemma NoDup_filter_keys : forall (p : string * V -> bool) d,
    NoDup (dkeys d) -> NoDup (dkeys (filter p d)).
  Proof.
    intros p. induction d as [|[k v] d IH]; cbn; intros H; [constructor|].
    inversion H as [|? ? NI ND]; subst. destruct (p (k, v)); cbn; [|apply IH; exact ND].
    constructor; [|apply IH; exact ND]. intros C. apply NI.
    unfold dkeys in *. rewrite in_map_iff in *. destruct C as [[k2 v2] [E C]].
    apply filter_In in C. exists (k2, v2). tauto.
  Qed.

  Lemma ddel_NoDup : forall d k, NoDup (dkeys d) -> NoDup (dkeys (ddel k d)).
  Proof. intros d k. apply NoDup_filter_keys. Qed.

  Lemma ddel_keys : forall d k x, In x (dkeys (ddel k d)) <-> x <> k /\ In x (dkeys d).
  Proof.
    intros d k x. rewrite <- !dmem_iff. unfold dmem. rewrite dget_ddel.
    destruct (String.eqb_spec x k) as [->|N].
    - split; [discriminate|tauto].
    - tauto.
  Qed.
End Dict.
