(** Sums and counts of 9-vectors over the reals. *)
From Coq Require Import ZArith List Bool Reals Lra Lia.
From Verif Require Import Base RLemmas.
Import ListNotations.
Local Open Scope R_scope.

(** Plain sum of a 9-vector. *)
Definition sum9 (v : nat -> R) : R :=
  v 0%nat + v 1%nat + v 2%nat + v 3%nat + v 4%nat + v 5%nat + v 6%nat + v 7%nat + v 8%nat.

Lemma lt9 k : (k < 9)%nat ->
  k = 0%nat \/ k = 1%nat \/ k = 2%nat \/ k = 3%nat \/ k = 4%nat \/ k = 5%nat
  \/ k = 6%nat \/ k = 7%nat \/ k = 8%nat.
Proof. lia. Qed.

Lemma D9_In k : In k D9 <-> (k < 9)%nat.
Proof. unfold D9. rewrite in_seq. lia. Qed.

Lemma vsum_X v : vsum (A:=RX) v = sum9 v.
Proof. unfold vsum, sum9, D9. cbn. lra. Qed.

Lemma sum9_nonneg v : (forall k, (k < 9)%nat -> 0 <= v k) -> 0 <= sum9 v.
Proof.
  intros H. unfold sum9.
  pose proof (H 0%nat ltac:(lia)). pose proof (H 1%nat ltac:(lia)).
  pose proof (H 2%nat ltac:(lia)). pose proof (H 3%nat ltac:(lia)).
  pose proof (H 4%nat ltac:(lia)). pose proof (H 5%nat ltac:(lia)).
  pose proof (H 6%nat ltac:(lia)). pose proof (H 7%nat ltac:(lia)).
  pose proof (H 8%nat ltac:(lia)). lra.
Qed.

Lemma sum9_div v t : sum9 (fun k => v k / t) = sum9 v / t.
Proof. unfold sum9, Rdiv. ring. Qed.

Lemma sum9_ge v k : (forall k, (k < 9)%nat -> 0 <= v k) -> (k < 9)%nat -> v k <= sum9 v.
Proof.
  intros H Hk. unfold sum9.
  pose proof (H 0%nat ltac:(lia)). pose proof (H 1%nat ltac:(lia)).
  pose proof (H 2%nat ltac:(lia)). pose proof (H 3%nat ltac:(lia)).
  pose proof (H 4%nat ltac:(lia)). pose proof (H 5%nat ltac:(lia)).
  pose proof (H 6%nat ltac:(lia)). pose proof (H 7%nat ltac:(lia)).
  pose proof (H 8%nat ltac:(lia)).
  apply lt9 in Hk. decompose [or] Hk; subst; lra.
Qed.

Lemma sum9_ext v v' : (forall k, (k < 9)%nat -> v k = v' k) -> sum9 v = sum9 v'.
Proof. intros H. unfold sum9. rewrite !H by lia. reflexivity. Qed.

Lemma sum9_0 v : (forall k, (k < 9)%nat -> v k = 0) -> sum9 v = 0.
Proof. intros H. unfold sum9. rewrite !H by lia. lra. Qed.

Section Rnd.
  Context (rnd : R -> R) {HR : Rounding rnd}.
  Notation A := (RA rnd).

  Lemma vsum_fold_nonneg (v : vec R) (l : list nat) : (forall k, In k l -> 0 <= v k) -> forall acc, 0 <= acc ->
    0 <= fold_left (fun a k => fadd (Arith:=A) a (v k)) l acc.
  Proof.
    induction l as [|k l IH]; intros H acc Ha; cbn; auto.
    apply IH; [intros; apply H; cbn; auto|].
    apply rnd_nonneg; auto. pose proof (H k (or_introl eq_refl)). lra.
  Qed.

  Lemma vsum_nonneg v : (forall k, (k < 9)%nat -> 0 <= v k) -> 0 <= vsum (A:=A) v.
  Proof.
    intros H. unfold vsum. apply vsum_fold_nonneg.
    - intros k Hk. apply H. apply D9_In; auto.
    - ra. rewrite rnd_0. lra.
  Qed.

  Lemma vsum_fold_0 (v : vec R) (l : list nat) : (forall k, In k l -> v k = 0) -> forall acc, rnd acc = acc ->
    fold_left (fun a k => fadd (Arith:=A) a (v k)) l acc = acc.
  Proof.
    induction l as [|k l IH]; intros H acc Ha; cbn; auto.
    rewrite (H k (or_introl eq_refl)), Rplus_0_r, Ha. apply IH; auto.
    intros; apply H; cbn; auto.
  Qed.

  Lemma vsum_0 v : (forall k, (k < 9)%nat -> v k = 0) -> vsum (A:=A) v = 0.
  Proof.
    intros H. unfold vsum. rewrite vsum_fold_0.
    - ra. apply rnd_0.
    - intros k Hk. apply H. apply D9_In; auto.
    - ra. apply rnd_idem.
  Qed.

  Lemma vsum_fold_ge (v : vec R) (l : list nat) : (forall k, In k l -> 0 <= v k) -> forall acc, rnd acc = acc ->
    acc <= fold_left (fun a k => fadd (Arith:=A) a (v k)) l acc.
  Proof.
    induction l as [|k l IH]; intros H acc Ha; cbn; [lra|].
    apply Rle_trans with (rnd (acc + v k)).
    - apply rnd_ge_rep; auto. pose proof (H k (or_introl eq_refl)). lra.
    - apply IH; [|apply rnd_idem]. intros; apply H; cbn; auto.
  Qed.

  Lemma vsum_fold_ge_elt (v : vec R) (l : list nat) j : (forall k, In k l -> 0 <= v k) -> In j l ->
    forall acc, 0 <= acc -> rnd acc = acc ->
    rnd (v j) <= fold_left (fun a k => fadd (Arith:=A) a (v k)) l acc.
  Proof.
    induction l as [|k l IH]; intros H Hj acc Ha Hr; [contradiction|]. cbn.
    destruct Hj as [->|Hj].
    - apply Rle_trans with (rnd (acc + v j)); [apply rnd_mono; lra|].
      apply vsum_fold_ge; [|apply rnd_idem]. intros; apply H; cbn; auto.
    - apply IH; auto; [intros; apply H; cbn; auto| |apply rnd_idem].
      apply rnd_nonneg; auto. pose proof (H k (or_introl eq_refl)). lra.
  Qed.

  Lemma vsum_ge_elt v j : (forall k, (k < 9)%nat -> 0 <= v k) -> (j < 9)%nat ->
    rnd (v j) <= vsum (A:=A) v.
  Proof.
    intros H Hj. unfold vsum. apply vsum_fold_ge_elt.
    - intros k Hk. apply H. apply D9_In; auto.
    - apply D9_In; auto.
    - ra. rewrite rnd_0. lra.
    - ra. apply rnd_idem.
  Qed.

  Lemma vanynan_R v : vanynan (A:=A) v = false.
  Proof. reflexivity. Qed.
End Rnd.

(** *** Counting *)

Lemma vcount_fold (b : vec bool) (l : list nat) : forall acc,
  fold_left (fun a k => if b k : bool then (a + 1)%Z else a) l acc
  = (acc + Z.of_nat (List.length (filter b l)))%Z.
Proof.
  induction l as [|k l IH]; intros acc; cbn [fold_left filter]; [cbn; lia|].
  rewrite IH. destruct (b k); cbn [List.length]; lia.
Qed.

Lemma vcount_length b : vcount b = Z.of_nat (List.length (filter b D9)).
Proof. unfold vcount. rewrite vcount_fold. lia. Qed.

Lemma vcount_pos b : (0 < vcount b)%Z <-> exists k, (k < 9)%nat /\ b k = true.
Proof.
  rewrite vcount_length. split.
  - intros H. destruct (filter b D9) as [|k l] eqn:E; [cbn in H; lia|].
    assert (Hk : In k (filter b D9)) by (rewrite E; cbn; auto).
    apply filter_In in Hk as [Hk Hb]. apply D9_In in Hk. eauto.
  - intros (k & Hk & Hb). assert (Hin : In k (filter b D9)).
    { apply filter_In. split; auto. apply D9_In; auto. }
    destruct (filter b D9); [contradiction|cbn; lia].
Qed.

Lemma vcount_le9 b : (vcount b <= 9)%Z.
Proof.
  rewrite vcount_length.
  assert (List.length (filter b D9) <= List.length D9)%nat.
  { clear. induction D9 as [|k l IH]; cbn; [lia|]. destruct (b k); cbn; lia. }
  unfold D9 in H at 2. rewrite seq_length in H. lia.
Qed.

Lemma sum9_indicator b x : sum9 (fun k => if b k : bool then x else 0) = IZR (vcount b) * x.
Proof.
  unfold sum9, vcount, D9. cbn [seq fold_left].
  destruct (b 0%nat), (b 1%nat), (b 2%nat), (b 3%nat), (b 4%nat), (b 5%nat), (b 6%nat),
    (b 7%nat), (b 8%nat); cbn; lra.
Qed.
