(** Facts about real arithmetic with rounding, used by all numeric proofs. *)
From Coq Require Import ZArith List Bool Reals Lra Lia FunctionalExtensionality.
From Flocq Require Import Core.
From Verif Require Import Base.
Import ListNotations.
Local Open Scope R_scope.

Lemma Rltb_true x y : Rltb x y = true <-> x < y.
Proof. unfold Rltb; destruct (Rlt_dec x y); split; congruence || tauto. Qed.
Lemma Rltb_false x y : Rltb x y = false <-> y <= x.
Proof. unfold Rltb; destruct (Rlt_dec x y); split; intros; try congruence; lra. Qed.
Lemma Rleb_true x y : Rleb x y = true <-> x <= y.
Proof. unfold Rleb; destruct (Rle_dec x y); split; congruence || tauto. Qed.
Lemma Rleb_false x y : Rleb x y = false <-> y < x.
Proof. unfold Rleb; destruct (Rle_dec x y); split; intros; try congruence; lra. Qed.
Lemma Reqb_true x y : Reqb x y = true <-> x = y.
Proof. unfold Reqb; destruct (Req_EM_T x y); split; congruence || tauto. Qed.
Lemma Reqb_false x y : Reqb x y = false <-> x <> y.
Proof. unfold Reqb; destruct (Req_EM_T x y); split; congruence || tauto. Qed.

Lemma Rltb_spec x y : Bool.reflect (x < y) (Rltb x y).
Proof. unfold Rltb; destruct (Rlt_dec x y); constructor; auto. Qed.
Lemma Rleb_spec x y : Bool.reflect (x <= y) (Rleb x y).
Proof. unfold Rleb; destruct (Rle_dec x y); constructor; auto. Qed.
Lemma Reqb_spec x y : Bool.reflect (x = y) (Reqb x y).
Proof. unfold Reqb; destruct (Req_EM_T x y); constructor; auto. Qed.

Section Rnd.
  Context (rnd : R -> R) {HR : Rounding rnd}.

  Lemma rnd_nonneg x : 0 <= x -> 0 <= rnd x.
  Proof. intros H. rewrite <- rnd_0 at 1. apply rnd_mono; auto. Qed.
  Lemma rnd_nonpos x : x <= 0 -> rnd x <= 0.
  Proof. intros H. rewrite <- rnd_0. apply rnd_mono; auto. Qed.
  Lemma rnd_le_1 x : x <= 1 -> rnd x <= 1.
  Proof. intros H. rewrite <- rnd_1. apply rnd_mono; auto. Qed.
  Lemma rnd_ge_1 x : 1 <= x -> 1 <= rnd x.
  Proof. intros H. rewrite <- rnd_1 at 1. apply rnd_mono; auto. Qed.
  Lemma rnd_le_rep x y : rnd y = y -> x <= y -> rnd x <= y.
  Proof. intros E H. rewrite <- E. apply rnd_mono; auto. Qed.
  Lemma rnd_ge_rep x y : rnd y = y -> y <= x -> y <= rnd x.
  Proof. intros E H. rewrite <- E at 1. apply rnd_mono; auto. Qed.
  Lemma rnd_pos_inv x : 0 < rnd x -> 0 < x.
  Proof.
    intros H. destruct (Rlt_le_dec 0 x) as [|Hx]; auto.
    apply rnd_nonpos in Hx. lra.
  Qed.
  Lemma rnd_neg_inv x : rnd x < 0 -> x < 0.
  Proof.
    intros H. destruct (Rlt_le_dec x 0) as [|Hx]; auto.
    apply rnd_nonneg in Hx. lra.
  Qed.
  Lemma rnd_lt_inv x y : rnd x < rnd y -> x < y.
  Proof.
    intros H. destruct (Rlt_le_dec x y) as [|Hx]; auto.
    apply rnd_mono in Hx. lra.
  Qed.

  Lemma fmax_R x y : @fmax R (RA rnd) x y = Rmax x y.
  Proof.
    unfold fmax; cbn. destruct (Rltb_spec x y).
    - rewrite Rmax_right; lra.
    - rewrite Rmax_left; lra.
  Qed.
  Lemma fmin_R x y : @fmin R (RA rnd) x y = Rmin x y.
  Proof.
    unfold fmin; cbn. destruct (Rltb_spec y x).
    - rewrite Rmin_right; lra.
    - rewrite Rmin_left; lra.
  Qed.
  Lemma npmax_R x y : @npmax R (RA rnd) x y = Rmax x y.
  Proof. unfold npmax; cbn. apply fmax_R. Qed.
  Lemma npmin_R x y : @npmin R (RA rnd) x y = Rmin x y.
  Proof. unfold npmin; cbn. apply fmin_R. Qed.
End Rnd.

Lemma Rmax_rep rnd x y : rnd x = x -> rnd y = y -> rnd (Rmax x y) = Rmax x y.
Proof. intros; unfold Rmax; destruct (Rle_dec x y); auto. Qed.
Lemma Rmin_rep rnd x y : rnd x = x -> rnd y = y -> rnd (Rmin x y) = Rmin x y.
Proof. intros; unfold Rmin; destruct (Rle_dec x y); auto. Qed.

Lemma npow_nonneg x y : 0 <= npow x y.
Proof.
  unfold npow. destruct (Req_EM_T x 0).
  - destruct (Req_EM_T y 0); lra.
  - destruct (Rlt_dec 0 x); [|lra]. left. unfold Rpower. apply exp_pos.
Qed.
Lemma npow_pos x y : 0 < x -> 0 < npow x y.
Proof.
  intros H. unfold npow. destruct (Req_EM_T x 0); [lra|].
  destruct (Rlt_dec 0 x); [|lra]. unfold Rpower. apply exp_pos.
Qed.
Lemma npow_0 y : y <> 0 -> npow 0 y = 0.
Proof.
  intros H. unfold npow. destruct (Req_EM_T 0 0); [|lra].
  destruct (Req_EM_T y 0); lra.
Qed.
Lemma npow_1 x : 0 <= x -> npow x 1 = x.
Proof.
  intros H. unfold npow. destruct (Req_EM_T x 0).
  - destruct (Req_EM_T 1 0); lra.
  - destruct (Rlt_dec 0 x); [|lra]. apply Rpower_1; auto.
Qed.
Lemma npow_2 x : 0 <= x -> npow x 2 = x * x.
Proof.
  intros H. unfold npow. destruct (Req_EM_T x 0).
  - subst. destruct (Req_EM_T 2 0); lra.
  - destruct (Rlt_dec 0 x) as [Hx|]; [|lra].
    replace 2 with (INR 2) by (cbn; lra). rewrite Rpower_pow by auto. cbn. lra.
Qed.
Lemma npow_mono x y p : 0 <= p -> 0 <= x <= y -> npow x p <= npow y p.
Proof.
  intros Hp [Hx Hxy]. unfold npow.
  destruct (Req_EM_T x 0) as [->|Hx0].
  - destruct (Req_EM_T p 0) as [->|].
    + destruct (Req_EM_T y 0); [lra|].
      destruct (Rlt_dec 0 y); [|lra]. rewrite Rpower_O; lra.
    + pose proof (npow_nonneg y p) as Hn. unfold npow in Hn.
      destruct (Req_EM_T p 0) in Hn; [contradiction|exact Hn].
  - destruct (Rlt_dec 0 x) as [Hx'|]; [|lra].
    destruct (Req_EM_T y 0); [lra|].
    destruct (Rlt_dec 0 y); [|lra].
    apply Rle_Rpower_l; lra.
Qed.

Lemma last_cons {T} (x : T) l d : last (x :: l) d = last l x.
Proof.
  revert x d. induction l as [|y l IH]; intros x d; [reflexivity|].
  change (last (x :: y :: l) d) with (last (y :: l) d). rewrite IH. symmetry. apply IH.
Qed.

(** Unfold the real-number arithmetic instances. *)
Ltac ra := cbn [fz fadd fsub fmul fdiv fabs fopp fltb fleb feqb fsqrt fpow frint ftrunc ffloor fnan RA RX].
Ltac ra_in H := cbn [fz fadd fsub fmul fdiv fabs fopp fltb fleb feqb fsqrt fpow frint ftrunc ffloor fnan RA RX] in H.
