(** The [Rounding] class is inhabited by IEEE round-to-nearest-even in
    binary64 and binary32 (unbounded above: overflow is not represented). *)
From Coq Require Import ZArith Reals Lra Lia.
From Flocq Require Import Core.
From Verif Require Import Base.
Local Open Scope R_scope.

(** Round to nearest even in the format with precision [p] and minimal
    exponent [e]; numpy float64 is (53, -1074), float32 is (24, -149). *)
Definition rne (p e : Z) : R -> R := round radix2 (FLT_exp e p) ZnearestE.

Section Inst.
  Context (p e : Z) (Hp : (20 <= p)%Z) (He : (e <= -4)%Z).
  Local Instance prec_pos : Prec_gt_0 p.
  Proof. unfold Prec_gt_0. lia. Qed.

  Lemma fmt_small n : (Z.abs n <= 1000000)%Z -> generic_format radix2 (FLT_exp e p) (IZR n).
  Proof.
    intros Hn. apply generic_format_FLT.
    exists (Float radix2 n 0); cbn.
    - unfold F2R; cbn. lra.
    - apply Z.lt_le_trans with (2 ^ 20)%Z; [lia|]. apply Z.pow_le_mono_r; lia.
    - lia.
  Qed.

  Lemma fmt_16th : generic_format radix2 (FLT_exp e p) (1 / 16).
  Proof.
    apply generic_format_FLT.
    exists (Float radix2 1 (-4)); cbn.
    - unfold F2R; cbn. lra.
    - change 1%Z with (2 ^ 0)%Z. apply Z.pow_lt_mono_r; lia.
    - lia.
  Qed.

  Lemma rne_Rounding : Rounding (rne p e).
  Proof.
    constructor; unfold rne.
    - intros x y H. apply round_le; [apply FLT_exp_valid; apply prec_pos|apply valid_rnd_N|auto].
    - intros x. apply round_generic; [apply valid_rnd_N|].
      apply generic_format_round; [apply FLT_exp_valid; apply prec_pos|apply valid_rnd_N].
    - intros n Hn. apply round_generic; [apply valid_rnd_N|]. apply fmt_small; auto.
    - apply round_generic; [apply valid_rnd_N|]. apply fmt_16th.
  Qed.
End Inst.

Lemma binary64_Rounding : Rounding (rne 53 (-1074)).
Proof. apply rne_Rounding; lia. Qed.
Lemma binary32_Rounding : Rounding (rne 24 (-149)).
Proof. apply rne_Rounding; lia. Qed.
