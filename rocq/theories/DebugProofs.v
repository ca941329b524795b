(** Proofs for C74. *)
From Coq Require Import ZArith List Bool Lia.
From Verif Require Import Base Shared SharedSpec SharedProofs Water WalkProofs Debug DebugSpec.
Import ListNotations.
Local Open Scope Z_scope.

Lemma each_ok {X Y} (f : X -> result Y) (rel : X -> Y -> Prop) l l' :
  (forall x y, rel x y -> f x = Ok y) -> Forall2 rel l l' -> each f l = (l', Ok tt).
Proof.
  intros H F. induction F as [|x y l l' Hxy _ IH]; [reflexivity|]. cbn. rewrite (H _ _ Hxy), IH. reflexivity.
Qed.
Lemma each_stop {X Y} (f : X -> result Y) (rel : X -> Y -> Prop) l l' x rest e :
  (forall x y, rel x y -> f x = Ok y) -> Forall2 rel l l' -> f x = Err e ->
  each f (l ++ x :: rest) = (l', Err e).
Proof.
  intros H F E. induction F as [|a y l l' Hxy _ IH]; cbn; [rewrite E; reflexivity|].
  rewrite (H _ _ Hxy), IH. reflexivity.
Qed.
Lemma mapM_rel {X Y} (f : X -> result Y) (rel : X -> Y -> Prop) l l' :
  (forall x y, rel x y -> f x = Ok y) -> Forall2 rel l l' -> mapM f l = Ok l'.
Proof.
  intros H F. induction F as [|x y l l' Hxy _ IH]; [reflexivity|]. cbn. rewrite (H _ _ Hxy). cbn. rewrite IH. reflexivity.
Qed.

Section Debug.
  Variables (L W : Z).
  Notation shape := (L, W).

  Lemma unravel_number c : in_domain shape c -> custom_unravel (number shape c) shape = Ok c.
  Proof. destruct c as [i j]. intros [H1 H2]. cbn in *. apply unravel_ok. unfold inb. lia. Qed.

  Lemma plot_named x c : names shape x c /\ in_domain shape c -> plot_ind shape x = Ok (place c).
  Proof.
    intros [H D]. destruct H as [c|i j]; [|reflexivity]. cbn [plot_ind]. rewrite unravel_number by exact D.
    destruct c. reflexivity.
  Qed.

  Lemma line_number nz c : in_domain shape c ->
    line_point shape nz (number shape c) = Ok (if (number shape c =? 0) && nz then None else Some (place c)).
  Proof.
    intros D. unfold line_point. destruct (_ && _); [reflexivity|]. rewrite unravel_number by exact D.
    destruct c. reflexivity.
  Qed.
  Lemma number_0 c : in_domain shape c -> (number shape c = 0 <-> c = (0, 0)).
  Proof.
    destruct c as [i j]. intros [H1 H2]. unfold number. cbn in *. split; intros H; [|injection H as -> ->; lia].
    assert (i = 0) by nia. subst. f_equal. lia.
  Qed.
End Debug.
