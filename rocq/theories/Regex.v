(** Regular expressions over characters: whether a whole text matches one
    (re.match with ^...$), by derivatives, and what that means. *)
From Coq Require Import List Bool String Ascii Lia.
Import ListNotations.
Local Open Scope string_scope.

(** The constructs used in shared_tools.py:506-518 and in the resolvers of
    the YAML library.  [Cls cs] is a bracket expression: any character of
    [cs]. *)
Inductive re : Type :=
| Void | Eps | Cls (cs : string) | Cat (a b : re) | Alt (a b : re) | Star (a : re).

(** c in cs *)
Fixpoint has (c : ascii) (cs : string) : bool :=
  match cs with
  | "" => false
  | String d cs' => Ascii.eqb c d || has c cs'
  end.

(** A text matches an expression. *)
Inductive Matches : re -> string -> Prop :=
| MEps : Matches Eps ""
| MCls c cs : has c cs = true -> Matches (Cls cs) (String c "")
| MCat a b s t : Matches a s -> Matches b t -> Matches (Cat a b) (s ++ t)
| MAltL a b s : Matches a s -> Matches (Alt a b) s
| MAltR a b s : Matches b s -> Matches (Alt a b) s
| MStar0 a : Matches (Star a) ""
| MStar1 a s t : Matches a s -> Matches (Star a) t -> Matches (Star a) (s ++ t).

(** Abbreviations: a+, a?, a literal word, one of several
    expressions, one after the other. *)
Definition Plus (a : re) : re := Cat a (Star a).
Definition Opt (a : re) : re := Alt a Eps.
Fixpoint Word (s : string) : re :=
  match s with
  | "" => Eps
  | String c s' => Cat (Cls (String c "")) (Word s')
  end.
Fixpoint OneOf (l : list re) : re :=
  match l with
  | [] => Void
  | [a] => a
  | a :: l' => Alt a (OneOf l')
  end.

Fixpoint Seq (l : list re) : re :=
  match l with
  | [] => Eps
  | [a] => a
  | a :: l' => Cat a (Seq l')
  end.

(** The matcher. *)
Fixpoint nullable (r : re) : bool :=
  match r with
  | Void | Cls _ => false
  | Eps | Star _ => true
  | Cat a b => nullable a && nullable b
  | Alt a b => nullable a || nullable b
  end.
Definition cat (a b : re) : re :=
  match a with
  | Void => Void
  | Eps => b
  | _ => Cat a b
  end.
Definition alt (a b : re) : re :=
  match a, b with
  | Void, _ => b
  | _, Void => a
  | _, _ => Alt a b
  end.
Fixpoint deriv (c : ascii) (r : re) : re :=
  match r with
  | Void | Eps => Void
  | Cls cs => if has c cs then Eps else Void
  | Cat a b => if nullable a then alt (cat (deriv c a) b) (deriv c b) else cat (deriv c a) b
  | Alt a b => alt (deriv c a) (deriv c b)
  | Star a => cat (deriv c a) (Star a)
  end.
Fixpoint matches (r : re) (s : string) : bool :=
  match s with
  | "" => nullable r
  | String c s' => matches (deriv c r) s'
  end.

Lemma app_nil_s : forall s, s ++ "" = s.
Proof. induction s as [|c s IH]; cbn; [reflexivity|]. rewrite IH. reflexivity. Qed.

Lemma void_inv : forall s, ~ Matches Void s.
Proof. intros s H. inversion H. Qed.
Lemma alt_inv : forall a b s, Matches (Alt a b) s -> Matches a s \/ Matches b s.
Proof. intros a b s H. inversion H; auto. Qed.
Lemma cls_inv : forall cs s, Matches (Cls cs) s -> exists c, s = String c "" /\ has c cs = true.
Proof. intros cs s H. inversion H; eauto. Qed.

Lemma nullable_ok : forall r, nullable r = true <-> Matches r "".
Proof.
  induction r; cbn; split; intros H; try discriminate.
  - inversion H.
  - constructor.
  - reflexivity.
  - inversion H.
  - apply andb_prop in H as [H1 H2]. change "" with ("" ++ ""). constructor; [apply IHr1|apply IHr2]; assumption.
  - inversion H as [| |a b s t H1 H2 E1 E2| | | |]; subst. destruct s; [|discriminate]. cbn in E2. subst t.
    apply andb_true_intro; split; [apply IHr1|apply IHr2]; assumption.
  - apply orb_prop in H as [H|H]; [apply MAltL, IHr1, H|apply MAltR, IHr2, H].
  - inversion H; subst; apply orb_true_intro; [left; apply IHr1|right; apply IHr2]; assumption.
  - constructor.
  - reflexivity.
Qed.

Lemma cat_ok : forall a b s, Matches (cat a b) s <-> Matches (Cat a b) s.
Proof.
  intros a b s. destruct a; cbn; try tauto; split; intros H.
  - inversion H.
  - inversion H as [| |? ? ? ? H1 H2| | | |]; subst. inversion H1.
  - change s with ("" ++ s). constructor; [constructor|exact H].
  - inversion H as [| |? ? ? ? H1 H2| | | |]; subst. inversion H1; subst. exact H2.
Qed.
Lemma alt_ok : forall a b s, Matches (alt a b) s <-> Matches (Alt a b) s.
Proof.
  intros a b s.
  assert (V : forall r, Matches (Alt Void r) s <-> Matches r s).
  { intros r; split; intros H; [apply alt_inv in H as [H|H]; [destruct (void_inv _ H)|exact H]|apply MAltR, H]. }
  assert (W : forall r, Matches (Alt r Void) s <-> Matches r s).
  { intros r; split; intros H; [apply alt_inv in H as [H|H]; [exact H|destruct (void_inv _ H)]|apply MAltL, H]. }
  destruct a, b; cbn; try tauto; rewrite ?V, ?W; try tauto; symmetry; first [apply V|apply W].
Qed.

Lemma star_inv : forall a c s, Matches (Star a) (String c s) ->
  exists u v, s = u ++ v /\ Matches a (String c u) /\ Matches (Star a) v.
Proof.
  intros a c s H. remember (Star a) as r eqn:Er. remember (String c s) as w eqn:Ew. revert a c s Er Ew.
  induction H; intros a' c' w' Er Ew; try discriminate. injection Er as ->.
  destruct s as [|d s].
  - cbn in Ew. subst t. apply IHMatches2; reflexivity.
  - cbn in Ew. injection Ew as -> <-. exists s, t. auto.
Qed.

Lemma deriv_ok : forall r c s, Matches (deriv c r) s <-> Matches r (String c s).
Proof.
  induction r; intros c s; cbn; split; intros H.
  - inversion H.
  - inversion H.
  - inversion H.
  - inversion H.
  - destruct (has c cs) eqn:E; inversion H; subst. constructor; exact E.
  - apply cls_inv in H as (d & E & Hd). injection E as -> ->. rewrite Hd. constructor.
  - destruct (nullable r1) eqn:E.
    + apply alt_ok in H. apply alt_inv in H as [H2|H2].
      * apply cat_ok in H2. inversion H2 as [| |? ? u v H1 H3| | | |]; subst.
        change (String c (u ++ v)) with (String c u ++ v). constructor; [apply IHr1, H1|exact H3].
      * change (String c s) with ("" ++ String c s). constructor; [apply nullable_ok, E|apply IHr2, H2].
    + apply cat_ok in H. inversion H as [| |? ? u v H1 H3| | | |]; subst.
      change (String c (u ++ v)) with (String c u ++ v). constructor; [apply IHr1, H1|exact H3].
  - inversion H as [| |? ? u v H1 H3 E1 E2| | | |]; subst. destruct u as [|d u].
    + cbn in E2. subst v. pose proof (proj2 (nullable_ok r1) H1) as E. rewrite E.
      apply alt_ok. apply MAltR. apply IHr2, H3.
    + cbn in E2. injection E2 as -> <-.
      assert (K : Matches (cat (deriv c r1) r2) (u ++ v)).
      { apply cat_ok. constructor; [apply IHr1, H1|exact H3]. }
      destruct (nullable r1); [apply alt_ok, MAltL, K|exact K].
  - apply alt_ok in H. apply alt_inv in H as [H2|H2]; [apply MAltL, IHr1, H2|apply MAltR, IHr2, H2].
  - apply alt_ok. apply alt_inv in H as [H2|H2]; [apply MAltL, IHr1, H2|apply MAltR, IHr2, H2].
  - apply cat_ok in H. inversion H as [| |? ? u v H1 H3| | | |]; subst.
    change (String c (u ++ v)) with (String c u ++ v). constructor; [apply IHr, H1|exact H3].
  - apply star_inv in H as (u & v & -> & H1 & H2). apply cat_ok. constructor; [apply IHr, H1|exact H2].
Qed.

(** The matcher decides matching. *)
Theorem matches_ok : forall s r, matches r s = true <-> Matches r s.
Proof.
  induction s as [|c s IH]; intros r; cbn; [apply nullable_ok|]. rewrite IH. apply deriv_ok.
Qed.

(** An expression none of whose characters is [c] matches no text with [c]. *)
Fixpoint avoids (c : ascii) (r : re) : bool :=
  match r with
  | Void | Eps => true
  | Cls cs => negb (has c cs)
  | Cat a b | Alt a b => avoids c a && avoids c b
  | Star a => avoids c a
  end.
Lemma has_app : forall c s t, has c (s ++ t) = has c s || has c t.
Proof. induction s as [|d s IH]; intros t; cbn; [reflexivity|]. rewrite IH. apply orb_assoc. Qed.
Lemma avoids_ok : forall c r s, avoids c r = true -> Matches r s -> has c s = false.
Proof.
  intros c r s H M. induction M; cbn in *; try reflexivity.
  - destruct (Ascii.eqb c c0) eqn:E; [|reflexivity]. apply Ascii.eqb_eq in E. subst. rewrite H0 in H. discriminate.
  - apply andb_prop in H as [H1 H2]. rewrite has_app, IHM1, IHM2; auto.
  - apply andb_prop in H as [H1 H2]. auto.
  - apply andb_prop in H as [H1 H2]. auto.
  - rewrite has_app, IHM1, IHM2; auto.
Qed.

(** An expression every match of which contains [c]. *)
Fixpoint needs (c : ascii) (r : re) : bool :=
  match r with
  | Void => true
  | Eps | Star _ => false
  | Cls cs => match cs with String d "" => Ascii.eqb c d | _ => false end
  | Cat a b => needs c a || needs c b
  | Alt a b => needs c a && needs c b
  end.
Lemma needs_ok : forall c r s, needs c r = true -> Matches r s -> has c s = true.
Proof.
  intros c r s H M. induction M; cbn in *; try discriminate.
  - destruct cs as [|d [|]]; try discriminate. cbn in H0. rewrite orb_false_r in H0.
    apply Ascii.eqb_eq in H. apply Ascii.eqb_eq in H0. subst. rewrite Ascii.eqb_refl. reflexivity.
  - rewrite has_app. apply orb_prop in H as [H|H]; [rewrite IHM1|rewrite IHM2, orb_true_r]; auto.
  - apply andb_prop in H as [H1 H2]. auto.
  - apply andb_prop in H as [H1 H2]. auto.
Qed.

Lemma word_match : forall s, Matches (Word s) s.
Proof.
  induction s as [|c s IH]; cbn; [constructor|]. change (String c s) with (String c "" ++ s).
  constructor; [|exact IH]. constructor. cbn. rewrite Ascii.eqb_refl. reflexivity.
Qed.
