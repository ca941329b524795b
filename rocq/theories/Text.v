(** Decimal text of non-negative integers: str(n) and str.zfill, used for
    file and folder names (preprocessor.py:374, 466; iteration_tools.py:399),
    with their injectivity. *)
From Coq Require Import ZArith NArith List Bool String Ascii Lia Decimal DecimalString DecimalN DecimalFacts.
Import ListNotations.
Local Open Scope string_scope.

(** str(n) — preprocessor.py:374, 466; iteration_tools.py:399 *)
Definition pystr (n : N) : string := NilEmpty.string_of_uint (N.to_uint n).

(** n copies of a character — iteration_tools.py:399-402 *)
Fixpoint zeros (n : nat) (s : string) : string :=
  match n with O => s | S n' => String "0" (zeros n' s) end.
(** s.zfill(w) for a string of digits — preprocessor.py:374, 466;
    iteration_tools.py:399 *)
Definition zfill (w : nat) (s : string) : string := zeros (w - String.length s) s.

(** iteration_tools.py:399-402 *)
Fixpoint D0s (n : nat) (u : Decimal.uint) : Decimal.uint :=
  match n with O => u | S n' => Decimal.D0 (D0s n' u) end.

Lemma zeros_uint : forall n u,
  zeros n (NilEmpty.string_of_uint u) = NilEmpty.string_of_uint (D0s n u).
Proof. induction n as [|n IH]; intros u; cbn; [reflexivity|]. rewrite IH. reflexivity. Qed.

Lemma of_uint_D0s : forall n u, N.of_uint (D0s n u) = N.of_uint u.
Proof. induction n as [|n IH]; intros u; cbn; [reflexivity|]. apply IH. Qed.

Lemma zfill_inj : forall w n m, zfill w (pystr n) = zfill w (pystr m) -> n = m.
Proof.
  intros w n m H. unfold zfill, pystr in H. rewrite !zeros_uint in H.
  apply (f_equal NilEmpty.uint_of_string) in H. rewrite !NilEmpty.usu in H.
  injection H as H. apply (f_equal N.of_uint) in H. rewrite !of_uint_D0s in H.
  rewrite !DecimalN.Unsigned.of_to in H. exact H.
Qed.

Lemma append_inj_l : forall p s t, p ++ s = p ++ t -> s = t.
Proof. induction p as [|c p IH]; cbn; intros s t H; [exact H|]. injection H as H. apply IH; exact H. Qed.

Lemma append_length : forall s t, String.length (s ++ t) = (String.length s + String.length t)%nat.
Proof. induction s as [|c s IH]; cbn; intros t; [reflexivity|]. rewrite IH. reflexivity. Qed.

Lemma append_inj_r : forall s t p, s ++ p = t ++ p -> s = t.
Proof.
  induction s as [|c s IH]; intros t p H; destruct t as [|d t]; cbn in H.
  - reflexivity.
  - exfalso. apply (f_equal String.length) in H. cbn in H. rewrite append_length in H. lia.
  - exfalso. apply (f_equal String.length) in H. cbn in H. rewrite append_length in H. lia.
  - injection H as -> H. f_equal. eapply IH; exact H.
Qed.

Lemma append_assoc : forall s t u, (s ++ t) ++ u = s ++ (t ++ u).
Proof. induction s as [|c s IH]; cbn; intros t u; [reflexivity|]. rewrite IH. reflexivity. Qed.

(** The text of a number has no other character than digits. iteration_tools.py:399-402. *)
Definition is_digit (c : ascii) : bool :=
  match nat_of_ascii c with n => Nat.leb 48 n && Nat.leb n 57 end.
(** iteration_tools.py:399-402 *)
Fixpoint all_chars (p : ascii -> bool) (s : string) : bool :=
  match s with EmptyString => true | String c s' => p c && all_chars p s' end.
Lemma uint_digits : forall u, all_chars is_digit (NilEmpty.string_of_uint u) = true.
Proof. induction u; cbn; try rewrite IHu; reflexivity. Qed.
Lemma zeros_digits : forall n s, all_chars is_digit s = true -> all_chars is_digit (zeros n s) = true.
Proof. induction n as [|n IH]; cbn; intros s H; [exact H|]. apply IH; exact H. Qed.
Lemma zfill_digits : forall w n, all_chars is_digit (zfill w (pystr n)) = true.
Proof. intros w n. apply zeros_digits. apply uint_digits. Qed.
