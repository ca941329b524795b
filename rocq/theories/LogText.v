(** The text of large step numbers (C77). *)
From Coq Require Import ZArith NArith List Bool String Ascii Lia DecimalString DecimalN.
From Verif Require Import Base Text Log YamlProofs.
Import ListNotations.
Local Open Scope string_scope.
Local Open Scope N_scope.

(** The number of digits. *)
Fixpoint ulen (u : Decimal.uint) : nat :=
  match u with
  | Decimal.Nil => 0%nat
  | Decimal.D0 u | Decimal.D1 u | Decimal.D2 u | Decimal.D3 u | Decimal.D4 u
  | Decimal.D5 u | Decimal.D6 u | Decimal.D7 u | Decimal.D8 u | Decimal.D9 u => S (ulen u)
  end.
Lemma ulen_length u : String.length (NilEmpty.string_of_uint u) = ulen u.
Proof. induction u; cbn [NilEmpty.string_of_uint String.length ulen]; congruence. Qed.
Lemma uval_bounds u : forall acc, (0 <= acc)%Z ->
  (acc * 10 ^ Z.of_nat (ulen u) <= uval acc u < (acc + 1) * 10 ^ Z.of_nat (ulen u))%Z.
Proof.
  induction u; intros acc H; cbn [ulen uval]; rewrite ?Nat2Z.inj_succ, ?Z.pow_succ_r by lia;
    [change (10 ^ Z.of_nat 0)%Z with 1%Z; lia |..];
    match goal with |- context [uval ?a u] => specialize (IHu a ltac:(lia)) end; nia.
Qed.
Lemma pystr_length n : n <> 0 ->
  (0 < String.length (pystr n))%nat /\
  10 ^ (N.of_nat (String.length (pystr n) - 1)) <= n < 10 ^ (N.of_nat (String.length (pystr n) - 1) + 1).
Proof.
  intros H0. unfold pystr. rewrite ulen_length. pose proof (uval_N (N.to_uint n)) as E. rewrite DecimalN.Unsigned.of_to in E.
  destruct (to_uint_head n) as [K | [K1 K2]].
  { rewrite K in E. cbn in E. lia. }
  assert (B : exists u a, (1 <= a <= 9)%Z /\ uval 0 (N.to_uint n) = uval a u /\ ulen (N.to_uint n) = S (ulen u)).
  { destruct (N.to_uint n) as [|u|u|u|u|u|u|u|u|u|u]; [congruence | destruct (K2 u eq_refl) |..];
      eexists u, _; (split; [| split; [reflexivity | reflexivity]]); lia. }
  destruct B as (u & a & Ha & E1 & E2). rewrite E2. split; [lia |].
  replace (S (ulen u) - 1)%nat with (ulen u) by lia.
  pose proof (uval_bounds u a ltac:(lia)) as B. rewrite E1 in E.
  rewrite N.pow_add_r. change (10 ^ 1) with 10.
  assert (P : Z.of_N (10 ^ N.of_nat (ulen u)) = (10 ^ Z.of_nat (ulen u))%Z) by (rewrite N2Z.inj_pow, nat_N_Z; reflexivity).
  assert (0 < 10 ^ Z.of_nat (ulen u))%Z by (apply Z.pow_pos_nonneg; lia).
  split; [apply N2Z.inj_le | apply N2Z.inj_lt]; rewrite ?N2Z.inj_mul, P, E; nia.
Qed.
Lemma strip0_spec k : forall m, m <> 0 -> m < 10 ^ N.of_nat (S k) ->
  exists j, m = strip0 k m * 10 ^ j /\ strip0 k m mod 10 <> 0.
Proof.
  induction k as [|k IH]; intros m H B; cbn [strip0].
  - exists 0. split; [now rewrite N.mul_1_r |]. change (10 ^ N.of_nat 1) with 10 in B. rewrite N.mod_small; assumption.
  - destruct (N.eqb_spec (m mod 10) 0) as [E | E].
    + assert (D : m = 10 * (m / 10)) by (pose proof (N.div_mod m 10 ltac:(discriminate)); lia).
      rewrite Nat2N.inj_succ, N.pow_succ_r' in B.
      destruct (IH (m / 10)) as (j & E1 & E2); [lia | rewrite Nat2N.inj_succ, N.pow_succ_r' in *; lia |].
      exists (N.succ j). split; [| exact E2]. rewrite N.pow_succ_r'. lia.
    + exists 0. split; [now rewrite N.mul_1_r | exact E].
Qed.
(** The nearest multiple; halfway, an even one. *)
Definition nearest (n d q : N) : Prop :=
  2 * n <= 2 * (q * d) + d /\ 2 * (q * d) <= 2 * n + d /\
  (2 * n = 2 * (q * d) + d \/ 2 * (q * d) = 2 * n + d -> N.even q = true).
Lemma div_half_even_spec n d : d <> 0 -> nearest n d (div_half_even n d).
Proof.
  intros H. unfold nearest, div_half_even. pose proof (N.div_mod n d H) as E. pose proof (N.mod_lt n d H) as B.
  set (q := n / d) in *. set (r := n mod d) in *. clearbody q r.
  destruct (N.ltb_spec d (2 * r)); cbn [orb].
  - repeat split; try nia. 
  - destruct (N.eqb_spec (2 * r) d) as [Er | Er]; cbn [andb].
    + destruct (N.odd q) eqn:O; repeat split; try nia.
      * intros _. now rewrite N.add_1_r, N.even_succ.
      * intros _. unfold N.odd in O. now destruct (N.even q).
    + repeat split; try nia.
Qed.
(** Six digits [m] with the point after the first, times ten to the [e]. *)
Lemma pyg_large n : 1000000 <= n -> exists m e t k c rest,
  100000 <= m < 1000000 /\ 6 <= e /\ nearest n (10 ^ (e - 5)) m /\
  m = t * 10 ^ k /\ t mod 10 <> 0 /\ pystr t = String c rest /\
  pyg n = String c (match rest with EmptyString => "" | _ => "." ++ rest end) ++ "e+" ++ zfill 2 (pystr e).
Proof.
  intros H. unfold pyg. destruct (N.ltb_spec n 1000000); [lia |].
  destruct (pystr_length n ltac:(lia)) as (L & B1 & B2). set (e := N.of_nat (String.length (pystr n) - 1)) in *. clearbody e.
  assert (He : 6 <= e).
  { destruct (N.le_gt_cases 6 e) as [|K]; [assumption |]. exfalso.
    assert (10 ^ (e + 1) <= 10 ^ 6) by (apply N.pow_le_mono_r; lia). change (10 ^ 6) with 1000000 in *. lia. }
  assert (Ed : 10 ^ e = 10 ^ 5 * 10 ^ (e - 5)) by (rewrite <- N.pow_add_r; f_equal; lia).
  assert (Ed' : 10 ^ (e + 1) = 10 ^ 6 * 10 ^ (e - 5)) by (rewrite <- N.pow_add_r; f_equal; lia).
  change (10 ^ 5) with 100000 in Ed. change (10 ^ 6) with 1000000 in Ed'.
  assert (Dp : 10 ^ (e - 5) <> 0) by (apply N.pow_nonzero; discriminate).
  pose proof (div_half_even_spec n (10 ^ (e - 5)) Dp) as D.
  set (d := 10 ^ (e - 5)) in *. set (m := div_half_even n d) in *. cbv zeta.
  assert (Bm : 100000 <= m <= 1000000).
  { destruct D as (D1 & D2 & _). clearbody d m. split; apply N.nlt_ge; intros K.
    - assert (m * d + d <= 100000 * d) by nia. lia.
    - assert (1000000 * d + d <= m * d) by nia. lia. }
  assert (Q : exists m' e', (if m =? 1000000 then (100000, e + 1) else (m, e)) = (m', e') /\
    100000 <= m' < 1000000 /\ 6 <= e' /\ nearest n (10 ^ (e' - 5)) m').
  { destruct (N.eqb_spec m 1000000) as [E | E].
    - exists 100000, (e + 1). split; [reflexivity |]. split; [lia |]. split; [lia |].
      replace (10 ^ (e + 1 - 5)) with (10 * d).
      2:{ unfold d. rewrite <- N.pow_succ_r'. f_equal. lia. }
      rewrite E in D. destruct D as (D1 & D2 & _). clearbody d. repeat split; lia.
    - exists m, e. repeat split; try lia; apply D. }
  destruct Q as (m' & e' & -> & Hm & He' & N').
  destruct (strip0_spec 5 m') as (k & K1 & K2); [lia | change (10 ^ N.of_nat 6) with 1000000; lia |].
  destruct (pystr (strip0 5 m')) as [|c rest] eqn:Et.
  { destruct (pystr_length (strip0 5 m')) as (K & _); [intros Z; rewrite Z in K2; now apply K2 |]. rewrite Et in K. cbn in K. lia. }
  exists m', e', (strip0 5 m'), k, c, rest. repeat split; try assumption; try lia; apply N'.
Qed.
