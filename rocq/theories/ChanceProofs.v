(** Random choices follow ChanceSpec.v. *)
From Coq Require Import ZArith List Bool Reals Lra Lia.
From Verif Require Import Base RLemmas Shared SharedSpec SharedProofs Params State Water VecLemmas WaterSpec
  WalkProofs RunProofs ChanceSpec.
Import ListNotations.
Local Open Scope R_scope.

Lemma firstn_map_seq (v : nat -> R) k n : (k <= n)%nat -> firstn k (map v (seq 0 n)) = map v (seq 0 k).
Proof.
  intros H. rewrite firstn_map. f_equal. replace n with (k + (n - k))%nat by lia.
  rewrite seq_app, firstn_app, seq_length, Nat.sub_diag, firstn_O, app_nil_r.
  rewrite firstn_all2; auto. rewrite seq_length. lia.
Qed.

Lemma chosen_ext n v v' u k : (forall m, (m < n)%nat -> v m = v' m) -> chosen n v u k -> chosen n v' u k.
Proof.
  intros H [Hk Hc]. split; auto. unfold upto in *.
  rewrite <- (map_ext_in v v' (seq 0 k)), <- (map_ext_in v v' (seq 0 n)), <- (map_ext_in v v' (seq 0 (Datatypes.S k))); auto;
    intros a Ha; apply in_seq in Ha; apply H; lia.
Qed.

Lemma chosen_scale n v c u k : 0 < c -> chosen n (fun m => c * v m) u k -> chosen n v u k.
Proof.
  intros Hc [Hk H]. split; auto.
  assert (Q : forall m, upto (fun m => c * v m) m = c * upto v m).
  { intros m. unfold upto. induction (seq 0 m) as [|x l IH]; cbn [map rsum]; [ring|]. rewrite IH. ring. }
  rewrite !Q in H. split; apply Rmult_lt_reg_l with c || apply Rmult_le_reg_l with c; auto; nra.
Qed.

Lemma upto_S v k : upto v (Datatypes.S k) = upto v k + v k.
Proof.
  unfold upto. rewrite seq_S, map_app. cbn [map plus].
  assert (Q : forall l x, rsum (l ++ [x]) = rsum l + x).
  { induction l as [|y l IH]; intros x; cbn [app rsum]; [ring|]. rewrite IH. ring. }
  apply Q.
Qed.

Lemma chosen_positive n v u k : chosen n v u k -> 0 < v k.
Proof. intros [_ H]. rewrite upto_S in H. lra. Qed.

Lemma upto_mono v n k m : (forall a, (a < n)%nat -> 0 <= v a) -> (k <= m <= n)%nat -> upto v k <= upto v m.
Proof.
  intros Hv [Hk Hn]. induction Hk as [|m Hm IH]; [lra|]. rewrite upto_S.
  specialize (IH ltac:(lia)). specialize (Hv m ltac:(lia)). lra.
Qed.

(** A variate selects one alternative only, and one at all. *)
Lemma chosen_unique n v u k k' : (forall a, (a < n)%nat -> 0 <= v a) -> chosen n v u k -> chosen n v u k' -> k = k'.
Proof.
  intros Hv [Hk H] [Hk' H'].
  destruct (Nat.lt_trichotomy k k') as [C|[C|C]]; auto; exfalso.
  - pose proof (upto_mono v n (Datatypes.S k) k' Hv ltac:(lia)). lra.
  - pose proof (upto_mono v n (Datatypes.S k') k Hv ltac:(lia)). lra.
Qed.

Section Picks.
  Notation XA := (RA (fun x => x)).
  Context {S : Type} {G : Rng R S}.
  Context (HG : uniform_range G) (Hu : forall s, 0 < fst (draw s)).

  Lemma pick_chosen n v s k s' : (forall m, (m < n)%nat -> 0 <= v m) -> 0 < upto v n ->
    random_pick (A:=XA) (map v (seq 0 n)) s = Ok (k, s') ->
    s' = snd (draw s) /\ chosen n v (fst (draw s)) k.
  Proof.
    intros Hv Hs E.
    assert (Hl : Forall (fun x => 0 <= x) (map v (seq 0 n))).
    { apply Forall_forall. intros x Hx. apply in_map_iff in Hx as (m & <- & Hm). apply in_seq in Hm. apply Hv. lia. }
    assert (Ek : s' = snd (draw s) /\ (k < n)%nat).
    { unfold random_pick, get_random_uniform in E. destruct (draw s) as [u s1] eqn:Ed.
      destruct (Nat.ltb_spec (searchsorted (A:=XA) (cumsum (A:=XA) (map v (seq 0 n)))
        (fmul (Arith:=XA) (last (cumsum (A:=XA) (map v (seq 0 n))) (fz (Arith:=XA) 0)) u)) (List.length (map v (seq 0 n)))) as [Hlt|];
        [|discriminate]. injection E as <- <-. rewrite map_length, seq_length in Hlt. auto. }
    destruct Ek as [-> Hk]. split; auto. split; auto.
    pose proof (HG s) as Hr. specialize (Hu s).
    destruct (random_pick_exact (map v (seq 0 n)) s k) as [Q _]; auto; [lra|rewrite map_length, seq_length; auto|].
    change RX with XA in Q. specialize (Q E). rewrite !firstn_map_seq in Q by lia. unfold upto. lra.
  Qed.

  Lemma ones_upto n : upto (fun _ => 1) n = INR n.
  Proof. induction n as [|n IH]; [reflexivity|]. rewrite upto_S, IH, S_INR. reflexivity. Qed.

  Lemma fold_ones (l : list Z) acc : fold_left (fadd (Arith:=XA)) (map (fun _ => 1) l) acc = acc + INR (List.length l).
  Proof.
    revert acc. induction l as [|x l IH]; intros acc; cbn [map fold_left List.length]; [cbn; lra|].
    rewrite IH, S_INR. ra. lra.
  Qed.

  Lemma const_map (x y : R) (m : list Z) a : x = y -> map (fun _ => x) m = map (fun _ => y) (seq a (List.length m)).
  Proof.
    intros ->. revert a. induction m as [|z m IH]; intros a; cbn [map seq List.length]; [reflexivity|]. f_equal. apply IH.
  Qed.

  Lemma norm_ones (l : list Z) :
    norm_weights (A:=XA) (get_inlet_weights (A:=XA) l) = map (fun _ => / INR (List.length l) * 1) (seq 0 (List.length l)).
  Proof.
    unfold norm_weights, get_inlet_weights. change (fz (Arith:=XA) 1) with 1. change (fz (Arith:=XA) 0) with 0.
    rewrite fold_ones, Rplus_0_l, map_map. apply const_map. ra. unfold Rdiv. ring.
  Qed.

  Lemma starts_drawn inlet n : inlet <> [] -> forall s l s',
    start_loop (A:=XA) inlet (norm_weights (A:=XA) (get_inlet_weights (A:=XA) inlet)) n s = Ok (l, s') ->
    entries inlet l s s'.
  Proof.
    intros Hne. rewrite norm_ones.
    assert (Hn : 0 < INR (List.length inlet)).
    { apply lt_0_INR. destruct inlet; [congruence|cbn; lia]. }
    assert (Hi : 0 < / INR (List.length inlet)) by (apply Rinv_0_lt_compat; auto).
    induction n as [|n IH]; intros s l s' E; cbn [start_loop] in E.
    - injection E as <- <-. constructor.
    - destruct (random_pick _ s) as [[k s1]|] eqn:Ep; [|discriminate].
      apply (pick_chosen (List.length inlet) (fun _ => / INR (List.length inlet) * 1)) in Ep as [-> Hc].
      + destruct (nth_error inlet k) as [c|] eqn:Ek; [|discriminate].
        destruct (start_loop _ _ n _) as [[l1 s2]|] eqn:El; [|discriminate]. injection E as <- <-.
        econstructor; eauto. eapply chosen_scale; [exact Hi|exact Hc].
      + intros. lra.
      + assert (Q : forall m, upto (fun _ => / INR (List.length inlet) * 1) m = / INR (List.length inlet) * INR m).
        { induction m as [|m IHm]; [cbn; ring|]. rewrite upto_S, IHm, S_INR. ring. }
        rewrite Q. apply Rmult_lt_0_compat; auto.
  Qed.

  Lemma entries_drawn inlet n s l s' : inlet <> [] ->
    get_start_indices (A:=XA) inlet (get_inlet_weights (A:=XA) inlet) n s = Ok (l, s') -> entries inlet l s s'.
  Proof. intros Hne E. eapply starts_drawn; eauto. Qed.

  Lemma directions_drawn (P : params R) (w : Z -> Z -> vec R) ps :
    (1 <= p_W P)%Z ->
    Forall (fun p => cur p = 0%Z \/ exists i j, at_cell (p_L P) (p_W P) (cur p) i j /\
       (forall k, (k < 9)%nat -> 0 <= w i j k) /\ 0 < upto (w i j) 9) ps -> forall s ps' s',
    choose_next_directions (A:=XA) P w ps s = Ok (ps', s') -> turns_drawn P w ps (map dir ps') s s'.
  Proof.
    intros HW. induction 1 as [|p ps Hp HF IH]; intros s ps' s' E; cbn [choose_next_directions] in E.
    - injection E as <- <-. constructor.
    - apply rbind_Ok in E as ([d s1] & E1 & E). apply rbind_Ok in E as ([rest s2] & E2 & E).
      injection E as <- <-. cbn [map dir]. apply IH in E2.
      destruct (Z.eqb_spec (cur p) 0) as [E0|E0].
      + injection E1 as <- <-. apply turns_stay; auto.
      + destruct Hp as [Hp|(i & j & Hc & Hw & Hs)]; [contradiction|].
        rewrite flat_ix_ok in E1 by (eapply at_cell_range; eauto). cbn [rbind] in E1.
        destruct (at_cell_div _ _ _ _ _ Hc) as [Ei Ej]. rewrite Ei, Ej in E1.
        apply (pick_chosen 9 (w i j)) in E1 as [-> Hk]; auto. eapply turns_pick; eauto.
  Qed.
End Picks.
