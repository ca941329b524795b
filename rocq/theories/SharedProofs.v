From Coq Require Import ZArith List Bool Reals Lra Lia String.
From Flocq Require Import Core.
From Verif Require Import Base RLemmas Shared SharedSpec.
Import ListNotations.

Section PadProofs.
  Local Open Scope Z_scope.
  Context {T : Type}.

  Ltac bcase :=
    repeat match goal with
    | |- context [Z.leb ?a ?b] => destruct (Z.leb_spec a b)
    | |- context [Z.ltb ?a ?b] => destruct (Z.ltb_spec a b)
    end; cbn [andb].

  Lemma custom_pad_edge (d : T) L W arr : 1 <= L -> 1 <= W ->
    forall a b, 0 <= a < L + 2 -> 0 <= b < W + 2 ->
    custom_pad d L W arr a b = nearest L W arr (a - 1) (b - 1).
  Proof.
    intros HL HW a b Ha Hb. unfold custom_pad, slice_write, nearest, clamp.
    assert (Ra : a = 0 \/ 1 <= a <= L \/ a = L + 1) by lia.
    assert (Rb : b = 0 \/ 1 <= b <= W \/ b = W + 1) by lia.
    destruct Ra as [->|[Ra| ->]]; destruct Rb as [->|[Rb| ->]];
    repeat match goal with
    | |- context [Z.leb ?a ?b] =>
        first [ replace (Z.leb a b) with true by (symmetry; apply Z.leb_le; lia)
              | replace (Z.leb a b) with false by (symmetry; apply Z.leb_gt; lia) ]
    | |- context [Z.ltb ?a ?b] =>
        first [ replace (Z.ltb a b) with true by (symmetry; apply Z.ltb_lt; lia)
              | replace (Z.ltb a b) with false by (symmetry; apply Z.ltb_ge; lia) ]
    end; cbn [andb]; f_equal; lia.
  Qed.

  Lemma window_in_pad L W i j k : inb L W i j -> (k < 9)%nat ->
    let a := i + Z.of_nat k / 3 in let b := j + Z.of_nat k mod 3 in
    0 <= a < L + 2 /\ 0 <= b < W + 2.
  Proof.
    intros [Hi Hj] Hk. cbn zeta.
    assert (0 <= Z.of_nat k / 3 <= 2).
    { split; [apply Z.div_pos; lia|]. apply Z.lt_succ_r. apply Z.div_lt_upper_bound; lia. }
    pose proof (Z.mod_pos_bound (Z.of_nat k) 3). lia.
  Qed.

  Lemma pad_window (d : T) L W arr i j k : inb L W i j -> (k < 9)%nat ->
    window (custom_pad d L W arr) i j k
    = nearest L W arr (i + Z.of_nat k / 3 - 1) (j + Z.of_nat k mod 3 - 1).
  Proof.
    intros H Hk. unfold window.
    pose proof (window_in_pad L W i j k H Hk) as [Ha Hb]. destruct H.
    apply custom_pad_edge; lia.
  Qed.

  Lemma nearest_in L W (arr : grid T) i j : inb L W i j -> nearest L W arr i j = arr i j.
  Proof.
    intros [Hi Hj]. unfold nearest, clamp. f_equal; lia.
  Qed.

  Lemma pad_window_centre (d : T) L W arr i j : inb L W i j ->
    window (custom_pad d L W arr) i j 4%nat = arr i j.
  Proof.
    intros H. rewrite pad_window by (auto; lia).
    change (Z.of_nat 4 / 3) with 1. change (Z.of_nat 4 mod 3) with 1.
    replace (i + 1 - 1) with i by lia. replace (j + 1 - 1) with j by lia.
    apply nearest_in; auto.
  Qed.

  (** A window cell whose neighbour lies in the domain is that neighbour. *)
  Lemma pad_window_nb (d : T) L W arr i j k : inb L W i j -> (k < 9)%nat ->
    inb L W (i + (Z.of_nat k / 3 - 1)) (j + (Z.of_nat k mod 3 - 1)) ->
    window (custom_pad d L W arr) i j k
    = arr (i + (Z.of_nat k / 3 - 1)) (j + (Z.of_nat k mod 3 - 1)).
  Proof.
    intros H Hk Hn. rewrite pad_window by auto.
    rewrite <- (nearest_in L W arr) by auto. f_equal; lia.
  Qed.
End PadProofs.

Section RavelProofs.
  Local Open Scope Z_scope.

  Lemma walk_steps k : (k < 9)%nat ->
    jwalk_flat k = Z.of_nat k / 3 - 1 /\ iwalk_flat k = Z.of_nat k mod 3 - 1.
  Proof.
    intros H. do 9 (destruct k as [|k]; [split; reflexivity|]). lia.
  Qed.

  Lemma ravel_ok L W i j : inb L W i j ->
    custom_ravel (i, j) (L, W) = Ok (i * W + j).
  Proof.
    intros [Hi Hj]. unfold custom_ravel.
    destruct (Z.ltb_spec L i); [lia|]. destruct (Z.ltb_spec W j); [lia|]. reflexivity.
  Qed.

  Lemma unravel_ok L W i j : inb L W i j ->
    custom_unravel (i * W + j) (L, W) = Ok (i, j).
  Proof.
    intros [Hi Hj]. unfold custom_unravel.
    destruct (Z.ltb_spec (W * L) (i * W + j)); [nia|].
    rewrite Z.div_add_l by lia. rewrite (Z.div_small j) by lia.
    rewrite (Z.add_comm (i * W) j), Z.mod_add by lia. rewrite Z.mod_small by lia.
    repeat f_equal; lia.
  Qed.

  Lemma unravel_inb L W n : 0 <= n < L * W -> 1 <= W ->
    exists i j, custom_unravel n (L, W) = Ok (i, j) /\ inb L W i j /\ i * W + j = n.
  Proof.
    intros Hn HW. unfold custom_unravel.
    destruct (Z.ltb_spec (W * L) n); [lia|].
    exists (n / W), (n mod W). split; [reflexivity|].
    pose proof (Z.mod_pos_bound n W). pose proof (Z.div_mod n W).
    assert (0 <= n / W) by (apply Z.div_pos; lia).
    assert (n / W < L) by (apply Z.div_lt_upper_bound; lia).
    unfold inb. lia.
  Qed.

  Lemma ravel_unravel L W i j : inb L W i j ->
    (do n <- custom_ravel (i, j) (L, W); custom_unravel n (L, W)) = Ok (i, j).
  Proof. intros H. rewrite ravel_ok by auto. cbn. apply unravel_ok; auto. Qed.

  Lemma unravel_ravel L W n : 0 <= n < L * W -> 1 <= W ->
    (do c <- custom_unravel n (L, W); custom_ravel c (L, W)) = Ok n.
  Proof.
    intros H HW. destruct (unravel_inb L W n H HW) as (i & j & E & Hij & En).
    rewrite E. cbn [rbind]. rewrite ravel_ok by auto. congruence.
  Qed.

  Lemma ravel_inj L W i j i' j' n : inb L W i j -> inb L W i' j' ->
    custom_ravel (i, j) (L, W) = Ok n -> custom_ravel (i', j') (L, W) = Ok n ->
    i = i' /\ j = j'.
  Proof.
    intros H H' E E'.
    pose proof (ravel_unravel L W i j H) as U. rewrite E in U.
    pose proof (ravel_unravel L W i' j' H') as U'. rewrite E' in U'.
    rewrite U in U'. inversion U'. auto.
  Qed.

  Lemma unravel_reject L W n : L * W < n -> custom_unravel n (L, W) = Err IndexError.
  Proof.
    intros H. unfold custom_unravel. destruct (Z.ltb_spec (W * L) n); [reflexivity|lia].
  Qed.
  Lemma ravel_reject L W i j : L < i \/ W < j -> custom_ravel (i, j) (L, W) = Err IndexError.
  Proof.
    intros H. unfold custom_ravel.
    destruct (Z.ltb_spec L i); [reflexivity|]. destruct (Z.ltb_spec W j); [reflexivity|]. lia.
  Qed.

  Lemma unravel_accepts_end L W : 1 <= L -> 1 <= W ->
    custom_unravel (L * W) (L, W) = Ok (L, 0) /\ ~ inb L W L 0.
  Proof.
    intros. unfold custom_unravel. destruct (Z.ltb_spec (W * L) (L * W)); [lia|].
    rewrite Z.div_mul, Z.mod_mul by lia. split; auto. unfold inb; lia.
  Qed.
  Lemma ravel_accepts_end L W : 1 <= L -> 1 <= W ->
    custom_ravel (L, W) (L, W) = Ok (L * W + W) /\ ~ inb L W L W.
  Proof.
    intros. unfold custom_ravel.
    destruct (Z.ltb_spec L L); [lia|]. destruct (Z.ltb_spec W W); [lia|].
    split; auto. unfold inb; lia.
  Qed.

  (** The flattened walk is the flat displacement of the 2-D step. *)
  Lemma ravel_walk_step L W i j k : inb L W i j -> (k < 9)%nat ->
    inb L W (i + jwalk_flat k) (j + iwalk_flat k) ->
    custom_ravel (i + jwalk_flat k, j + iwalk_flat k) (L, W)
    = Ok (i * W + j + ravel_walk_flat W k).
  Proof.
    intros H Hk Hn. rewrite ravel_ok by auto. f_equal. unfold ravel_walk_flat. lia.
  Qed.
End RavelProofs.

Section PickProofs.
  Local Open Scope R_scope.
  Context (rnd : R -> R) {HR : Rounding rnd} {S : Type} {G : Rng R S}.
  Notation A := (RA rnd).

  Definition nonneg (l : list R) := Forall (fun x => 0 <= x) l.

  Lemma cumsum_from_length (B : Arith R) l : forall acc,
    List.length (cumsum_from (A:=B) acc l) = List.length l.
  Proof. induction l; cbn; intros; auto. Qed.

  (** With non-negative weights the running sum starts at [acc] and
      increases; the search lands on a positive weight. *)
  Lemma search_spec l : nonneg l -> forall acc v, rnd acc = acc ->
    let c := cumsum_from (A:=A) acc l in
    acc < v -> v <= last c acc ->
    exists k w, searchsorted (A:=A) c v = k /\ nth_error l k = Some w /\ 0 < w.
  Proof.
    induction l as [|x l IH]; intros Hl acc v Ha c Hv Hlast.
    - subst c; cbn in *; lra.
    - inversion Hl as [|? ? Hx Hl']; subst. subst c.
      cbn [cumsum_from] in *. rewrite last_cons in Hlast. cbn in *.
      destruct (Rltb_spec (rnd (acc + x)) v) as [Hlt|Hge].
      + destruct (IH Hl' (rnd (acc + x)) v (rnd_idem _) Hlt Hlast)
          as (k & w & Ek & Ew & Hw).
        exists (Datatypes.S k), w. rewrite Ek. auto.
      + exists O, x. repeat split; auto.
        destruct (Rlt_le_dec 0 x) as [|Hx0]; auto. exfalso.
        assert (x = 0) by lra. subst x.
        rewrite Rplus_0_r, Ha in Hge. lra.
  Qed.

  Lemma cumsum_last_ge l : nonneg l -> forall acc, rnd acc = acc ->
    acc <= last (cumsum_from (A:=A) acc l) acc.
  Proof.
    induction l as [|x l IH]; intros Hl acc Ha; cbn [cumsum_from]; [cbn; lra|].
    inversion Hl as [|? ? Hx Hl']; subst. rewrite last_cons. ra.
    apply Rle_trans with (rnd (acc + x)).
    - apply rnd_ge_rep; auto. lra.
    - apply IH; auto. apply rnd_idem.
  Qed.

  Lemma cumsum_last_rep l : forall acc, rnd acc = acc ->
    rnd (last (cumsum_from (A:=A) acc l) acc) = last (cumsum_from (A:=A) acc l) acc.
  Proof.
    induction l as [|x l IH]; intros acc Ha; cbn [cumsum_from]; [cbn; auto|].
    rewrite last_cons. ra. apply IH. apply rnd_idem.
  Qed.

  Lemma search_le_first l : forall acc v, (0 < List.length l)%nat -> nonneg l ->
    rnd acc = acc -> v <= last (cumsum_from (A:=A) acc l) acc ->
    (searchsorted (A:=A) (cumsum_from (A:=A) acc l) v < List.length l)%nat.
  Proof.
    induction l as [|x l IH]; intros acc v Hlen Hl Ha Hv; [cbn in Hlen; lia|].
    inversion Hl as [|? ? Hx Hl']; subst.
    cbn [cumsum_from] in *. rewrite last_cons in Hv. cbn in *.
    destruct (Rltb_spec (rnd (acc + x)) v) as [Hlt|Hge]; [|lia].
    apply -> Nat.succ_lt_mono. apply IH; auto; [|apply rnd_idem].
    destruct l; cbn in *; [lra|lia].
  Qed.

  Lemma last_default (l : list R) a b : l <> [] -> last l a = last l b.
  Proof.
    destruct l as [|x l]; [congruence|]. intros _. rewrite !last_cons. reflexivity.
  Qed.

  (** The pick is always in range. *)
  Lemma random_pick_ok l s : uniform_range G -> l <> [] -> nonneg l ->
    exists k s', random_pick (A:=A) l s = Ok (k, s') /\ (k < List.length l)%nat
      /\ s' = snd (draw s).
  Proof.
    intros HG Hne Hl. unfold random_pick, get_random_uniform.
    specialize (HG s). destruct (draw s) as [u s'] eqn:Ed. cbn in HG.
    set (c := cumsum (A:=A) l).
    assert (Hlast : last c (fz (Arith:=A) 0) = last c 0).
    { apply last_default. subst c. destruct l; [congruence|discriminate]. }
    assert (R0 : rnd 0 = 0) by apply rnd_0.
    assert (Hc : c = cumsum_from (A:=A) 0 l).
    { subst c. unfold cumsum. cbn. rewrite R0. reflexivity. }
    assert (Hrep : rnd (last c 0) = last c 0) by (rewrite Hc; apply cumsum_last_rep; auto).
    assert (Hge : 0 <= last c 0) by (rewrite Hc; apply cumsum_last_ge; auto).
    assert (Hlt : (searchsorted (A:=A) c (rnd (last c 0%R * u)%R) < List.length l)%nat).
    { rewrite Hc. apply search_le_first; auto.
      - destruct l; [congruence|cbn; lia].
      - rewrite <- Hc. apply rnd_le_rep; auto. nra. }
    rewrite Hlast. cbn [fmul RA].
    exists (searchsorted (A:=A) c (rnd (last c 0%R * u)%R)), s'.
    destruct (Nat.ltb_spec (searchsorted (A:=A) c (rnd (last c 0%R * u)%R)) (List.length l)); [|lia].
    cbn [snd]. auto.
  Qed.

  (** ... and, unless the scaled draw is zero, has positive weight. *)
  Lemma random_pick_pos l s : uniform_range G -> nonneg l ->
    0 < rnd (last (cumsum (A:=A) l) 0 * fst (draw s)) ->
    exists k s' w, random_pick (A:=A) l s = Ok (k, s') /\ nth_error l k = Some w /\ 0 < w.
  Proof.
    intros HG Hl Hpos. unfold random_pick, get_random_uniform.
    specialize (HG s). destruct (draw s) as [u s'] eqn:Ed. cbn in HG, Hpos.
    set (c := cumsum (A:=A) l) in *.
    assert (R0 : rnd 0 = 0) by apply rnd_0.
    assert (Hc : c = cumsum_from (A:=A) 0 l).
    { subst c. unfold cumsum. cbn. rewrite R0. reflexivity. }
    assert (Hlast : last c (fz (Arith:=A) 0) = last c 0).
    { cbn. rewrite R0. reflexivity. }
    assert (Hrep : rnd (last c 0) = last c 0) by (rewrite Hc; apply cumsum_last_rep; auto).
    assert (Hge : 0 <= last c 0) by (rewrite Hc; apply cumsum_last_ge; auto).
    rewrite Hlast. cbn [fmul RA].
    destruct (search_spec l Hl 0 (rnd (last c 0%R * u)%R) R0) as (k & w & Ek & Ew & Hw); auto.
    { rewrite <- Hc. apply rnd_le_rep; auto. nra. }
    rewrite <- Hc in Ek. rewrite Ek.
    exists k, s', w. 
    assert (k < List.length l)%nat by (apply nth_error_Some; congruence).
    destruct (Nat.ltb_spec k (List.length l)); [|lia]. auto.
  Qed.
End PickProofs.

Section PickExact.
  Local Open Scope R_scope.
  Context {S : Type} {G : Rng R S}.
  Notation A := RX.

  Lemma cumsum_last_sum l : forall acc,
    last (cumsum_from (A:=A) acc l) acc = acc + rsum l.
  Proof.
    induction l as [|x l IH]; intros acc; cbn [cumsum_from]; [cbn; lra|].
    rewrite last_cons, IH. cbn. lra.
  Qed.

  Lemma search_exact l : forall acc v k, nonneg l -> (k < List.length l)%nat ->
    acc < v ->
    (searchsorted (A:=A) (cumsum_from (A:=A) acc l) v = k <->
     acc + rsum (firstn k l) < v <= acc + rsum (firstn (Datatypes.S k) l)).
  Proof.
    induction l as [|x l IH]; intros acc v k Hl Hk Hv; [cbn in Hk; lia|].
    inversion Hl as [|? ? Hx Hl']; subst.
    assert (rs_nonneg : forall l, nonneg l -> 0 <= rsum l).
    { clear. induction 1; cbn; lra. }
    cbn [cumsum_from searchsorted]. cbn [fltb fadd RA RX].
    destruct (Rltb_spec (acc + x) v) as [Hlt|Hge].
    - destruct k as [|k]; [cbn; split; [discriminate|lra]|].
      cbn in Hk. specialize (IH (acc + x) v k Hl' ltac:(lia) Hlt).
      change (rsum (firstn (Datatypes.S (Datatypes.S k)) (x :: l)))
        with (x + rsum (firstn (Datatypes.S k) l)).
      change (rsum (firstn (Datatypes.S k) (x :: l))) with (x + rsum (firstn k l)).
      split.
      + intros E. apply Nat.succ_inj in E as E'. apply IH in E'. lra.
      + intros E. f_equal. apply IH. lra.
    - split.
      + intros <-. cbn. lra.
      + intros [E1 E2]. destruct k as [|k]; auto. exfalso.
        cbn [firstn rsum] in E1.
        assert (0 <= rsum (firstn k l)).
        { apply rs_nonneg. apply Forall_forall. intros y Hy.
          apply (proj1 (Forall_forall _ l) Hl'). 
          rewrite <- (firstn_skipn k l). apply in_or_app; auto. }
        lra.
  Qed.

  Lemma random_pick_exact l s k : 0 < fst (draw s) < 1 -> nonneg l -> 0 < rsum l ->
    (k < List.length l)%nat ->
    (random_pick (A:=A) l s = Ok (k, snd (draw s)) <->
     rsum (firstn k l) < rsum l * fst (draw s) <= rsum (firstn (Datatypes.S k) l)).
  Proof.
    intros Hu Hl Hs Hk. unfold random_pick, get_random_uniform.
    destruct (draw s) as [u s'] eqn:Ed. cbn in Hu. cbn [fst snd].
    cbn [fmul fz RA RX]. unfold cumsum. cbn [fz RA RX].
    rewrite cumsum_last_sum, Rplus_0_l.
    pose proof (search_exact l 0 (rsum l * u) k Hl Hk ltac:(nra)) as HS.
    rewrite !Rplus_0_l in HS. rewrite <- HS.
    assert (Hlt : (searchsorted (A:=A) (cumsum_from (A:=A) 0%R l) (rsum l * u)%R < List.length l)%nat).
    { apply search_le_first; auto; try apply Rounding_id; [lia|].
      change (RA (fun x => x)) with RX. rewrite cumsum_last_sum. nra. }
    destruct (Nat.ltb_spec (searchsorted (A:=A) (cumsum_from (A:=A) 0%R l) (rsum l * u)%R)
                (List.length l)); [|lia].
    split.
    - intros E; inversion E; auto.
    - intros ->. reflexivity.
  Qed.

  Lemma random_pick_zero_draw x l s : fst (draw s) = 0 -> 0 <= x ->
    random_pick (A:=A) (x :: l) s = Ok (O, snd (draw s)).
  Proof.
    intros Hu Hx. unfold random_pick, get_random_uniform.
    destruct (draw s) as [u s'] eqn:Ed. cbn in Hu. subst u. 
    cbn [fmul fz RA RX]. rewrite Rmult_0_r.
    unfold cumsum. cbn [cumsum_from searchsorted fltb fadd fz RA RX].
    destruct (Rltb_spec (0 + x) 0); [lra|]. reflexivity.
  Qed.
End PickExact.

Section StartProofs.
  Local Open Scope R_scope.
  Context (rnd : R -> R) {HR : Rounding rnd} {S : Type} {G : Rng R S}.
  Notation A := (RA rnd).

  Lemma fold_add_nonneg (l : list R) : nonneg l -> forall acc, 0 <= acc ->
    0 <= fold_left (fadd (Arith:=A)) l acc.
  Proof.
    induction 1 as [|x l Hx Hl IH]; cbn; intros acc Ha; auto.
    apply IH. apply rnd_nonneg; auto. lra.
  Qed.

  Lemma norm_weights_nonneg l : nonneg l -> nonneg (norm_weights (A:=A) l).
  Proof.
    intros Hl. unfold norm_weights, nonneg. rewrite Forall_map.
    assert (Ht : 0 <= fold_left (fadd (Arith:=A)) l (fz (Arith:=A) 0)).
    { apply fold_add_nonneg; auto. cbn. rewrite rnd_0. lra. }
    revert Ht. generalize (fold_left (fadd (Arith:=A)) l (fz (Arith:=A) 0)). intros t Ht.
    apply Forall_impl with (P := fun x => 0 <= x); [|exact Hl].
    intros x Hx. cbn. apply rnd_nonneg; auto.
    unfold Rdiv. destruct (Req_EM_T t 0) as [->|Hn].
    - rewrite Rinv_0. lra.
    - apply Rmult_le_pos; auto. left. apply Rinv_0_lt_compat. lra.
  Qed.

  Lemma start_loop_ok inlet nw : uniform_range G -> nonneg nw ->
    List.length nw = List.length inlet -> inlet <> [] ->
    forall n s, exists l s', start_loop (A:=A) inlet nw n s = Ok (l, s')
      /\ List.length l = n /\ Forall (fun c => In c inlet) l.
  Proof.
    intros HG Hnw Hlen Hne. induction n as [|n IH]; intros s; cbn [start_loop].
    - exists [], s. auto.
    - destruct (random_pick_ok rnd nw s HG) as (k & s1 & E & Hk & _); auto.
      { intros ->. destruct inlet; cbn in *; congruence. }
      rewrite E. rewrite Hlen in Hk.
      destruct (nth_error inlet k) as [c|] eqn:En.
      2:{ apply nth_error_None in En. lia. }
      destruct (IH s1) as (l & s2 & El & Hl & HF). rewrite El.
      exists (c :: l), s2. cbn. repeat split; auto.
      constructor; auto. eapply nth_error_In; eauto.
  Qed.

  Lemma get_start_indices_ok inlet w n s : uniform_range G -> nonneg w ->
    List.length w = List.length inlet -> inlet <> [] -> (0 <= n)%Z ->
    exists l s', get_start_indices (A:=A) inlet w n s = Ok (l, s')
      /\ Z.of_nat (List.length l) = n /\ Forall (fun c => In c inlet) l.
  Proof.
    intros HG Hw Hlen Hne Hn. unfold get_start_indices.
    destruct (start_loop_ok inlet (norm_weights (A:=A) w) HG) with (n := Z.to_nat n) (s := s)
      as (l & s' & E & Hl & HF); auto.
    - apply norm_weights_nonneg; auto.
    - unfold norm_weights. rewrite map_length. auto.
    - exists l, s'. repeat split; auto. lia.
  Qed.
End StartProofs.

Section ScaleProofs.
  Local Open Scope R_scope.
  Notation A := RX.

  Lemma flit_X n d : flit (A:=RX) n d = IZR n / IZR d.
  Proof. reflexivity. Qed.

  Lemma scale_factor_spec If u :
    scale_factor (A:=A) If u =
    match unit_seconds u with Some s => Ok (If * s) | None => Err ValueError end.
  Proof.
    unfold scale_factor, unit_seconds, sec_in_day, day_in_yr, flit; cbn.
    destruct (String.eqb u "seconds"); [reflexivity|].
    destruct (String.eqb u "days"); [reflexivity|].
    destruct (String.eqb u "years"); [|reflexivity].
    reflexivity.
  Qed.

  Lemma unit_seconds_ge u x : unit_seconds u = Some x -> 1 <= x.
  Proof.
    unfold unit_seconds. repeat (destruct (String.eqb _ _)); intros E; inversion E; lra.
  Qed.

  Lemma scale_model_time_spec t If u :
    (exists r, scale_model_time (A:=A) t If u = Ok r) <->
    (0 < If <= 1 /\ exists x, unit_seconds u = Some x).
  Proof.
    unfold scale_model_time. cbn [fleb fltb fz RA RX].
    rewrite scale_factor_spec.
    destruct (Rleb_spec If 0); destruct (Rltb_spec 1 If); cbn [orb].
    all: try (split; [intros (q & E); discriminate | intros ((? & ?) & ?); exfalso; lra]).
    destruct (unit_seconds u) as [x|] eqn:E; cbn.
    - split; [|intros _; eexists; reflexivity].
      intros _. split; [lra|eexists; reflexivity].
    - split; [intros (r & E'); discriminate|intros (? & x & E'); discriminate].
  Qed.

  Lemma scale_model_time_err t If u :
    ~ (0 < If <= 1 /\ exists x, unit_seconds u = Some x) ->
    scale_model_time (A:=A) t If u = Err ValueError.
  Proof.
    intros H. unfold scale_model_time. cbn [fleb fltb fz RA RX].
    rewrite scale_factor_spec.
    destruct (Rleb_spec If 0); destruct (Rltb_spec 1 If); cbn [orb]; auto.
    destruct (unit_seconds u) as [x|] eqn:E; cbn; auto.
    exfalso. apply H. split; [lra|eauto].
  Qed.

  Lemma scale_model_time_val t If u x : 0 < If <= 1 -> unit_seconds u = Some x ->
    scale_model_time (A:=A) t If u = Ok (t / (If * x)).
  Proof.
    intros H E. unfold scale_model_time. cbn [fleb fltb fz RA RX].
    rewrite scale_factor_spec, E.
    destruct (Rleb_spec If 0); destruct (Rltb_spec 1 If); cbn; auto; lra.
  Qed.

  Lemma slr_scale mmyr If r : 0 < If ->
    scale_relative_sea_level_rise_rate (A:=A) mmyr If = Ok r ->
    r * (If * (86400 * 365.25)) = mmyr / 1000.
  Proof.
    intros H. unfold scale_relative_sea_level_rise_rate.
    rewrite scale_factor_spec. cbn [unit_seconds String.eqb Ascii.eqb Bool.eqb rbind].
    change (unit_seconds "years") with (Some (86400 * 365.25)). cbn [rbind].
    cbn [feqb fz fmul fdiv RA RX].
    destruct (Reqb_spec (If * (86400 * 365.25)) 0); [nra|].
    intros E; inversion E. field. split; lra.
  Qed.

  Lemma slr_scale_ok mmyr If : 0 < If ->
    exists r, scale_relative_sea_level_rise_rate (A:=A) mmyr If = Ok r.
  Proof.
    intros H. unfold scale_relative_sea_level_rise_rate.
    rewrite scale_factor_spec. change (unit_seconds "years") with (Some (86400 * 365.25)).
    cbn [rbind feqb fz RA RX].
    destruct (Reqb_spec (If * (86400 * 365.25)) 0); [nra|]. eauto.
  Qed.
End ScaleProofs.

Section ScaleProofs2.
  Local Open Scope R_scope.
  Notation A := RX.

  Lemma scale_inv t If u r : scale_model_time (A:=A) t If u = Ok r ->
    0 < If <= 1 /\ exists x, unit_seconds u = Some x /\ 1 <= x /\ r = t / (If * x).
  Proof.
    intros H. destruct (proj1 (scale_model_time_spec t If u) (ex_intro _ r H)) as (HI & x & Ex).
    split; auto. exists x. repeat split; auto.
    - eapply unit_seconds_ge; eauto.
    - rewrite (scale_model_time_val _ _ _ x) in H by auto. congruence.
  Qed.

  Lemma scale_model_time_increasing t t' If u r r' : t < t' ->
    scale_model_time (A:=A) t If u = Ok r -> scale_model_time (A:=A) t' If u = Ok r' ->
    r < r'.
  Proof.
    intros Ht H H'. apply scale_inv in H as (HI & x & E & Hx & ->).
    apply scale_inv in H' as (_ & x' & E' & _ & ->).
    rewrite E in E'; inversion E'; subst x'.
    unfold Rdiv. apply Rmult_lt_compat_r; auto.
    apply Rinv_0_lt_compat. nra.
  Qed.

  Lemma scale_model_time_never_shortens t If u r x : 0 <= t -> unit_seconds u = Some x ->
    scale_model_time (A:=A) t If u = Ok r -> t <= r * x.
  Proof.
    intros Ht E H. apply scale_inv in H as (HI & x' & E' & Hx & ->).
    rewrite E in E'; inversion E'; subst x'.
    replace (t / (If * x) * x) with (t * / If) by (field; lra).
    assert (1 <= / If). { rewrite <- Rinv_1. apply Rinv_le_contravar; lra. }
    nra.
  Qed.

  Lemma scale_model_time_units t If rs rd ry :
    scale_model_time (A:=A) t If "seconds" = Ok rs ->
    scale_model_time (A:=A) t If "days" = Ok rd ->
    scale_model_time (A:=A) t If "years" = Ok ry ->
    rs = 86400 * rd /\ rd = 365.25 * ry.
  Proof.
    intros H1 H2 H3.
    apply scale_inv in H1 as (HI & x & E & _ & ->).
    apply scale_inv in H2 as (_ & x2 & E2 & _ & ->).
    apply scale_inv in H3 as (_ & x3 & E3 & _ & ->).
    change (unit_seconds "seconds") with (Some 1) in E.
    change (unit_seconds "days") with (Some 86400) in E2.
    change (unit_seconds "years") with (Some (86400 * 365.25)) in E3.
    injection E as <-. injection E2 as <-. injection E3 as <-.
    split; field; lra.
  Qed.

  Lemma slr_scale_total mmyr If : 0 < If ->
    exists r, scale_relative_sea_level_rise_rate (A:=A) mmyr If = Ok r
      /\ r * (If * (86400 * 365.25)) = mmyr / 1000.
  Proof.
    intros H. destruct (slr_scale_ok mmyr If H) as [r E].
    exists r; split; auto. apply slr_scale; auto.
  Qed.
End ScaleProofs2.

Lemma random_pick_pos_exact {S} {G : Rng R S} l s :
  (uniform_range G -> 0 < fst (draw s) -> Forall (fun x => 0 <= x) l -> 0 < rsum l ->
  exists k s' w, random_pick (A:=RX) l s = Ok (k, s')
    /\ nth_error l k = Some w /\ 0 < w)%R.
Proof.
  intros HG Hu Hl Hs. apply (random_pick_pos (fun x => x) l s HG Hl).
  change (RA (fun x => x)) with RX. unfold cumsum. ra.
  rewrite cumsum_last_sum. nra.
Qed.
