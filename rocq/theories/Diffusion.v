(** Topographic diffusion (C26) and the whole sediment step. *)
From Coq Require Import ZArith List Bool Reals Lra Lia.
From Verif Require Import Base RLemmas Shared SharedSpec SharedProofs Params State Sed
  VecLemmas WaterSpec WeightProofs SedSpec SedProofs SedMass SedEvents SedCor.
From Verif Require Import Water WalkProofs RunProofs.
Import ListNotations.
Local Open Scope R_scope.

Lemma rsum_antisym {T} (f : T -> T -> R) l : (forall x y, f x y = - f y x) ->
  rsum (map (fun x => rsum (map (fun y => f x y) l)) l) = 0.
Proof.
  intros H. set (s := rsum _).
  assert (E : s = - s); [|lra]. unfold s at 1. rewrite rsum_swap.
  rewrite (rsum_ext _ (fun y => -1 * rsum (map (fun x => f y x) l))).
  - rewrite rsum_scal. fold s. lra.
  - intros y _. rewrite <- rsum_scal. apply rsum_ext. intros x _. rewrite H. lra.
Qed.

Lemma gsum_sum9 L W (h : nat -> Z -> Z -> R) :
  gsum L W (fun a b => sum9 (fun k => h k a b)) = sum9 (fun k => gsum L W (h k)).
Proof.
  unfold sum9.
  do 8 rewrite (gsum_plus L W (fun i j => _) (fun i j => h _ i j)). reflexivity.
Qed.

Lemma nb_row_k i : map (nb_row i) D9 = [i-1; i-1; i-1; i; i; i; i+1; i+1; i+1]%Z.
Proof. unfold D9, nb_row. cbn [seq map]. repeat (f_equal; try (cbn; lia)). Qed.
Lemma nb_col_k j : map (nb_col j) D9 = [j-1; j; j+1; j-1; j; j+1; j-1; j; j+1]%Z.
Proof. unfold D9, nb_col. cbn [seq map]. repeat (f_equal; try (cbn; lia)). Qed.

Lemma neighbourb_cases i j a b : neighbourb i j a b =
  (((a =? i-1) || (a =? i) || (a =? i+1)) && ((b =? j-1) || (b =? j) || (b =? j+1))
   && negb ((a =? i) && (b =? j)))%Z.
Proof.
  unfold neighbourb. f_equal. f_equal.
  - destruct (Z.leb_spec (Z.abs (a - i)) 1), (Z.eqb_spec a (i-1)), (Z.eqb_spec a i), (Z.eqb_spec a (i+1)); cbn; lia.
  - destruct (Z.leb_spec (Z.abs (b - j)) 1), (Z.eqb_spec b (j-1)), (Z.eqb_spec b j), (Z.eqb_spec b (j+1)); cbn; lia.
Qed.

Lemma gsum_nb L W i j (f : Z -> Z -> bool) (h : Z -> Z -> R) :
  gsum L W (fun a b => if neighbourb i j a b && f a b then h a b else 0)
  = sum9 (fun k => if negb (Nat.eqb k 4) && inbb L W (nb_row i k) (nb_col j k) && f (nb_row i k) (nb_col j k)
                   then h (nb_row i k) (nb_col j k) else 0).
Proof.
  rewrite (gsum_ext L W _ (fun a b => sum9 (fun k =>
    if ((a =? nb_row i k) && (b =? nb_col j k))%Z
    then (if negb (Nat.eqb k 4) && f (nb_row i k) (nb_col j k) then h (nb_row i k) (nb_col j k) else 0) else 0))).
  - rewrite gsum_sum9. apply sum9_ext. intros k _. rewrite gsum_single.
    destruct (inbb L W _ _), (negb (Nat.eqb k 4)); cbn; auto.
  - intros a b _. rewrite neighbourb_cases. unfold sum9.
    pose proof (nb_row_k i) as Hr. pose proof (nb_col_k j) as Hc. unfold D9 in Hr, Hc. cbn [seq map] in Hr, Hc.
    injection Hr as -> -> -> -> -> -> -> -> ->. injection Hc as -> -> -> -> -> -> -> -> ->.
    cbn [Nat.eqb negb andb].
    destruct (Z.eqb_spec a (i-1)); [subst a|].
    + destruct (Z.eqb_spec (i-1) i); [lia|]. destruct (Z.eqb_spec (i-1) (i+1)); [lia|]. cbn [orb andb].
      destruct (Z.eqb_spec b (j-1)); [subst b|destruct (Z.eqb_spec b j); [subst b|destruct (Z.eqb_spec b (j+1)); [subst b|]]];
      repeat (match goal with |- context [Z.eqb ?x ?y] => destruct (Z.eqb_spec x y); [lia|] end); cbn [orb andb negb];
      try destruct (f _ _); lra.
    + destruct (Z.eqb_spec a i); [subst a|].
      * destruct (Z.eqb_spec i (i+1)); [lia|]. cbn [orb andb].
        destruct (Z.eqb_spec b (j-1)); [subst b|destruct (Z.eqb_spec b j); [subst b|destruct (Z.eqb_spec b (j+1)); [subst b|]]];
        repeat (match goal with |- context [Z.eqb ?x ?y] => destruct (Z.eqb_spec x y); [lia|] end); cbn [orb andb negb];
        try destruct (f _ _); lra.
      * destruct (Z.eqb_spec a (i+1)); [subst a|].
        -- cbn [orb andb].
           destruct (Z.eqb_spec b (j-1)); [subst b|destruct (Z.eqb_spec b j); [subst b|destruct (Z.eqb_spec b (j+1)); [subst b|]]];
           repeat (match goal with |- context [Z.eqb ?x ?y] => destruct (Z.eqb_spec x y); [lia|] end); cbn [orb andb negb];
           try destruct (f _ _); lra.
        -- cbn [orb andb]. lra.
Qed.

Section Diff.
  Notation XA := (RA (fun x => x)).
  Context {S : Type} (P : params R).
  Notation L := (p_L P).
  Notation W := (p_W P).

  Definition ind (b : bool) : R := if b then 1 else 0.

  Lemma convolve_exact kern f i j :
    convolve (A:=XA) P kern f i j
    = sum9 (fun k => IZR (kern k) * (ind (inbb L W (nb_row i k) (nb_col j k)) * f (nb_row i k) (nb_col j k))).
  Proof.
    unfold convolve. change (RA (fun x => x)) with RX. rewrite vsum_X. apply sum9_ext. intros k Hk. ra.
    assert (E : (i + jwalk_flat k = nb_row i k /\ j + iwalk_flat k = nb_col j k)%Z).
    { unfold nb_row, nb_col. apply lt9 in Hk. decompose [or] Hk; subst k; cbn; lia. }
    destruct E as [-> ->]. unfold ind. destruct (inbb L W _ _); ring.
  Qed.

  Lemma outside_ind i j : IZR (outside_count P i j)
    = sum9 (fun k => if Nat.eqb k 4 then 0 else 1 - ind (inbb L W (nb_row i k) (nb_col j k))).
  Proof.
    unfold outside_count. rewrite <- vcount_length. rewrite <- (Rmult_1_r (IZR _)), <- sum9_indicator.
    apply sum9_ext. intros k _. unfold ind. destruct (Nat.eqb k 4), (inbb L W _ _); cbn; lra.
  Qed.

  Lemma received_sum9 (st : state R S) f eta i j : received P st f eta i j
    = sum9 (fun k => if Nat.eqb k 4 then 0 else
        ind (inbb L W (nb_row i k) (nb_col j k)) * ind (f (nb_row i k) (nb_col j k))
          * exchange P st eta i j (nb_row i k) (nb_col j k)).
  Proof.
    unfold received. rewrite (gsum_nb L W i j f (exchange P st eta i j)). apply sum9_ext. intros k _.
    unfold ind. destruct (Nat.eqb k 4), (inbb L W _ _), (f _ _); cbn; lra.
  Qed.

  (** What one pass gives a diffusible cell. *)
  Lemma crossflux_exact (st : state R S) eta i j : diffusibleb P st i j = true ->
    crossflux (A:=XA) P st eta i j = received P st (fun _ _ => true) eta i j - border_loss P st eta i j.
  Proof.
    unfold diffusibleb, crossflux. intros H. apply andb_prop in H as [H H3]. apply andb_prop in H as [H1 H2].
    apply negb_true_iff in H2, H3. unfold LAND in H2. rewrite H2, H3. cbn [orb]. ra.
    unfold border_loss. rewrite received_sum9, outside_ind, !convolve_exact.
    unfold sum9, kernel1, kernel2, exchange. cbn [Nat.eqb].
    assert (E : inbb L W (nb_row i 4) (nb_col j 4) = true /\ nb_row i 4 = i /\ nb_col j 4 = j).
    { unfold nb_row, nb_col. change (Z.of_nat 4 / 3)%Z with 1%Z. change (Z.of_nat 4 mod 3)%Z with 1%Z.
      replace (i + 1 - 1)%Z with i by lia. replace (j + 1 - 1)%Z with j by lia. auto. }
    destruct E as (E1 & E2 & E3). rewrite E1, E2, E3. change (ind true) with 1. ring.
  Qed.

  Lemma crossflux_fixed rnd {HR : Rounding rnd} (st : state R S) eta i j : s_cell_type st i j = LAND \/ i = 0%Z ->
    crossflux (A:=RA rnd) P st eta i j = 0.
  Proof.
    intros H. unfold crossflux. ra. rewrite rnd_0. unfold LAND in H.
    destruct H as [-> | ->]; cbn [Z.eqb orb]; [reflexivity|]. rewrite orb_true_r. reflexivity.
  Qed.

  Lemma diffuse_once_eta (st : state R S) i j :
    s_eta (diffuse_once (A:=XA) P st) i j = s_eta st i j + crossflux (A:=XA) P st (s_eta st) i j.
  Proof. unfold diffuse_once. cbn [s_eta set_cf set_eta]. rewrite !gmemo_id. reflexivity. Qed.

  (** Budget of any region of diffusible cells. *)
  Lemma region_budget (st : state R S) (Rg : Z -> Z -> bool) :
    (forall i j, inb L W i j -> Rg i j = true -> diffusibleb P st i j = true) ->
    gsum L W (fun i j => if Rg i j then s_eta (diffuse_once (A:=XA) P st) i j else 0)
      - gsum L W (fun i j => if Rg i j then s_eta st i j else 0)
    = gsum L W (fun i j => if Rg i j
        then received P st (fun a b => negb (Rg a b)) (s_eta st) i j - border_loss P st (s_eta st) i j else 0).
  Proof.
    intros HRg. rewrite <- gsum_minus.
    rewrite (gsum_ext L W _ (fun i j =>
      (if Rg i j then received P st Rg (s_eta st) i j else 0) +
      (if Rg i j then received P st (fun a b => negb (Rg a b)) (s_eta st) i j - border_loss P st (s_eta st) i j else 0))).
    - rewrite gsum_plus.
      assert (E : gsum L W (fun i j => if Rg i j then received P st Rg (s_eta st) i j else 0) = 0); [|lra].
      set (h := fun x y : Z * Z =>
        if Rg (fst x) (snd x) && (neighbourb (fst x) (snd x) (fst y) (snd y) && Rg (fst y) (snd y))
        then exchange P st (s_eta st) (fst x) (snd x) (fst y) (snd y) else 0).
      transitivity (rsum (map (fun x => rsum (map (fun y => h x y) (cells L W))) (cells L W))); [|apply rsum_antisym].
      + unfold gsum at 1. apply rsum_ext. intros [i j] _. unfold h. cbn [fst snd].
        destruct (Rg i j); cbn [andb]; [reflexivity|]. symmetry. apply rsum_const0.
      + intros [i j] [a b]. unfold h. cbn [fst snd].
        assert (En : neighbourb i j a b = neighbourb a b i j).
        { unfold neighbourb. rewrite (Z.eqb_sym a i), (Z.eqb_sym b j).
          replace (Z.abs (i - a)) with (Z.abs (a - i)) by lia. replace (Z.abs (j - b)) with (Z.abs (b - j)) by lia. reflexivity. }
        rewrite En. destruct (Rg i j), (Rg a b), (neighbourb a b i j); cbn [andb]; try lra.
        unfold exchange. ring.
    - intros i j Hin. destruct (Rg i j) eqn:E; [|lra].
      rewrite diffuse_once_eta, crossflux_exact by (apply HRg; auto).
      rewrite !received_sum9.
      assert (Es : forall u v w : nat -> R, (forall k, (k < 9)%nat -> u k = v k + w k) -> sum9 u = sum9 v + sum9 w).
      { intros u v w Hu. unfold sum9. rewrite !Hu by lia. lra. }
      erewrite Es; [|intros k _; instantiate (1 := fun k => _); instantiate (2 := fun k => _); cbn beta;
        instantiate (1 := if Nat.eqb k 4 then 0 else ind (inbb L W (nb_row i k) (nb_col j k)) * ind (negb (Rg (nb_row i k) (nb_col j k)))
          * exchange P st (s_eta st) i j (nb_row i k) (nb_col j k));
        instantiate (1 := if Nat.eqb k 4 then 0 else ind (inbb L W (nb_row i k) (nb_col j k)) * ind (Rg (nb_row i k) (nb_col j k))
          * exchange P st (s_eta st) i j (nb_row i k) (nb_col j k));
        destruct (Nat.eqb k 4); [lra|]; destruct (Rg (nb_row i k) (nb_col j k)); unfold ind; cbn [negb]; lra].
      lra.
  Qed.

  (** Cells with zero flux around them do not change. *)
  Lemma crossflux_zero (st : state R S) eta i j : (forall a b, s_qs st a b = 0) ->
    crossflux (A:=XA) P st eta i j = 0.
  Proof.
    intros Hq. unfold crossflux. destruct (_ || _)%bool; [reflexivity|]. ra.
    rewrite !convolve_exact. unfold sum9. rewrite !Hq. ring.
  Qed.

  Lemma diffuse_once_qs {F} {A : Arith F} (P0 : params F) (st : state F S) : s_qs (diffuse_once (A:=A) P0 st) = s_qs st.
  Proof. reflexivity. Qed.

  Lemma diffuse_frame {F} {A : Arith F} (P0 : params F) n : forall st : state F S,
    let st' := diffuse_passes (A:=A) P0 n st in
    sed_frame st st' /\ s_qs st' = s_qs st /\ s_depth st' = s_depth st /\ s_uw st' = s_uw st /\
    s_ux st' = s_ux st /\ s_uy st' = s_uy st /\ s_rng st' = s_rng st /\
    s_Vp_dep_sand st' = s_Vp_dep_sand st /\ s_Vp_dep_mud st' = s_Vp_dep_mud st.
  Proof.
    induction n as [|n IH]; intros st; cbn [diffuse_passes].
    - split; [apply sed_frame_refl|]. repeat split.
    - destruct (IH (diffuse_once P0 st)) as (H1 & H2 & H3 & H4 & H5 & H6 & H7 & H8 & H9).
      split; [eapply sed_frame_trans; [|exact H1]; unfold sed_frame; repeat split|].
      rewrite H2, H3, H4, H5, H6, H7, H8, H9. repeat split.
  Qed.

  Lemma diffuse_fixed rnd {HR : Rounding rnd} n : forall (st : state R S) i j,
    (forall a b, rnd (s_eta st a b) = s_eta st a b) ->
    s_cell_type st i j = LAND \/ i = 0%Z ->
    s_eta (diffuse_passes (A:=RA rnd) P n st) i j = s_eta st i j.
  Proof.
    induction n as [|n IH]; intros st i j Hrep H; cbn [diffuse_passes]; auto.
    rewrite IH; auto.
    - unfold diffuse_once. cbn [s_eta set_cf set_eta]. rewrite !gmemo_id. ra.
      rewrite crossflux_fixed by auto. rewrite Rplus_0_r. auto.
    - intros a b. unfold diffuse_once. cbn [s_eta set_cf set_eta]. rewrite !gmemo_id. ra. apply rnd_idem.
  Qed.

  Lemma diffuse_zero n : forall (st : state R S), (forall a b, s_qs st a b = 0) -> forall i j,
    s_eta (diffuse_passes (A:=XA) P n st) i j = s_eta st i j.
  Proof.
    induction n as [|n IH]; intros st Hq i j; cbn [diffuse_passes]; auto.
    rewrite IH by (rewrite diffuse_once_qs; auto). rewrite diffuse_once_eta, crossflux_zero by auto. lra.
  Qed.

  Lemma diffuse_passes_S {F} {A : Arith F} (P0 : params F) n : forall st : state F S,
    diffuse_passes (A:=A) P0 (Datatypes.S n) st = diffuse_once (A:=A) P0 (diffuse_passes (A:=A) P0 n st).
  Proof. induction n as [|n IH]; intros st; [reflexivity|]. cbn [diffuse_passes] in *. apply IH. Qed.
End Diff.

(** ** The whole sediment step *)
Section Whole.
  Context (rnd : R -> R) {HR : Rounding rnd} {S : Type} {G : Rng R S} (P : params R).
  Notation A := (RA rnd).

  Lemma sed_ready_frame (st st' : state R S) : s_cell_type st' = s_cell_type st -> sed_ready P st -> sed_ready P st'.
  Proof. intros E [H1 H2 H3]. constructor; rewrite ?E; auto. Qed.

  Lemma sed_physics_frame (st st' : state R S) : s_mod_erosion st' = s_mod_erosion st -> sed_physics P st -> sed_physics P st'.
  Proof. intros E [H1 H2 H3 H4 H5 H6 H7]. constructor; rewrite ?E; auto. Qed.

  Lemma sed_picks_rng g (st st' : state R S) : sed_frame st st' -> sed_picks rnd P g st -> sed_picks rnd P g st'.
  Proof.
    intros Hf Hp b i j w s Hin Ew. apply (Hp b i j w s Hin). rewrite <- Ew. unfold sed_frame in Hf.
    unfold sed_weights. intuition. 
    repeat match goal with E : _ st' = _ st |- _ => rewrite E; clear E end. reflexivity.
  Qed.

  Lemma init_frame (st : state R S) : sed_frame st (init_sediment_iteration (A:=A) st).
  Proof. unfold sed_frame. repeat split. Qed.

  Lemma route_sediment_parts (st st' : state R S) : route_sediment (A:=A) P st = Ok st' <->
    exists st1 st2 Vs1 Vs2, sed_parts rnd P st st1 st2 st' Vs1 Vs2.
  Proof.
    unfold route_sediment, sed_parts, route_all_parcels. split.
    - intros H. apply rbind_Ok in H as (st1 & H1 & H). apply rbind_Ok in H1 as ([x Vs1] & H1 & H1').
      injection H1' as ->. apply rbind_Ok in H as ([y Vs2] & H2 & H2'). injection H2' as ->.
      exists st1, (topo_diffusion (A:=A) P st1), Vs1, Vs2. auto.
    - intros (st1 & st2 & Vs1 & Vs2 & H1 & -> & H2). rewrite H1. cbn [rbind]. rewrite H2. reflexivity.
  Qed.

  Lemma route_sediment_total (st : state R S) : sed_ready P st -> divisors_ok rnd P -> uniform_range G ->
    sed_picks rnd P Sand st -> sed_picks rnd P Mud st ->
    exists st', route_sediment (A:=A) P st = Ok st' /\ sed_frame st st'.
  Proof.
    intros HS HD HG Hp1 Hp2. pose proof (init_frame st) as F0.
    destruct (routing_total rnd P Sand (init_sediment_iteration (A:=A) st)
                (sed_ready_frame st (init_sediment_iteration (A:=A) st) eq_refl HS) HD HG (sed_picks_rng Sand _ _ F0 Hp1))
      as (st1 & Vs1 & hs1 & E1 & Hr1).
    destruct (routed_fields rnd P Sand _ _ _ _ Hr1) as (F1 & _).
    destruct (diffuse_frame (A:=A) P (Z.to_nat (p_N_crossdiff P)) st1) as (F2 & _).
    pose proof (sed_frame_trans _ _ _ (sed_frame_trans _ _ _ F0 F1) F2) as F02.
    assert (Ect : s_cell_type (topo_diffusion (A:=A) P st1) = s_cell_type st) by apply F02.
    destruct (routing_total rnd P Mud (topo_diffusion (A:=A) P st1)
                (sed_ready_frame _ _ Ect HS) HD HG (sed_picks_rng Mud _ _ F02 Hp2))
      as (st' & Vs2 & hs2 & E2 & Hr2).
    destruct (routed_fields rnd P Mud _ _ _ _ Hr2) as (F3 & _).
    exists st'. split; [|eapply sed_frame_trans; eauto].
    apply route_sediment_parts. exists st1, (topo_diffusion (A:=A) P st1), Vs1, Vs2. split; auto.
  Qed.
End Whole.

Section WholeExact.
  Notation XA := (RA (fun x => x)).
  Context {S : Type} {G : Rng R S} (P : params R).
  Notation L := (p_L P).
  Notation W := (p_W P).

  Lemma whole_mass (st st1 st2 st' : state R S) Vs1 Vs2 : 0 < p_dx P ->
    sed_parts (fun x => x) P st st1 st2 st' Vs1 Vs2 ->
    p_dx P * p_dx P * (gsum L W (s_eta st') - gsum L W (s_eta st))
      = INR (List.length Vs1 + List.length Vs2) * p_Vp_sed P - rsum Vs1 - rsum Vs2
        + p_dx P * p_dx P * (gsum L W (s_eta st2) - gsum L W (s_eta st1)).
  Proof.
    intros Hdx (H1 & E & H2). apply route_all_mass in H1 as [_ H1]; auto.
    apply route_all_mass in H2 as [_ H2]; auto. cbn [s_eta init_sediment_iteration set_qs set_Vp_dep_sand set_Vp_dep_mud] in H1.
    change (s_eta (init_sediment_iteration (A:=XA) st)) with (s_eta st) in H1. rewrite plus_INR. lra.
  Qed.
End WholeExact.
