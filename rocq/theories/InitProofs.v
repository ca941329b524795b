(** Proofs about construction. *)
From Coq Require Import ZArith List Bool Reals Lra Lia.
From Flocq Require Import Core.
From Verif Require Import Base RLemmas Shared SharedProofs Params State Water WaterSpec VecLemmas
  RunProofs SharedSpec Sed SedSpec Iter IterSpec IterProofs Inputs Init InitSpec.
Import ListNotations.
Local Open Scope R_scope.

Section Chain.
  Context {F : Type} {A : Arith F}.
  (** Storing the current value changes nothing, so the setters only check. *)
  Lemma process_chain (c : inputs F) : process_input_to_model c =
    if fleb (i_Length c) (fz 0) then Err ValueError else
    if fleb (i_Width c) (fz 0) then Err ValueError else
    if fleb (i_dx c) (fz 0) || fltb (i_Length c) (i_dx c) || fltb (i_Width c) (i_dx c)
      then Err ValueError else
    if fltb (i_L0_meters c) (fz 0) then Err ValueError else
    if (i_itermax c <? 0)%Z then Err ValueError else
    if (i_Np_water c <=? 0)%Z then Err ValueError else
    if fleb (i_N0_meters c) (fz 0) then Err ValueError else
    if (i_Np_sed c <=? 0)%Z then Err ValueError else
    if fltb (i_f_bedload c) (fz 0) || fltb (fz 1) (i_f_bedload c) then Err ValueError else
    do c1 <- set_active_layer_thickness (i_active_layer_thickness c) c;
    if fltb (i_C0_percent c1) (fz 0) then Err ValueError else
    if fltb (i_Csmooth c1) (fz 0) then Err ValueError else
    Ok (set_checkpoint_dt (i_checkpoint_dt c1) c1).
  Proof.
    assert (E1 : forall c : inputs F, seti_Length (i_Length c) c = c) by (intros []; reflexivity).
    assert (E2 : forall c : inputs F, seti_Width (i_Width c) c = c) by (intros []; reflexivity).
    assert (E3 : forall c : inputs F, seti_dx (i_dx c) c = c) by (intros []; reflexivity).
    assert (E4 : forall c : inputs F, seti_L0_meters (i_L0_meters c) c = c) by (intros []; reflexivity).
    assert (E5 : forall c : inputs F, seti_itermax (i_itermax c) c = c) by (intros []; reflexivity).
    assert (E6 : forall c : inputs F, seti_Np_water (i_Np_water c) c = c) by (intros []; reflexivity).
    assert (E7 : forall c : inputs F, seti_N0_meters (i_N0_meters c) c = c) by (intros []; reflexivity).
    assert (E8 : forall c : inputs F, seti_Np_sed (i_Np_sed c) c = c) by (intros []; reflexivity).
    assert (E9 : forall c : inputs F, seti_f_bedload (i_f_bedload c) c = c) by (intros []; reflexivity).
    assert (E10 : forall c : inputs F, seti_C0_percent (i_C0_percent c) c = c) by (intros []; reflexivity).
    assert (E11 : forall c : inputs F, seti_Csmooth (i_Csmooth c) c = c) by (intros []; reflexivity).
    unfold process_input_to_model.
    unfold set_Length at 1. rewrite E1. destruct (fleb _ _); [reflexivity|]. cbn [rbind].
    unfold set_Width at 1. rewrite E2. destruct (fleb _ _); [reflexivity|]. cbn [rbind].
    unfold set_dx at 1. rewrite E3. destruct (_ || _ || _)%bool; [reflexivity|]. cbn [rbind].
    unfold set_L0_meters at 1. rewrite E4. destruct (fltb _ _); [reflexivity|]. cbn [rbind].
    unfold set_itermax at 1. rewrite E5. destruct (_ <? _)%Z; [reflexivity|]. cbn [rbind].
    unfold set_Np_water at 1. rewrite E6. destruct (_ <=? _)%Z; [reflexivity|]. cbn [rbind].
    unfold set_N0_meters at 1. rewrite E7. destruct (fleb _ _); [reflexivity|]. cbn [rbind].
    unfold set_Np_sed at 1. rewrite E8. destruct (_ <=? _)%Z; [reflexivity|]. cbn [rbind].
    unfold set_f_bedload at 1. rewrite E9. destruct (_ || _)%bool; [reflexivity|]. cbn [rbind].
    destruct (set_active_layer_thickness _ _) as [c1|]; [|reflexivity]. cbn [rbind].
    unfold set_C0_percent at 1. rewrite E10. destruct (fltb _ _); [reflexivity|]. cbn [rbind].
    unfold set_Csmooth at 1. rewrite E11. destruct (fltb _ _); reflexivity.
  Qed.
End Chain.

Section Accept.
  Context (rnd : R -> R) {HR : Rounding rnd}.
  Notation A := (RA rnd).

  Ltac no := split; [reflexivity|intros [K1 K2 (K3 & K3' & K3'') K4 K5 K6 K7 K8 [K9 K9'] K10 K11 K12];
    cbn in *; first [lra|lia]].

  Lemma process_spec (c : inputs R) :
    match process_input_to_model (A:=A) c with
    | Ok c' => accepted c /\ c' = resolved rnd c
    | Err e => e = ValueError /\ ~ accepted c
    end.
  Proof.
    rewrite process_chain. unfold set_active_layer_thickness. cbn [fleb fltb fz fdiv RA]. rewrite ?(rnd_0 (rnd:=rnd)), ?(rnd_1 (rnd:=rnd)).
    destruct (Rleb_spec (i_Length c) 0); [no|].
    destruct (Rleb_spec (i_Width c) 0); [no|].
    destruct (Rleb_spec (i_dx c) 0); [no|]. destruct (Rltb_spec (i_Length c) (i_dx c)); [no|].
    destruct (Rltb_spec (i_Width c) (i_dx c)); [no|].
    destruct (Rltb_spec (i_L0_meters c) 0); [no|].
    destruct (Z.ltb_spec (i_itermax c) 0); [no|].
    destruct (Z.leb_spec (i_Np_water c) 0); [no|].
    destruct (Rleb_spec (i_N0_meters c) 0); [no|].
    destruct (Z.leb_spec (i_Np_sed c) 0); [no|].
    destruct (Rltb_spec (i_f_bedload c) 0); [no|]. destruct (Rltb_spec 1 (i_f_bedload c)); [no|].
    cbn [orb]. unfold resolved, set_checkpoint_dt.
    destruct (i_active_layer_thickness c) as [t|] eqn:Ea.
    - destruct (Rltb_spec t 0).
      { split; [reflexivity|]. intros [_ _ _ _ _ _ _ _ _ K _ _]. specialize (K t Ea). lra. }
      cbn [rbind]. change (i_C0_percent (seti_active_layer_thickness (Some t) c)) with (i_C0_percent c).
      change (i_Csmooth (seti_active_layer_thickness (Some t) c)) with (i_Csmooth c).
      destruct (Rltb_spec (i_C0_percent c) 0); [no|]. destruct (Rltb_spec (i_Csmooth c) 0); [no|].
      split; [|reflexivity]. constructor; auto; try lra; try lia. intros ? E. rewrite Ea in E. injection E as <-. lra.
    - cbn [rbind]. match goal with |- context [i_C0_percent (?f ?x c)] =>
        change (i_C0_percent (f x c)) with (i_C0_percent c); change (i_Csmooth (f x c)) with (i_Csmooth c) end.
      destruct (Rltb_spec (i_C0_percent c) 0); [no|]. destruct (Rltb_spec (i_Csmooth c) 0); [no|].
      split; [|reflexivity]. constructor; auto; try lra; try lia. intros ? E. rewrite Ea in E. discriminate.
  Qed.
End Accept.

(** ** Rounding to whole cells *)
Lemma nearest_rounded x : rounded x (ZnearestE x).
Proof.
  unfold rounded. rewrite Rabs_minus_sym. pose proof (Znearest_half (fun z => negb (Z.even z)) x).
  split; [lra|]. unfold ZnearestE, Znearest. pose proof (Zfloor_lb x) as B1. pose proof (Zfloor_ub x) as B2.
  destruct (Rcompare_spec (x - IZR (Zfloor x)) (/ 2)) as [Hc|Hc|Hc].
  - rewrite Rabs_right by lra. lra.
  - intros _. destruct (Z.even (Zfloor x)) eqn:Ev; cbn; [auto|].
    rewrite Zceil_floor_neq by lra. rewrite Z.even_add, Ev. reflexivity.
  - assert (IZR (Zfloor x) <> x) by lra. rewrite Zceil_floor_neq by auto. rewrite plus_IZR.
    rewrite Rabs_left1 by lra. lra.
Qed.
Lemma rounded_unique x n m : rounded x n -> rounded x m -> n = m.
Proof.
  intros [H1 E1] [H2 E2]. pose proof H1 as K1. pose proof H2 as K2. apply Rabs_le_inv in K1, K2.
  assert (n - m <= 1)%Z by (apply le_IZR; rewrite minus_IZR; lra).
  assert (m - n <= 1)%Z by (apply le_IZR; rewrite minus_IZR; lra).
  destruct (Z.eq_dec n m); auto. exfalso.
  assert (Hd : (n = m + 1 \/ m = n + 1)%Z) by lia.
  assert (T1 : Rabs (IZR n - x) = 1 / 2 /\ Rabs (IZR m - x) = 1 / 2).
  { destruct Hd as [-> | ->]; rewrite plus_IZR in *.
    - rewrite (Rabs_right (IZR m + 1 - x)) by lra. rewrite (Rabs_left1 (IZR m - x)) by lra. lra.
    - rewrite (Rabs_right (IZR n + 1 - x)) by lra. rewrite (Rabs_left1 (IZR n - x)) by lra. lra. }
  destruct T1 as [T1 T2]. specialize (E1 T1). specialize (E2 T2).
  destruct Hd as [-> | ->]; rewrite Z.even_add in *; rewrite ?E1, ?E2 in *; cbn in *; congruence.
Qed.
Lemma rounded_ge x n m : rounded x n -> IZR m - 1 / 2 < x -> (m <= n)%Z.
Proof.
  intros [H _] Hx. apply Rabs_le_inv in H. apply Z.lt_succ_r. apply lt_IZR. unfold Z.succ. rewrite plus_IZR. lra.
Qed.
Lemma rounded_ge_even x n m : rounded x n -> Z.even m = true -> IZR m - 1 / 2 <= x -> (m <= n)%Z.
Proof.
  intros H He Hx. destruct (Rle_lt_or_eq_dec _ _ Hx) as [Hl|Hq]; [eapply rounded_ge; eauto|].
  rewrite (rounded_unique x n m); [lia|auto|]. split; [|auto].
  rewrite Rabs_right by lra. lra.
Qed.
Lemma nearest_ge x n : IZR n <= x -> (n <= ZnearestE x)%Z.
Proof.
  intros H. pose proof (nearest_rounded x) as K. destruct K as [K _]; apply Rabs_le_inv in K.
  apply Z.lt_succ_r. apply lt_IZR. unfold Z.succ. rewrite plus_IZR. lra.
Qed.

Section Construct.
  Notation XA := (RA (fun x => x)).
  Context {S N : Type} {G : Rng R S} {GN : NpRng N}.

  (** Constants before the domain is created. *)
  Lemma pydiv_spec x y : pydiv (A:=XA) x y = if Req_EM_T y 0 then Err ZeroDivisionError else Ok (x / y).
  Proof. unfold pydiv. cbn [feqb fz fdiv RA]. destruct (Reqb_spec y 0), (Req_EM_T y 0); auto; contradiction. Qed.

  (** Values the derived constants are computed from; everything else is
      unchanged. *)
  Lemma boundary_spec (c : inputs R) (P : params R) :
    let N0 := Z.max 3 (Z.min (ZnearestE (i_N0_meters c / i_dx c)) (p_W P / 4)) in
    let C0 := i_C0_percent c * 1 / 100 in
    let V0 := i_h0 c * (i_dx c * i_dx c) in
    let Qw0 := i_u0 c * i_h0 c * IZR N0 * i_dx c in
    let dVs := 1 / 10 * IZR (N0 * N0) * V0 in
    let Qs0 := Qw0 * C0 in
    let dt := dVs / Qs0 in
    let Nc := ZnearestE (dVs / V0) in
    match create_boundary_conditions (A:=XA) c P with
    | Err e => e = ZeroDivisionError /\
        (i_u0 c * i_u0 c = 0 \/ IZR (p_Np_water P) = 0 \/ IZR (p_Np_sed P) = 0 \/ Qs0 = 0 \/
         IZR (p_itermax P) = 0 \/ V0 = 0 \/ IZR Nc = 0 \/ i_dx c * i_dx c = 0)
    | Ok P' => i_u0 c * i_u0 c <> 0 /\ IZR (p_Np_water P) <> 0 /\ IZR (p_Np_sed P) <> 0 /\ Qs0 <> 0 /\
        IZR (p_itermax P) <> 0 /\ V0 <> 0 /\ IZR Nc <> 0 /\ i_dx c * i_dx c <> 0 /\
        P' = setp_L0 (Z.max 1 (Z.min (ZnearestE (i_L0_meters c / i_dx c)) (p_L P / 4)))
          (setp_N0 N0 (setp_u_max (2 * i_u0 c) (setp_C0 C0
          (setp_dry_depth (Rmin (1 / 10) (1 / 10 * i_h0 c))
          (setp_gamma (981 / 100 * i_S0 c * i_dx c / (i_u0 c * i_u0 c)) (setp_V0 V0 (setp_Qw0 Qw0
          (setp_qw0 (i_u0 c * i_h0 c) (setp_Qp_water (Qw0 / IZR (p_Np_water P))
          (setp_qs0 (i_u0 c * i_h0 c * C0) (setp_dVs dVs (setp_Qs0 Qs0
          (setp_Vp_sed (dVs / IZR (p_Np_sed P)) (setp_stepmax (step_limit c P)
          (setp_dt dt (setp_omega_flow_iter (2 / IZR (p_itermax P)) (setp_N_crossdiff Nc
          (setp_lambda (i_sed_lag c) (setp_diffusion_multiplier
             (dt / IZR Nc * i_alpha c * (1 / 2) / (i_dx c * i_dx c)) P)))))))))))))))))))
    end.
  Proof.
    cbn zeta. unfold create_boundary_conditions. cbn zeta. rewrite !pydiv_spec. unfold flit, fmin.
    cbn [fz fadd fsub fmul fdiv fltb frint RA].
    set (N0 := Z.max 3 _). set (L0 := Z.max 1 _).
    assert (Em : (if Rltb (1 / 10 * i_h0 c) (1 / 10) then 1 / 10 * i_h0 c else 1 / 10) = Rmin (1 / 10) (1 / 10 * i_h0 c)).
    { unfold Rmin. destruct (Rltb_spec (1 / 10 * i_h0 c) (1 / 10)); destruct (Rle_dec _ _); lra. }
    rewrite Em. clear Em.
    destruct (Req_EM_T _ 0); cbn [rbind]; [tauto|]. rewrite ?pydiv_spec.
    destruct (Req_EM_T _ 0); cbn [rbind]; [tauto|]. rewrite ?pydiv_spec.
    destruct (Req_EM_T _ 0); cbn [rbind]; [tauto|]. rewrite ?pydiv_spec.
    destruct (Req_EM_T _ 0); cbn [rbind]; [tauto|]. rewrite ?pydiv_spec.
    destruct (Req_EM_T _ 0); cbn [rbind]; [tauto|]. rewrite ?pydiv_spec.
    destruct (Req_EM_T _ 0); cbn [rbind]; [tauto|]. rewrite ?pydiv_spec.
    destruct (Req_EM_T _ 0); cbn [rbind]; [tauto|]. rewrite ?pydiv_spec.
    destruct (Req_EM_T _ 0); cbn [rbind]; [tauto|].
    repeat (split; [assumption|]). reflexivity.
  Qed.

  (** ** The domain *)
  Lemma domain_inv (c : inputs R) (P P' : params R) (st : state R S) s :
    create_domain (A:=XA) c P s = Ok (P', st) ->
    (0 <= size_indices P)%Z /\ P' = setp_inlet (create_inlet P (create_cell_type (A:=XA) P)) (setp_hb (basin_depth (A:=XA) c) P) /\
    s_cell_type st = create_cell_type (A:=XA) P /\ s_rng st = s.
  Proof.
    unfold create_domain. destruct (Z.ltb_spec (size_indices P) 0); [discriminate|]. rewrite !gmemo_id.
    intros E. injection E as <- <-. auto.
  Qed.
  Lemma domain_total (c : inputs R) (P : params R) (s : S) :
    match create_domain (A:=XA) c P s with
    | Ok _ => (0 <= size_indices P)%Z
    | Err e => e = ValueError /\ (size_indices P < 0)%Z
    end.
  Proof. unfold create_domain. destruct (Z.ltb_spec (size_indices P) 0); auto. Qed.

  Lemma strip_type (P : params R) i j : (i < p_L0 P)%Z ->
    create_cell_type (A:=XA) P i j = cell_type_0 P i j.
  Proof. intros H. unfold create_cell_type, cell_type_0. destruct (Z.ltb_spec i (p_L0 P)); [auto|lia]. Qed.
  Lemma type0_strip (P : params R) i j : (i < p_L0 P)%Z ->
    cell_type_0 P i j = 1%Z \/ cell_type_0 P i j = (-2)%Z.
  Proof. intros H. unfold cell_type_0. destruct (Z.ltb_spec i (p_L0 P)); [|lia]. destruct (channel_col P j); auto. Qed.
  Lemma type0_basin (P : params R) i j : (p_L0 P <= i)%Z -> cell_type_0 P i j = 0%Z.
  Proof. intros H. unfold cell_type_0. destruct (Z.ltb_spec i (p_L0 P)); [lia|auto]. Qed.

  Lemma domain_initial (c : inputs R) (P P' : params R) (st : state R S) s :
    create_domain (A:=XA) c P s = Ok (P', st) -> p_qw0 P = i_u0 c * i_h0 c ->
    initial c P' st.
  Proof.
    unfold create_domain. destruct (Z.ltb_spec (size_indices P) 0); [discriminate|]. rewrite !gmemo_id.
    intros E Eq. injection E as <- <-.
    constructor.
    - intros i j. reflexivity.
    - intros i j [Hi Hj]. cbn -[cell_type_0 Z.max].
      destruct (Z.ltb_spec i (p_L0 P)) as [Hl|Hl].
      + destruct (type0_strip P i j Hl) as [-> | ->]; cbn -[Z.max]; do 2 f_equal; f_equal; lia.
      + rewrite (type0_basin P i j Hl). reflexivity.
    - intros i j [Hi Hj]. cbn -[cell_type_0 create_cell_type].
      destruct (Z.leb_spec (p_L0 P) i) as [Hl|Hl].
      + rewrite (type0_basin P i j Hl). reflexivity.
      + rewrite (strip_type P i j Hl). destruct (type0_strip P i j Hl) as [-> | ->]; reflexivity.
    - intros i j [Hi Hj]. cbn -[cell_type_0 create_cell_type]. rewrite Eq.
      destruct (Z.leb_spec (p_L0 P) i) as [Hl|Hl].
      + rewrite (type0_basin P i j Hl). reflexivity.
      + rewrite (strip_type P i j Hl). destruct (type0_strip P i j Hl) as [-> | ->]; reflexivity.
    - intros i j. reflexivity.
    - intros i j. cbn [s_qw s_qx]. unfold hypot. cbn [fsqrt fadd fmul fz RA].
      rewrite <- sqrt_Rsqr_abs. f_equal. unfold Rsqr. ring.
    - intros i j. cbn [s_qw s_qx s_uy s_depth s_ux s_uw].
      match goal with |- 0 < ?d -> _ => set (dd := d) end. intros Hd. clearbody dd.
      cbn [fltb fz fdiv RA]. destruct (Rltb_spec 0 dd); [|lra]. repeat split; field; lra.
    - intros i j. cbn [s_qw s_qx s_uy s_depth s_ux s_uw].
      match goal with |- ?d <= 0 -> _ => set (dd := d) end. intros Hd. clearbody dd.
      cbn [fltb fz fdiv RA]. destruct (Rltb_spec 0 dd); [lra|]. repeat split.
    - intros i j. cbn. split; lra.
    - intros i j. cbn. auto.
    - intros i j. reflexivity.
    - repeat split.
    - reflexivity.
  Qed.

  (** ** Layout *)
  Lemma zseq_app m : forall k n, zseq k (m + n) = zseq k m ++ zseq (k + Z.of_nat m) n.
  Proof.
    induction m as [|m IH]; intros k n; cbn [zseq Nat.add app].
    - f_equal. lia.
    - f_equal. rewrite IH. do 2 f_equal. lia.
  Qed.
  Lemma zseq_In n : forall k j, In j (zseq k n) <-> (k <= j < k + Z.of_nat n)%Z.
  Proof.
    induction n as [|n IH]; intros k j; cbn [zseq In]; [lia|]. rewrite IH. lia.
  Qed.
  Lemma zrange_zseq n : zrange n = zseq 0 (Z.to_nat n).
  Proof.
    unfold zrange. assert (H : forall m k, map Z.of_nat (seq k m) = zseq (Z.of_nat k) m).
    { induction m as [|m IH]; intros k; cbn [seq map zseq]; [reflexivity|]. f_equal. rewrite IH. f_equal. lia. }
    apply (H (Z.to_nat n) 0%nat).
  Qed.
  Lemma filter_none {T} (f : T -> bool) l : (forall x, In x l -> f x = false) -> filter f l = [].
  Proof. induction l as [|a l IH]; intros H; cbn; auto. rewrite (H a) by (left; auto). apply IH. intros; apply H; right; auto. Qed.
  Lemma filter_all {T} (f : T -> bool) l : (forall x, In x l -> f x = true) -> filter f l = l.
  Proof. induction l as [|a l IH]; intros H; cbn; auto. rewrite (H a) by (left; auto). f_equal. apply IH. intros; apply H; right; auto. Qed.
  Lemma filter_range f n a m : (0 <= a)%Z -> (0 <= m)%Z -> (a + m <= n)%Z ->
    (forall j, (0 <= j < n)%Z -> f j = true <-> (a <= j < a + m)%Z) ->
    filter f (zrange n) = zseq a (Z.to_nat m).
  Proof.
    intros Ha Hm Hn Hf. rewrite zrange_zseq.
    replace (Z.to_nat n) with (Z.to_nat a + (Z.to_nat m + Z.to_nat (n - a - m)))%nat by lia.
    rewrite !zseq_app, !filter_app.
    assert (E1 : filter f (zseq 0 (Z.to_nat a)) = []).
    { apply filter_none. intros x Hx. apply zseq_In in Hx. destruct (f x) eqn:E; auto. apply Hf in E; lia. }
    rewrite E1. rewrite filter_all.
    2:{ intros x Hx. apply zseq_In in Hx. apply Hf; lia. }
    rewrite filter_none.
    2:{ intros x Hx. apply zseq_In in Hx. destruct (f x) eqn:E; auto. apply Hf in E; lia. }
    rewrite app_nil_r. cbn [app]. f_equal. lia.
  Qed.

  Lemma round_half_bound n : (n - 1 <= 2 * round_half n <= n + 1)%Z.
  Proof.
    unfold round_half. pose proof (Z.div_mod n 2 ltac:(lia)). pose proof (Z.mod_pos_bound n 2 ltac:(lia)).
    rewrite Zeven_mod. destruct (Zeq_bool (n mod 2) 0) eqn:E; [apply Zeq_bool_eq in E; lia|apply Zeq_bool_neq in E].
    destruct (Z.even (n / 2)); lia.
  Qed.
  Lemma round_half_3 : round_half 3 = 2%Z. Proof. reflexivity. Qed.

  (** Column of the centre. *)
  Definition centre (W : Z) : Z := if (W / 2 - 1 <=? 1)%Z then (W / 2)%Z else (W / 2 - 1)%Z.

  Lemma channel_columns (P : params R) : (5 <= p_W P)%Z -> p_CTR P = centre (p_W P) ->
    (3 <= p_N0 P <= Z.max 3 (p_W P / 4))%Z ->
    let first := channel_inds P in
    (1 <= first /\ first + p_N0 P <= p_W P - 1 /\ first <= p_CTR P < first + p_N0 P)%Z /\
    forall j, channel_col P j = ((first <=? j) && (j <? first + p_N0 P))%Z%bool.
  Proof.
    intros HW HC HN. cbn zeta.
    assert (Hb : (1 <= channel_inds P /\ channel_inds P + p_N0 P <= p_W P - 1 /\
                  channel_inds P <= p_CTR P < channel_inds P + p_N0 P)%Z).
    { unfold channel_inds. rewrite HC. unfold centre. pose proof (round_half_bound (p_N0 P)) as Hr.
      pose proof (Z.div_mod (p_W P) 2 ltac:(lia)). pose proof (Z.mod_pos_bound (p_W P) 2 ltac:(lia)).
      pose proof (Z.div_mod (p_W P) 4 ltac:(lia)). pose proof (Z.mod_pos_bound (p_W P) 4 ltac:(lia)).
      destruct (Z.eq_dec (p_N0 P) 3) as [E3|E3].
      - rewrite E3 in *. rewrite round_half_3. destruct (Z.leb_spec (p_W P / 2 - 1) 1); lia.
      - destruct (Z.leb_spec (p_W P / 2 - 1) 1); lia. }
    split; [exact Hb|]. intros j. unfold channel_col, slice_bound.
    destruct (Z.ltb_spec (channel_inds P) 0); [lia|]. destruct (Z.ltb_spec (channel_inds P + p_N0 P) 0); [lia|].
    rewrite !Z.min_l by lia. reflexivity.
  Qed.

  Lemma inlet_columns (P : params R) : (5 <= p_W P)%Z -> (1 <= p_L P)%Z -> (1 <= p_L0 P)%Z ->
    p_CTR P = centre (p_W P) -> (3 <= p_N0 P <= Z.max 3 (p_W P / 4))%Z ->
    create_inlet P (create_cell_type (A:=XA) P) = zseq (channel_inds P) (Z.to_nat (p_N0 P)).
  Proof.
    intros HW HL HL0 HC HN. destruct (channel_columns P HW HC HN) as [Hb Hc].
    unfold create_inlet. apply filter_range; try lia. intros j Hj. rewrite existsb_exists. split.
    - intros (i & Hi & E). apply zrange_In in Hi. apply Z.eqb_eq in E. unfold create_cell_type, cell_type_0 in E.
      destruct (Z.ltb_spec i (p_L0 P)).
      + rewrite Hc in E. destruct ((channel_inds P <=? j) && _)%Z%bool eqn:E1; [|discriminate].
        apply andb_prop in E1 as [E1 E2]. apply Z.leb_le in E1. apply Z.ltb_lt in E2. lia.
      + destruct (outside_radius P i j); [discriminate|]. destruct (_ || _)%bool; discriminate.
    - intros Hin. exists 0%Z. split; [apply zrange_In; lia|]. unfold create_cell_type.
      destruct (Z.ltb_spec 0 (p_L0 P)); [|lia]. rewrite Hc.
      destruct (Z.leb_spec (channel_inds P) j); [|lia]. destruct (Z.ltb_spec j (channel_inds P + p_N0 P)); [|lia].
      reflexivity.
  Qed.

  Lemma outside_spec (P : params R) i j : outside_radius (A:=XA) P i j =
    Rleb (Rmin (IZR (p_L P - 5)) (IZR (p_W P) / 2 - 5)) (sqrt (IZR ((i - 3) * (i - 3) + (j - p_CTR P) * (j - p_CTR P)))).
  Proof.
    unfold outside_radius, fmin. cbn [fltb fleb fz fsub fdiv fsqrt RA]. f_equal.
    unfold Rmin. destruct (Rltb_spec (IZR (p_W P) / 2 - 5) (IZR (p_L P - 5))); destruct (Rle_dec _ _); auto; lra.
  Qed.

  Lemma domain_layout (c : inputs R) (P P' : params R) (st : state R S) s :
    create_domain (A:=XA) c P s = Ok (P', st) ->
    (5 <= p_W P)%Z -> (1 <= p_L P)%Z -> (1 <= p_L0 P)%Z -> p_CTR P = centre (p_W P) ->
    (3 <= p_N0 P <= Z.max 3 (p_W P / 4))%Z ->
    layout P' st (channel_inds P).
  Proof.
    intros E HW HL HL0 HC HN. apply domain_inv in E as (_ & -> & Ect & _).
    destruct (channel_columns P HW HC HN) as [Hb Hc].
    constructor; cbn [p_W p_L p_L0 p_N0 p_CTR p_inlet setp_inlet setp_hb]; rewrite ?Ect.
    - exact Hb.
    - intros i j Hin Hi. rewrite strip_type by exact Hi. unfold cell_type_0.
      destruct (Z.ltb_spec i (p_L0 P)); [|lia]. rewrite Hc. reflexivity.
    - intros i j Hin Hi Hbd. unfold create_cell_type. destruct (Z.ltb_spec i (p_L0 P)); [lia|].
      destruct (outside_radius P i j); [reflexivity|].
      destruct (Z.eqb_spec i (p_L P - 1)); [reflexivity|]. destruct (Z.eqb_spec j 0); [reflexivity|].
      destruct (Z.eqb_spec j (p_W P - 1)); [reflexivity|lia].
    - intros i j Hin Hi Hr. unfold create_cell_type. destruct (Z.ltb_spec i (p_L0 P)); [lia|].
      rewrite outside_spec. match goal with |- context [Rleb ?a ?b] => destruct (Rleb_spec a b) end; [reflexivity|lra].
    - intros i j Hin Hi Hj Hr. unfold create_cell_type. destruct (Z.ltb_spec i (p_L0 P)); [lia|].
      rewrite outside_spec. match goal with |- context [Rleb ?a ?b] => destruct (Rleb_spec a b) end; [lra|].
      destruct (Z.eqb_spec i (p_L P - 1)); [lia|]. destruct (Z.eqb_spec j 0); [lia|].
      destruct (Z.eqb_spec j (p_W P - 1)); [lia|]. cbn [orb]. apply type0_basin. lia.
    - apply inlet_columns; auto.
    - rewrite HC. unfold centre. pose proof (Z.div_mod (p_W P) 2 ltac:(lia)). pose proof (Z.mod_pos_bound (p_W P) 2 ltac:(lia)).
      destruct (Z.leb_spec (p_W P / 2 - 1) 1), (Z.ltb_spec (p_W P) 6); lia.
    - exists (round_half (p_N0 P)). split; [unfold channel_inds; lia|]. unfold round_half.
      destruct (Z.even (p_N0 P)) eqn:Ev.
      + left. apply Z.even_spec in Ev as [h ->]. pose proof (Z.div_mod (2 * h) 2 ltac:(lia)). pose proof (Z.mod_pos_bound (2 * h) 2 ltac:(lia)). lia.
      + assert (Ho : Z.odd (p_N0 P) = true) by (rewrite <- Z.negb_even, Ev; reflexivity).
        apply Z.odd_spec in Ho as [h ->]. right.
        pose proof (Z.div_mod (2 * h + 1) 2 ltac:(lia)). pose proof (Z.mod_pos_bound (2 * h + 1) 2 ltac:(lia)).
        replace ((2 * h + 1) / 2)%Z with h by lia.
        destruct (Z.even h) eqn:Eh; [split; [lia|auto]|]. split; [lia|].
        rewrite Z.even_add, Eh. reflexivity.
  Qed.

  (** ** Outcome of construction *)
  Definition with_seed (c : inputs R) (z : Z) : inputs R := seti_seed (Some z) (resolved (fun x => x) c).

  Lemma step_limit_frame (c : inputs R) z (P P' : params R) : p_L P' = p_L P -> p_W P' = p_W P ->
    step_limit (with_seed c z) P = step_limit c P'.
  Proof. intros E1 E2. unfold step_limit, with_seed. rewrite E1, E2. reflexivity. Qed.

  Lemma passes_ge (n : Z) : (3 <= n)%Z -> 9 / 10 <= IZR (n * n) / 10.
  Proof. intros H. assert (9 <= n * n)%Z by nia. apply IZR_le in H0. lra. Qed.

  Lemma div_V0 (n h d : R) : h * (d * d) <> 0 -> 1 / 10 * n * (h * (d * d)) / (h * (d * d)) = n / 10.
  Proof. intros H. field. split; intros E; apply H; rewrite E; ring. Qed.

  (** The last steps of construction. *)
  Lemma final_frame {T} (f : params R -> T) (c : inputs R) inl hb P2 :
    (forall P s, f (setp_sigma s P) = f P) ->
    (forall P s, f (setp_f_bedload_router s P) = f P) -> (forall P s, f (setp_inlet s P) = f P) ->
    (forall P s, f (setp_hb s P) = f P) ->
    f (init_subsidence (A:=XA) c (init_sediment_routers (setp_inlet inl (setp_hb hb P2)))) = f P2.
  Proof.
    intros K1 K2 K3 K4. unfold init_subsidence, init_sediment_routers.
    match goal with |- context [if ?b then _ else _] => destruct b end; rewrite ?K1, ?K2, ?K3, ?K4; reflexivity.
  Qed.
  Ltac fin := unfold init_subsidence, init_sediment_routers;
    match goal with |- context [if ?b then _ else _] => destruct b end; reflexivity.
  Lemma final_hb (c : inputs R) inl hb P2 :
    p_hb (init_subsidence (A:=XA) c (init_sediment_routers (setp_inlet inl (setp_hb hb P2)))) = hb.
  Proof. fin. Qed.
  Lemma final_inlet (c : inputs R) inl hb P2 :
    p_inlet (init_subsidence (A:=XA) c (init_sediment_routers (setp_inlet inl (setp_hb hb P2)))) = inl.
  Proof. fin. Qed.
  Lemma final_router (c : inputs R) inl hb P2 :
    p_f_bedload_router (init_subsidence (A:=XA) c (init_sediment_routers (setp_inlet inl (setp_hb hb P2)))) = p_f_bedload P2.
  Proof. fin. Qed.
  Lemma final_sigma (c : inputs R) inl hb P2 i j :
    p_sigma (init_subsidence (A:=XA) c (init_sediment_routers (setp_inlet inl (setp_hb hb P2)))) i j
    = if p_toggle_subsidence P2 then lowering P2 (i_subsidence_rate c) i else p_sigma P2 i j.
  Proof.
    unfold init_subsidence, init_sediment_routers.
    change (p_toggle_subsidence (setp_f_bedload_router (p_f_bedload (setp_inlet inl (setp_hb hb P2)))
      (setp_inlet inl (setp_hb hb P2)))) with (p_toggle_subsidence P2).
    destruct (p_toggle_subsidence P2); [|reflexivity].
    cbn [p_sigma setp_sigma]. unfold lowering. cbn [p_L0 p_dt setp_f_bedload_router setp_inlet setp_hb fmul fz RA].
    destruct (i <? p_L0 P2)%Z; ring.
  Qed.

  (** The constants of a constructed model. *)
  Lemma constants_derived (c : inputs R) z (P2 : params R) inl hb : accepted c ->
    create_boundary_conditions (A:=XA) (with_seed c z) (create_other_variables (A:=XA) (with_seed c z)) = Ok P2 ->
    hb = basin_depth (A:=XA) (with_seed c z) ->
    ~ vanishing c /\
    let P := init_subsidence (A:=XA) (with_seed c z) (init_sediment_routers (setp_inlet inl (setp_hb hb P2))) in
    derived c P /\ p_CTR P = centre (p_W P) /\ p_inlet P = inl.
  Proof.
    intros HA E Ehb.
    pose proof (boundary_spec (with_seed c z) (create_other_variables (A:=XA) (with_seed c z))) as H.
    cbn zeta in H. rewrite E in H. clear E.
    set (P0 := create_other_variables (with_seed c z)) in *.
    change (p_Np_water P0) with (i_Np_water c) in H. change (p_Np_sed P0) with (i_Np_sed c) in H.
    change (p_itermax P0) with (i_itermax c) in H.
    change (i_u0 (with_seed c z)) with (i_u0 c) in H. change (i_h0 (with_seed c z)) with (i_h0 c) in H.
    change (i_dx (with_seed c z)) with (i_dx c) in H. change (i_C0_percent (with_seed c z)) with (i_C0_percent c) in H.
    change (i_N0_meters (with_seed c z)) with (i_N0_meters c) in H. change (i_L0_meters (with_seed c z)) with (i_L0_meters c) in H.
    change (i_S0 (with_seed c z)) with (i_S0 c) in H. change (i_sed_lag (with_seed c z)) with (i_sed_lag c) in H.
    change (i_alpha (with_seed c z)) with (i_alpha c) in H.
    set (N0 := Z.max 3 (Z.min (ZnearestE (i_N0_meters c / i_dx c)) (p_W P0 / 4))) in *.
    assert (HN : (3 <= N0)%Z) by lia.
    destruct H as (Hu & Hw & Hs & HQ & Hi & HV & Hc & Hd & EP).
    rewrite (div_V0 _ _ _ HV) in Hc, EP.
    destruct HA as [A1 A2 (A3 & A4 & A5) A6 A7 A8 A9 A10 A11 A12 A13 A14].
    assert (Hu0 : i_u0 c <> 0). { intros K. apply Hu. rewrite K. ring. }
    assert (Hh0 : i_h0 c <> 0). { intros K. apply HV. rewrite K. ring. }
    assert (HC0 : i_C0_percent c <> 0). { intros K. apply HQ. rewrite K. field. }
    assert (HN0 : IZR N0 <> 0). { apply IZR_neq. lia. }
    split. { unfold vanishing. intros [K|[K|[K|K]]]; [tauto|tauto|tauto|]. apply Hi. rewrite K. reflexivity. }
    cbn zeta.
    assert (HL : (1 <= p_L P0)%Z).
    { unfold P0, create_other_variables. cbn [p_L frint fdiv RA]. apply nearest_ge.
      change (i_Length (with_seed c z)) with (i_Length c). change (i_dx (with_seed c z)) with (i_dx c).
      apply Rmult_le_reg_r with (i_dx c); auto. unfold Rdiv. rewrite Rmult_assoc, Rinv_l by lra. lra. }
    assert (HW : (1 <= p_W P0)%Z).
    { unfold P0, create_other_variables. cbn [p_W frint fdiv RA]. apply nearest_ge.
      change (i_Width (with_seed c z)) with (i_Width c). change (i_dx (with_seed c z)) with (i_dx c).
      apply Rmult_le_reg_r with (i_dx c); auto. unfold Rdiv. rewrite Rmult_assoc, Rinv_l by lra. lra. }
    assert (HrL : rounded (i_Length c / i_dx c) (p_L P0)) by apply nearest_rounded.
    assert (HrW : rounded (i_Width c / i_dx c) (p_W P0)) by apply nearest_rounded.
    assert (EC : p_CTR P0 = centre (p_W P0)) by reflexivity.
    assert (ES : step_limit (with_seed c z) P0 = step_limit c P0) by (apply step_limit_frame; reflexivity).
    rewrite ES in EP.
    assert (F0 : p_dx P0 = i_dx c /\ p_h0 P0 = i_h0 c /\ p_u0 P0 = i_u0 c /\ p_S0 P0 = i_S0 c /\
      p_itermax P0 = i_itermax c /\ p_Np_water P0 = i_Np_water c /\ p_Np_sed P0 = i_Np_sed c /\
      p_f_bedload P0 = i_f_bedload c /\ p_beta P0 = i_beta c /\ p_omega_sfc P0 = i_omega_sfc c /\
      p_omega_flow P0 = i_omega_flow c /\ p_Nsmooth P0 = i_Nsmooth c /\ p_Csmooth P0 = i_Csmooth c /\
      p_SLR P0 = i_SLR c /\ p_sand_frac_bc P0 = i_sand_frac_bc c /\
      p_toggle_subsidence P0 = i_toggle_subsidence c /\ p_start_subsidence P0 = i_start_subsidence c /\
      p_save_dt P0 = i_save_dt c /\ p_save_checkpoint P0 = i_save_checkpoint c) by (repeat split).
    assert (F1 : p_U_dep_mud P0 = i_coeff_U_dep_mud c * i_u0 c /\
      p_U_ero_mud P0 = i_coeff_U_ero_mud c * i_u0 c /\ p_U_ero_sand P0 = i_coeff_U_ero_sand c * i_u0 c /\
      p_theta_water P0 = i_theta_water c /\
      p_theta_sand P0 = i_coeff_theta_sand c * i_theta_water c /\
      p_theta_mud P0 = i_coeff_theta_mud c * i_theta_water c) by (repeat split).
    assert (F2 : p_active_layer_thickness P0
      = match i_active_layer_thickness c with Some t => t | None => i_h0 c / 2 end) by reflexivity.
    assert (F3 : p_checkpoint_dt P0 = match i_checkpoint_dt c with Some t => t | None => i_save_dt c end) by reflexivity.
    assert (F4 : p_sigma P0 = fun _ _ => 0) by reflexivity.
    assert (F5 : hb = match i_hb c with Some d => if Req_EM_T d 0 then i_h0 c else d | None => i_h0 c end).
    { rewrite Ehb. unfold basin_depth. change (i_hb (with_seed c z)) with (i_hb c).
      change (i_h0 (with_seed c z)) with (i_h0 c). destruct (i_hb c) as [d|]; auto. cbn [feqb fz RA].
      destruct (Reqb_spec d 0), (Req_EM_T d 0); auto; contradiction. }
    assert (F6 : i_subsidence_rate (with_seed c z) = i_subsidence_rate c) by reflexivity.
    pose proof (passes_ge N0 HN) as HNc.
    assert (HNc1 : (1 <= ZnearestE (IZR (N0 * N0) / 10))%Z).
    { pose proof (nearest_rounded (IZR (N0 * N0) / 10)) as K. destruct K as [K _]; apply Rabs_le_inv in K.
      apply Z.lt_succ_r. apply lt_IZR. unfold Z.succ. rewrite plus_IZR. lra. }
    clearbody P0. clear Ehb.
    destruct F0 as (G1 & G2 & G3 & G4 & G5 & G6 & G7 & G8 & G9 & G10 & G11 & G12 & G13 & G14 & G15 & G16 & G17 & G18 & G19).
    destruct F1 as (J1 & J2 & J3 & J4 & J5 & J6).
    assert (Hdt : 1 / 10 * IZR (N0 * N0) * (i_h0 c * (i_dx c * i_dx c)) /
       (i_u0 c * i_h0 c * IZR N0 * i_dx c * (i_C0_percent c * 1 / 100))
       = IZR N0 * i_dx c / (10 * i_u0 c * (i_C0_percent c / 100))).
    { rewrite mult_IZR. field. repeat split; auto; lra. }
    pose proof (fun T f => final_frame (T:=T) f (with_seed c z) inl hb P2) as Hfr.
    assert (X_L : p_L P2 = p_L P0) by (rewrite EP; reflexivity).
    assert (X_W : p_W P2 = p_W P0) by (rewrite EP; reflexivity).
    assert (X_CTR : p_CTR P2 = p_CTR P0) by (rewrite EP; reflexivity).
    assert (X_f_bedload : p_f_bedload P2 = p_f_bedload P0) by (rewrite EP; reflexivity).
    assert (X_dx : p_dx P2 = p_dx P0) by (rewrite EP; reflexivity).
    assert (X_h0 : p_h0 P2 = p_h0 P0) by (rewrite EP; reflexivity).
    assert (X_u0 : p_u0 P2 = p_u0 P0) by (rewrite EP; reflexivity).
    assert (X_S0 : p_S0 P2 = p_S0 P0) by (rewrite EP; reflexivity).
    assert (X_itermax : p_itermax P2 = p_itermax P0) by (rewrite EP; reflexivity).
    assert (X_Np_water : p_Np_water P2 = p_Np_water P0) by (rewrite EP; reflexivity).
    assert (X_Np_sed : p_Np_sed P2 = p_Np_sed P0) by (rewrite EP; reflexivity).
    assert (X_beta : p_beta P2 = p_beta P0) by (rewrite EP; reflexivity).
    assert (X_omega_sfc : p_omega_sfc P2 = p_omega_sfc P0) by (rewrite EP; reflexivity).
    assert (X_omega_flow : p_omega_flow P2 = p_omega_flow P0) by (rewrite EP; reflexivity).
    assert (X_Nsmooth : p_Nsmooth P2 = p_Nsmooth P0) by (rewrite EP; reflexivity).
    assert (X_Csmooth : p_Csmooth P2 = p_Csmooth P0) by (rewrite EP; reflexivity).
    assert (X_SLR : p_SLR P2 = p_SLR P0) by (rewrite EP; reflexivity).
    assert (X_sand_frac_bc : p_sand_frac_bc P2 = p_sand_frac_bc P0) by (rewrite EP; reflexivity).
    assert (X_toggle_subsidence : p_toggle_subsidence P2 = p_toggle_subsidence P0) by (rewrite EP; reflexivity).
    assert (X_start_subsidence : p_start_subsidence P2 = p_start_subsidence P0) by (rewrite EP; reflexivity).
    assert (X_save_dt : p_save_dt P2 = p_save_dt P0) by (rewrite EP; reflexivity).
    assert (X_save_checkpoint : p_save_checkpoint P2 = p_save_checkpoint P0) by (rewrite EP; reflexivity).
    assert (X_U_dep_mud : p_U_dep_mud P2 = p_U_dep_mud P0) by (rewrite EP; reflexivity).
    assert (X_U_ero_mud : p_U_ero_mud P2 = p_U_ero_mud P0) by (rewrite EP; reflexivity).
    assert (X_U_ero_sand : p_U_ero_sand P2 = p_U_ero_sand P0) by (rewrite EP; reflexivity).
    assert (X_theta_water : p_theta_water P2 = p_theta_water P0) by (rewrite EP; reflexivity).
    assert (X_theta_sand : p_theta_sand P2 = p_theta_sand P0) by (rewrite EP; reflexivity).
    assert (X_theta_mud : p_theta_mud P2 = p_theta_mud P0) by (rewrite EP; reflexivity).
    assert (X_active_layer_thickness : p_active_layer_thickness P2 = p_active_layer_thickness P0) by (rewrite EP; reflexivity).
    assert (X_checkpoint_dt : p_checkpoint_dt P2 = p_checkpoint_dt P0) by (rewrite EP; reflexivity).
    rewrite Hdt in EP.
    assert (X_L0 : p_L0 P2 = Z.max 1 (Z.min (ZnearestE (i_L0_meters c / i_dx c)) (p_L P0 / 4))) by (rewrite EP; reflexivity).
    assert (X_N0 : p_N0 P2 = N0) by (rewrite EP; reflexivity).
    assert (X_u_max : p_u_max P2 = 2 * i_u0 c) by (rewrite EP; reflexivity).
    assert (X_C0 : p_C0 P2 = i_C0_percent c * 1 / 100) by (rewrite EP; reflexivity).
    assert (X_dry_depth : p_dry_depth P2 = Rmin (1 / 10) (1 / 10 * i_h0 c)) by (rewrite EP; reflexivity).
    assert (X_gamma : p_gamma P2 = 981 / 100 * i_S0 c * i_dx c / (i_u0 c * i_u0 c)) by (rewrite EP; reflexivity).
    assert (X_Qw0 : p_Qw0 P2 = i_u0 c * i_h0 c * IZR N0 * i_dx c) by (rewrite EP; reflexivity).
    assert (X_qw0 : p_qw0 P2 = i_u0 c * i_h0 c) by (rewrite EP; reflexivity).
    assert (X_Qp_water : p_Qp_water P2 = i_u0 c * i_h0 c * IZR N0 * i_dx c / IZR (i_Np_water c)) by (rewrite EP; reflexivity).
    assert (X_qs0 : p_qs0 P2 = i_u0 c * i_h0 c * (i_C0_percent c * 1 / 100)) by (rewrite EP; reflexivity).
    assert (X_dVs : p_dVs P2 = 1 / 10 * IZR (N0 * N0) * (i_h0 c * (i_dx c * i_dx c))) by (rewrite EP; reflexivity).
    assert (X_Qs0 : p_Qs0 P2 = i_u0 c * i_h0 c * IZR N0 * i_dx c * (i_C0_percent c * 1 / 100)) by (rewrite EP; reflexivity).
    assert (X_Vp_sed : p_Vp_sed P2 = 1 / 10 * IZR (N0 * N0) * (i_h0 c * (i_dx c * i_dx c)) / IZR (i_Np_sed c)) by (rewrite EP; reflexivity).
    assert (X_stepmax : p_stepmax P2 = step_limit c P0) by (rewrite EP; reflexivity).
    assert (X_dt : p_dt P2 = IZR N0 * i_dx c / (10 * i_u0 c * (i_C0_percent c / 100))) by (rewrite EP; reflexivity).
    assert (X_omega_flow_iter : p_omega_flow_iter P2 = 2 / IZR (i_itermax c)) by (rewrite EP; reflexivity).
    assert (X_N_crossdiff : p_N_crossdiff P2 = ZnearestE (IZR (N0 * N0) / 10)) by (rewrite EP; reflexivity).
    assert (X_lambda : p_lambda P2 = i_sed_lag c) by (rewrite EP; reflexivity).
    assert (X_diffusion_multiplier : p_diffusion_multiplier P2 = IZR N0 * i_dx c / (10 * i_u0 c * (i_C0_percent c / 100)) / IZR (ZnearestE (IZR (N0 * N0) / 10)) * i_alpha c * (1 / 2) / (i_dx c * i_dx c)) by (rewrite EP; reflexivity).
    assert (X_sig : forall i j, p_sigma P2 i j = 0) by (intros; rewrite EP; cbn [p_sigma setp_L0 setp_N0 setp_u_max setp_C0 setp_dry_depth setp_gamma setp_V0 setp_Qw0 setp_qw0 setp_Qp_water setp_qs0 setp_dVs setp_Qs0 setp_Vp_sed setp_stepmax setp_dt setp_omega_flow_iter setp_N_crossdiff setp_lambda setp_diffusion_multiplier]; rewrite F4; reflexivity).
    clear EP Hdt.
    pose proof (final_sigma (with_seed c z) inl hb P2) as Hsig. rewrite F6 in Hsig.
    pose proof (final_hb (with_seed c z) inl hb P2) as EhbP.
    pose proof (final_inlet (with_seed c z) inl hb P2) as EinP.
    pose proof (final_router (with_seed c z) inl hb P2) as ErtP.
    set (P := init_subsidence (with_seed c z) _) in *. clearbody P.
    pose proof (Hfr _ p_L (fun _ _ => eq_refl) (fun _ _ => eq_refl) (fun _ _ => eq_refl) (fun _ _ => eq_refl)) as Y_L.
    pose proof (Hfr _ p_W (fun _ _ => eq_refl) (fun _ _ => eq_refl) (fun _ _ => eq_refl) (fun _ _ => eq_refl)) as Y_W.
    pose proof (Hfr _ p_CTR (fun _ _ => eq_refl) (fun _ _ => eq_refl) (fun _ _ => eq_refl) (fun _ _ => eq_refl)) as Y_CTR.
    pose proof (Hfr _ p_f_bedload (fun _ _ => eq_refl) (fun _ _ => eq_refl) (fun _ _ => eq_refl) (fun _ _ => eq_refl)) as Y_f_bedload.
    pose proof (Hfr _ p_dx (fun _ _ => eq_refl) (fun _ _ => eq_refl) (fun _ _ => eq_refl) (fun _ _ => eq_refl)) as Y_dx.
    pose proof (Hfr _ p_h0 (fun _ _ => eq_refl) (fun _ _ => eq_refl) (fun _ _ => eq_refl) (fun _ _ => eq_refl)) as Y_h0.
    pose proof (Hfr _ p_u0 (fun _ _ => eq_refl) (fun _ _ => eq_refl) (fun _ _ => eq_refl) (fun _ _ => eq_refl)) as Y_u0.
    pose proof (Hfr _ p_S0 (fun _ _ => eq_refl) (fun _ _ => eq_refl) (fun _ _ => eq_refl) (fun _ _ => eq_refl)) as Y_S0.
    pose proof (Hfr _ p_itermax (fun _ _ => eq_refl) (fun _ _ => eq_refl) (fun _ _ => eq_refl) (fun _ _ => eq_refl)) as Y_itermax.
    pose proof (Hfr _ p_Np_water (fun _ _ => eq_refl) (fun _ _ => eq_refl) (fun _ _ => eq_refl) (fun _ _ => eq_refl)) as Y_Np_water.
    pose proof (Hfr _ p_Np_sed (fun _ _ => eq_refl) (fun _ _ => eq_refl) (fun _ _ => eq_refl) (fun _ _ => eq_refl)) as Y_Np_sed.
    pose proof (Hfr _ p_beta (fun _ _ => eq_refl) (fun _ _ => eq_refl) (fun _ _ => eq_refl) (fun _ _ => eq_refl)) as Y_beta.
    pose proof (Hfr _ p_omega_sfc (fun _ _ => eq_refl) (fun _ _ => eq_refl) (fun _ _ => eq_refl) (fun _ _ => eq_refl)) as Y_omega_sfc.
    pose proof (Hfr _ p_omega_flow (fun _ _ => eq_refl) (fun _ _ => eq_refl) (fun _ _ => eq_refl) (fun _ _ => eq_refl)) as Y_omega_flow.
    pose proof (Hfr _ p_Nsmooth (fun _ _ => eq_refl) (fun _ _ => eq_refl) (fun _ _ => eq_refl) (fun _ _ => eq_refl)) as Y_Nsmooth.
    pose proof (Hfr _ p_Csmooth (fun _ _ => eq_refl) (fun _ _ => eq_refl) (fun _ _ => eq_refl) (fun _ _ => eq_refl)) as Y_Csmooth.
    pose proof (Hfr _ p_SLR (fun _ _ => eq_refl) (fun _ _ => eq_refl) (fun _ _ => eq_refl) (fun _ _ => eq_refl)) as Y_SLR.
    pose proof (Hfr _ p_sand_frac_bc (fun _ _ => eq_refl) (fun _ _ => eq_refl) (fun _ _ => eq_refl) (fun _ _ => eq_refl)) as Y_sand_frac_bc.
    pose proof (Hfr _ p_toggle_subsidence (fun _ _ => eq_refl) (fun _ _ => eq_refl) (fun _ _ => eq_refl) (fun _ _ => eq_refl)) as Y_toggle_subsidence.
    pose proof (Hfr _ p_start_subsidence (fun _ _ => eq_refl) (fun _ _ => eq_refl) (fun _ _ => eq_refl) (fun _ _ => eq_refl)) as Y_start_subsidence.
    pose proof (Hfr _ p_save_dt (fun _ _ => eq_refl) (fun _ _ => eq_refl) (fun _ _ => eq_refl) (fun _ _ => eq_refl)) as Y_save_dt.
    pose proof (Hfr _ p_save_checkpoint (fun _ _ => eq_refl) (fun _ _ => eq_refl) (fun _ _ => eq_refl) (fun _ _ => eq_refl)) as Y_save_checkpoint.
    pose proof (Hfr _ p_U_dep_mud (fun _ _ => eq_refl) (fun _ _ => eq_refl) (fun _ _ => eq_refl) (fun _ _ => eq_refl)) as Y_U_dep_mud.
    pose proof (Hfr _ p_U_ero_mud (fun _ _ => eq_refl) (fun _ _ => eq_refl) (fun _ _ => eq_refl) (fun _ _ => eq_refl)) as Y_U_ero_mud.
    pose proof (Hfr _ p_U_ero_sand (fun _ _ => eq_refl) (fun _ _ => eq_refl) (fun _ _ => eq_refl) (fun _ _ => eq_refl)) as Y_U_ero_sand.
    pose proof (Hfr _ p_theta_water (fun _ _ => eq_refl) (fun _ _ => eq_refl) (fun _ _ => eq_refl) (fun _ _ => eq_refl)) as Y_theta_water.
    pose proof (Hfr _ p_theta_sand (fun _ _ => eq_refl) (fun _ _ => eq_refl) (fun _ _ => eq_refl) (fun _ _ => eq_refl)) as Y_theta_sand.
    pose proof (Hfr _ p_theta_mud (fun _ _ => eq_refl) (fun _ _ => eq_refl) (fun _ _ => eq_refl) (fun _ _ => eq_refl)) as Y_theta_mud.
    pose proof (Hfr _ p_active_layer_thickness (fun _ _ => eq_refl) (fun _ _ => eq_refl) (fun _ _ => eq_refl) (fun _ _ => eq_refl)) as Y_active_layer_thickness.
    pose proof (Hfr _ p_checkpoint_dt (fun _ _ => eq_refl) (fun _ _ => eq_refl) (fun _ _ => eq_refl) (fun _ _ => eq_refl)) as Y_checkpoint_dt.
    pose proof (Hfr _ p_L0 (fun _ _ => eq_refl) (fun _ _ => eq_refl) (fun _ _ => eq_refl) (fun _ _ => eq_refl)) as Y_L0.
    pose proof (Hfr _ p_N0 (fun _ _ => eq_refl) (fun _ _ => eq_refl) (fun _ _ => eq_refl) (fun _ _ => eq_refl)) as Y_N0.
    pose proof (Hfr _ p_u_max (fun _ _ => eq_refl) (fun _ _ => eq_refl) (fun _ _ => eq_refl) (fun _ _ => eq_refl)) as Y_u_max.
    pose proof (Hfr _ p_C0 (fun _ _ => eq_refl) (fun _ _ => eq_refl) (fun _ _ => eq_refl) (fun _ _ => eq_refl)) as Y_C0.
    pose proof (Hfr _ p_dry_depth (fun _ _ => eq_refl) (fun _ _ => eq_refl) (fun _ _ => eq_refl) (fun _ _ => eq_refl)) as Y_dry_depth.
    pose proof (Hfr _ p_gamma (fun _ _ => eq_refl) (fun _ _ => eq_refl) (fun _ _ => eq_refl) (fun _ _ => eq_refl)) as Y_gamma.
    pose proof (Hfr _ p_Qw0 (fun _ _ => eq_refl) (fun _ _ => eq_refl) (fun _ _ => eq_refl) (fun _ _ => eq_refl)) as Y_Qw0.
    pose proof (Hfr _ p_qw0 (fun _ _ => eq_refl) (fun _ _ => eq_refl) (fun _ _ => eq_refl) (fun _ _ => eq_refl)) as Y_qw0.
    pose proof (Hfr _ p_Qp_water (fun _ _ => eq_refl) (fun _ _ => eq_refl) (fun _ _ => eq_refl) (fun _ _ => eq_refl)) as Y_Qp_water.
    pose proof (Hfr _ p_qs0 (fun _ _ => eq_refl) (fun _ _ => eq_refl) (fun _ _ => eq_refl) (fun _ _ => eq_refl)) as Y_qs0.
    pose proof (Hfr _ p_dVs (fun _ _ => eq_refl) (fun _ _ => eq_refl) (fun _ _ => eq_refl) (fun _ _ => eq_refl)) as Y_dVs.
    pose proof (Hfr _ p_Qs0 (fun _ _ => eq_refl) (fun _ _ => eq_refl) (fun _ _ => eq_refl) (fun _ _ => eq_refl)) as Y_Qs0.
    pose proof (Hfr _ p_Vp_sed (fun _ _ => eq_refl) (fun _ _ => eq_refl) (fun _ _ => eq_refl) (fun _ _ => eq_refl)) as Y_Vp_sed.
    pose proof (Hfr _ p_stepmax (fun _ _ => eq_refl) (fun _ _ => eq_refl) (fun _ _ => eq_refl) (fun _ _ => eq_refl)) as Y_stepmax.
    pose proof (Hfr _ p_dt (fun _ _ => eq_refl) (fun _ _ => eq_refl) (fun _ _ => eq_refl) (fun _ _ => eq_refl)) as Y_dt.
    pose proof (Hfr _ p_omega_flow_iter (fun _ _ => eq_refl) (fun _ _ => eq_refl) (fun _ _ => eq_refl) (fun _ _ => eq_refl)) as Y_omega_flow_iter.
    pose proof (Hfr _ p_N_crossdiff (fun _ _ => eq_refl) (fun _ _ => eq_refl) (fun _ _ => eq_refl) (fun _ _ => eq_refl)) as Y_N_crossdiff.
    pose proof (Hfr _ p_lambda (fun _ _ => eq_refl) (fun _ _ => eq_refl) (fun _ _ => eq_refl) (fun _ _ => eq_refl)) as Y_lambda.
    pose proof (Hfr _ p_diffusion_multiplier (fun _ _ => eq_refl) (fun _ _ => eq_refl) (fun _ _ => eq_refl) (fun _ _ => eq_refl)) as Y_diffusion_multiplier.
    clear Hfr.
    assert (HC1 : 0 < i_C0_percent c) by lra.
    assert (HNw : IZR (i_Np_water c) <> 0) by (apply IZR_neq; lia).
    assert (HNs : IZR (i_Np_sed c) <> 0) by (apply IZR_neq; lia).
    assert (HN1 : 0 < IZR N0) by (apply IZR_lt; lia).
    split; [|split; congruence].
    constructor.
    - rewrite Y_L, X_L. auto.
    - rewrite Y_W, X_W. auto.
    - rewrite Y_L0, X_L0, Y_L, X_L. eexists. split; [apply nearest_rounded|reflexivity].
    - rewrite Y_N0, X_N0, Y_W, X_W. exists (ZnearestE (i_N0_meters c / i_dx c)). split; [apply nearest_rounded|reflexivity].
    - congruence.
    - rewrite Y_C0, X_C0. field.
    - rewrite Y_dry_depth, X_dry_depth. f_equal. field.
    - congruence.
    - rewrite Y_Qw0, X_Qw0, Y_N0, X_N0. ring.
    - congruence.
    - rewrite Y_qs0, X_qs0. field.
    - rewrite Y_Qp_water, X_Qp_water, Y_Qw0, X_Qw0. field. auto.
    - rewrite Y_Qs0, X_Qs0, Y_Qw0, X_Qw0. field.
    - rewrite Y_dVs, X_dVs, Y_N0, X_N0. field.
    - rewrite Y_Vp_sed, X_Vp_sed, Y_dVs, X_dVs. field. auto.
    - rewrite Y_dt, X_dt, Y_Qs0, X_Qs0, Y_dVs, X_dVs, Y_N0, X_N0. split; [|reflexivity].
      rewrite mult_IZR. field. repeat split; auto; lra.
    - rewrite Y_dt, X_dt.
      assert (E : IZR N0 * i_dx c / (10 * i_u0 c * (i_C0_percent c / 100))
        = IZR N0 * i_dx c * 10 / i_C0_percent c * / i_u0 c) by (field; auto).
      assert (K : 0 < IZR N0 * i_dx c * 10 / i_C0_percent c).
      { apply Rdiv_lt_0_compat; auto. apply Rmult_lt_0_compat; [|lra]. apply Rmult_lt_0_compat; auto. }
      rewrite E. split; intros H.
      + apply Rnot_le_lt. intros H'. assert (/ i_u0 c < 0) by (apply Rinv_lt_0_compat; lra).
        pose proof (Rmult_lt_compat_l _ _ _ K H0). lra.
      + apply Rmult_lt_0_compat; auto. apply Rinv_0_lt_compat; auto.
    - rewrite Y_N0, X_N0, Y_N_crossdiff, X_N_crossdiff. split; [apply nearest_rounded|exact HNc1].
    - rewrite Y_diffusion_multiplier, X_diffusion_multiplier, Y_dt, X_dt, Y_N_crossdiff, X_N_crossdiff.
      field. repeat split; auto; lra.
    - congruence.
    - rewrite Y_stepmax, X_stepmax. unfold step_limit. rewrite Y_L, X_L, Y_W, X_W. reflexivity.
    - repeat split; congruence.
    - repeat split; congruence.
    - congruence.
    - congruence.
    - congruence.
    - intros i j. rewrite Hsig, X_toggle_subsidence, G16, X_sig. destruct (i_toggle_subsidence c); [|reflexivity].
      unfold lowering. rewrite Y_L0, Y_dt. reflexivity.
    - repeat split; congruence.
  Qed.

  Lemma boundary_fails (c : inputs R) z e : accepted c ->
    create_boundary_conditions (A:=XA) (with_seed c z) (create_other_variables (A:=XA) (with_seed c z)) = Err e ->
    e = ZeroDivisionError /\ vanishing c.
  Proof.
    intros HA E.
    pose proof (boundary_spec (with_seed c z) (create_other_variables (A:=XA) (with_seed c z))) as H.
    cbn zeta in H. rewrite E in H. clear E. destruct H as [-> H]. split; [reflexivity|].
    set (P0 := create_other_variables (with_seed c z)) in *.
    change (p_Np_water P0) with (i_Np_water c) in H. change (p_Np_sed P0) with (i_Np_sed c) in H.
    change (p_itermax P0) with (i_itermax c) in H.
    change (i_u0 (with_seed c z)) with (i_u0 c) in H. change (i_h0 (with_seed c z)) with (i_h0 c) in H.
    change (i_dx (with_seed c z)) with (i_dx c) in H. change (i_C0_percent (with_seed c z)) with (i_C0_percent c) in H.
    set (N0 := Z.max 3 (Z.min (ZnearestE (i_N0_meters (with_seed c z) / i_dx c)) (p_W P0 / 4))) in *.
    assert (HN : (3 <= N0)%Z) by lia. clearbody N0 P0.
    destruct HA as [A1 A2 (A3 & A4 & A5) A6 A7 A8 A9 A10 A11 A12 A13 A14].
    assert (HN0 : IZR N0 <> 0) by (apply IZR_neq; lia).
    assert (Hdd : i_dx c * i_dx c <> 0) by (apply Rmult_integral_contrapositive_currified; lra).
    unfold vanishing. destruct (Req_EM_T (i_h0 c) 0) as [E|Hh]; [auto|].
    assert (HV : i_h0 c * (i_dx c * i_dx c) <> 0) by (apply Rmult_integral_contrapositive_currified; auto).
    destruct H as [H|[H|[H|[H|[H|[H|[H|H]]]]]]]; try contradiction.
    - apply Rmult_integral in H. tauto.
    - apply eq_IZR in H. lia.
    - apply eq_IZR in H. lia.
    - apply Rmult_integral in H as [H|H]; [|right; right; left; lra].
      apply Rmult_integral in H as [H|H]; [|lra]. apply Rmult_integral in H as [H|H]; [|lra].
      apply Rmult_integral in H as [H|H]; tauto.
    - apply eq_IZR in H. tauto.
    - exfalso. rewrite (div_V0 _ _ _ HV) in H. apply eq_IZR in H.
      pose proof (nearest_rounded (IZR (N0 * N0) / 10)) as K. rewrite H in K. destruct K as [K _]; apply Rabs_le_inv in K.
      pose proof (passes_ge N0 HN). lra.
  Qed.

  Lemma size_negative n : (Z.quot n 2 < 0)%Z <-> (n <= -2)%Z.
  Proof.
    split; intros H.
    - destruct (Z_le_gt_dec n (-2)); auto. exfalso. destruct (Z.eq_dec n (-1)) as [->|]; [cbn in H; lia|].
      pose proof (Z.quot_pos n 2). lia.
    - assert (Z.quot n 2 <= Z.quot (-2) 2)%Z by (apply Z.quot_le_mono; lia). cbn in H0. lia.
  Qed.

  Lemma stepmax_P2 (c : inputs R) z P2 :
    create_boundary_conditions (A:=XA) (with_seed c z) (create_other_variables (A:=XA) (with_seed c z)) = Ok P2 ->
    p_stepmax P2 = step_limit c P2 /\ p_qw0 P2 = i_u0 c * i_h0 c.
  Proof.
    intros E.
    pose proof (boundary_spec (with_seed c z) (create_other_variables (A:=XA) (with_seed c z))) as H.
    cbn zeta in H. rewrite E in H. destruct H as (_ & _ & _ & _ & _ & _ & _ & _ & EP). clear E.
    assert (ES : step_limit (with_seed c z) (create_other_variables (A:=XA) (with_seed c z))
      = step_limit c (create_other_variables (A:=XA) (with_seed c z))) by (apply step_limit_frame; reflexivity).
    rewrite ES in EP. clear ES. change (i_u0 (with_seed c z)) with (i_u0 c) in EP. change (i_h0 (with_seed c z)) with (i_h0 c) in EP.
    revert EP. generalize (create_other_variables (A:=XA) (with_seed c z)) as P0. intros P0 EP.
    split; [|rewrite EP; reflexivity].
    assert (E1 : p_L P2 = p_L P0) by (rewrite EP; reflexivity).
    assert (E2 : p_W P2 = p_W P0) by (rewrite EP; reflexivity).
    assert (E3 : p_stepmax P2 = step_limit c P0) by (rewrite EP; reflexivity).
    rewrite E3. unfold step_limit. rewrite E1, E2. reflexivity.
  Qed.

  Lemma seed_known (c : inputs R) z : i_seed c = Some z -> resolved (fun x => x) c = with_seed c z.
  Proof. intros E. unfold with_seed. destruct c; cbn in *. subst. reflexivity. Qed.

  (** How the seed of the model was determined. *)
  Definition seeded (c : inputs R) (np : N) (z : Z) (np' : N) : Prop :=
    match i_seed c with Some z' => z = z' /\ np' = np | None => (z, np') = randint np end.

  Lemma construct_outcome (c : inputs R) (nb : S) (np : N) :
    match construct (A:=XA) c nb np with
    | Err e =>
        (e = ValueError /\ ~ accepted c) \/
        (e = ZeroDivisionError /\ accepted c /\ vanishing c) \/
        (e = ValueError /\ accepted c /\ ~ vanishing c /\ exists x, i_stepmax c = Some x /\ (Ztrunc x <= -2)%Z)
    | Ok (m, np') =>
        accepted c /\ ~ vanishing c /\ (forall x, i_stepmax c = Some x -> (-1 <= Ztrunc x)%Z) /\
        exists z, seeded c np z np' /\ m_in m = with_seed c z /\ s_rng (m_st m) = seed_rng z /\
          m_finalized m = false /\
          derived c (m_P m) /\ initial c (m_P m) (m_st m) /\
          ((5 <= p_W (m_P m))%Z -> exists first, layout (m_P m) (m_st m) first) /\
          p_CTR (m_P m) = centre (p_W (m_P m)) /\
          (forall i j, outside_radius (A:=XA) (m_P m) i j = true -> (p_L0 (m_P m) <= i)%Z ->
             s_cell_type (m_st m) i j = EDGE)
    end.
  Proof.
    unfold construct. pose proof (process_spec (fun x => x) c) as HP.
    destruct (process_input_to_model c) as [c'|e]; [|destruct HP as [-> HP]; cbn [rbind]; auto].
    destruct HP as [HA ->]. cbn [rbind].
    assert (HS : exists z s np', determine_random_seed (G:=G) (resolved (fun x => x) c) np = (with_seed c z, s, np')
       /\ s = seed_rng z /\ seeded c np z np').
    { unfold determine_random_seed, seeded. change (i_seed (resolved (fun x => x) c)) with (i_seed c).
      destruct (i_seed c) as [z|] eqn:Es.
      - exists z. rewrite (seed_known c z Es). eauto 10.
      - destruct (randint np) as [z np'] eqn:Er. exists z. eauto 10. }
    destruct HS as (z & s & np' & -> & -> & Hsd).
    destruct (create_boundary_conditions _ _) as [P2|e] eqn:E2.
    2:{ cbn [rbind]. apply boundary_fails in E2 as [-> Hv]; auto. }
    cbn [rbind]. pose proof (stepmax_P2 c z P2 E2) as [Esm Eqw].
    pose proof (domain_total (with_seed c z) P2 (seed_rng z)) as HD.
    pose proof (constants_derived c z P2 (create_inlet P2 (create_cell_type (A:=XA) P2)) (basin_depth (A:=XA) (with_seed c z)) HA E2 eq_refl) as [Hnv (Hde & HC & _)].
    destruct (create_domain (with_seed c z) P2 (seed_rng z)) as [[P3 st]|e] eqn:E3; cbn [rbind].
    - pose proof (domain_initial _ _ _ _ _ E3 Eqw) as Hin.
      pose proof (domain_layout _ _ _ _ _ E3) as Hla.
      apply domain_inv in E3 as (Hsz & -> & Ect & Erng).
      set (P := init_subsidence _ _) in *.
      split; auto. split; auto. split.
      { intros x Ex. unfold size_indices in Hsz. rewrite Esm in Hsz. unfold step_limit in Hsz. rewrite Ex in Hsz.
        destruct (Z_le_gt_dec (-1) (Ztrunc x)); auto. assert (Z.quot (Ztrunc x) 2 < 0)%Z by (apply size_negative; lia). lia. }
      exists z. cbn [m_in m_P m_st m_finalized].
      pose proof (fun T f => final_frame (T:=T) f (with_seed c z) (create_inlet P2 (create_cell_type (A:=XA) P2)) (basin_depth (A:=XA) (with_seed c z)) P2) as Hfr.
      fold P in Hfr.
      pose proof (final_inlet (with_seed c z) (create_inlet P2 (create_cell_type (A:=XA) P2)) (basin_depth (A:=XA) (with_seed c z)) P2) as EinP. fold P in EinP.
      pose proof (final_hb (with_seed c z) (create_inlet P2 (create_cell_type (A:=XA) P2)) (basin_depth (A:=XA) (with_seed c z)) P2) as EhbP. fold P in EhbP.
      pose proof (Hfr _ p_L (fun _ _ => eq_refl) (fun _ _ => eq_refl) (fun _ _ => eq_refl) (fun _ _ => eq_refl)) as Y1.
      pose proof (Hfr _ p_W (fun _ _ => eq_refl) (fun _ _ => eq_refl) (fun _ _ => eq_refl) (fun _ _ => eq_refl)) as Y2.
      pose proof (Hfr _ p_L0 (fun _ _ => eq_refl) (fun _ _ => eq_refl) (fun _ _ => eq_refl) (fun _ _ => eq_refl)) as Y3.
      pose proof (Hfr _ p_N0 (fun _ _ => eq_refl) (fun _ _ => eq_refl) (fun _ _ => eq_refl) (fun _ _ => eq_refl)) as Y4.
      pose proof (Hfr _ p_CTR (fun _ _ => eq_refl) (fun _ _ => eq_refl) (fun _ _ => eq_refl) (fun _ _ => eq_refl)) as Y5.
      pose proof (Hfr _ p_stepmax (fun _ _ => eq_refl) (fun _ _ => eq_refl) (fun _ _ => eq_refl) (fun _ _ => eq_refl)) as Y6.
      clearbody P. clear Hfr.
      split; auto. split; auto. split; auto. split; auto. split; auto. split.
      { destruct Hin. constructor; auto; cbn [p_L p_W p_L0 p_hb p_stepmax setp_inlet setp_hb] in *;
          rewrite ?Y1, ?Y2, ?Y3, ?Y6, ?EhbP; auto. }
      split; [|split; auto].
      { intros HW. rewrite Y2 in HW. exists (channel_inds P2).
        destruct Hla as [K1 K2 K3 K4 K5 K6 K7 K8]; auto; try congruence.
        - rewrite <- Y1. apply Hde.
        - destruct (de_L0 _ _ Hde) as (n & _ & Kn). rewrite <- Y3. lia.
        - destruct (de_N0 _ _ Hde) as (n & _ & Kn). rewrite <- Y4, <- Y2. lia.
        - constructor; cbn [p_L p_W p_L0 p_N0 p_CTR p_inlet setp_inlet setp_hb] in *;
            rewrite ?Y1, ?Y2, ?Y3, ?Y4, ?Y5, ?EinP; auto. }
      { intros i j Ho Hl. rewrite Ect. unfold create_cell_type. rewrite Y3 in Hl.
        destruct (Z.ltb_spec i (p_L0 P2)); [lia|]. replace (outside_radius P2 i j) with true; [reflexivity|].
        rewrite <- Ho. unfold outside_radius. rewrite Y1, Y2, Y5. reflexivity. }
    - destruct HD as [-> HD]. right. right. split; auto. split; auto. split; auto.
      unfold size_indices in HD. apply (proj1 (size_negative _)) in HD. rewrite Esm in HD. unfold step_limit in HD.
      destruct (i_stepmax c) as [x|]; [eauto|]. exfalso.
      destruct Hde as [[_ KL] [_ KW] _ _ _ _ _ _ _ _ _ _ _ _ _ _ _ _ _ _ _ _ _ _ _ _ _ _].
      pose proof (fun T f => final_frame (T:=T) f (with_seed c z) (create_inlet P2 (create_cell_type (A:=XA) P2)) (basin_depth (A:=XA) (with_seed c z)) P2) as Hfr.
      rewrite (Hfr _ p_L (fun _ _ => eq_refl) (fun _ _ => eq_refl) (fun _ _ => eq_refl) (fun _ _ => eq_refl)) in KL.
      rewrite (Hfr _ p_W (fun _ _ => eq_refl) (fun _ _ => eq_refl) (fun _ _ => eq_refl) (fun _ _ => eq_refl)) in KW.
      lia.
  Qed.

  (** ** Models that can run *)
  Lemma layout_walk (P : params R) (st : state R S) first : layout P st first ->
    (1 <= p_L0 P <= p_L P - 2)%Z -> (3 <= p_N0 P)%Z ->
    walk_domain (p_L P) (p_W P) (p_L0 P) (s_cell_type st) (p_inlet P).
  Proof.
    intros [HC HS HB HRd HO HI] HL HN. constructor; auto.
    - lia.
    - intros i j Hb Hl He. unfold inb in Hb.
      destruct (Z_lt_le_dec i (p_L0 P)) as [Hi|Hi].
      + rewrite (HS i j Hb Hi) in Hl, He.
        destruct (Z.leb_spec first j); [|exfalso; apply Hl; reflexivity].
        destruct (Z.ltb_spec j (first + p_N0 P)); [|exfalso; apply Hl; reflexivity]. lia.
      + split.
        * destruct (Z.eq_dec i (p_L P - 1)); [|lia]. exfalso. apply He. apply HB; auto.
        * destruct (Z.eq_dec j 0); [exfalso; apply He; apply HB; auto|].
          destruct (Z.eq_dec j (p_W P - 1)); [exfalso; apply He; apply HB; auto|]. lia.
    - intros j Hj. apply HB; unfold inb; auto; lia.
    - intros i j Hb Hl. destruct (Z_lt_le_dec i (p_L0 P)) as [Hi|Hi]; auto. exfalso. unfold inb in Hb.
      assert (He : s_cell_type st i j = EDGE \/ s_cell_type st i j = OCEAN).
      { destruct (Z.eq_dec i (p_L P - 1)); [left; apply HB; auto|].
        destruct (Z.eq_dec j 0); [left; apply HB; auto|].
        destruct (Z.eq_dec j (p_W P - 1)); [left; apply HB; auto|].
        destruct (Rle_dec (Rmin (IZR (p_L P - 5)) (IZR (p_W P) / 2 - 5))
          (sqrt (IZR ((i - 3) * (i - 3) + (j - p_CTR P) * (j - p_CTR P))))) as [Hr|Hr].
        - left. apply HRd; auto.
        - right. apply HO; auto; try lia. lra. }
      rewrite Hl in He. destruct He; discriminate.
    - intros c Hc. rewrite HI in Hc. apply zseq_In in Hc. rewrite Z2Nat.id in Hc by lia.
      split; [lia|]. rewrite HS; [|unfold inb; lia|lia].
      destruct (Z.leb_spec first c); [|lia]. destruct (Z.ltb_spec c (first + p_N0 P)); [|lia].
      cbn. split; discriminate.
    - rewrite HI. intros E. apply (f_equal (@length Z)) in E. destruct (Z.to_nat (p_N0 P)) eqn:En; [lia|discriminate].
  Qed.

  Lemma layout_open (P : params R) (st : state R S) first : layout P st first ->
    (1 <= p_L0 P <= p_L P - 2)%Z -> (3 <= p_N0 P)%Z ->
    forall i j, inb (p_L P) (p_W P) i j -> s_cell_type st i j <> LAND -> s_cell_type st i j <> EDGE ->
      exists k, (k < 9)%nat /\ k <> 4%nat /\ at_nb (p_L P) (p_W P) (s_cell_type st) i j k <> LAND.
  Proof.
    intros HLy HL HN i j Hb Hl He. pose proof (layout_walk P st first HLy HL HN) as HW.
    destruct (wd_interior _ _ _ _ _ HW i j Hb Hl He) as [Hi Hj].
    exists 7%nat. split; [lia|]. split; [lia|]. unfold inb in Hb.
    unfold at_nb. replace (nb_row i 7) with (i + 1)%Z by (unfold nb_row; cbn; lia).
    replace (nb_col j 7) with j by (unfold nb_col; cbn; lia).
    rewrite nearest_in by (unfold inb; lia).
    intros K. assert (Hb' : inb (p_L P) (p_W P) (i + 1) j) by (unfold inb; lia).
    destruct HLy as [HC HS HB HRd HO HI].
    pose proof (wd_land _ _ _ _ _ HW _ _ Hb' K) as Hlt.
    assert (Hi' : (i < p_L0 P)%Z) by lia.
    rewrite (HS _ _ Hb' Hlt) in K. rewrite (HS i j Hb Hi') in Hl.
    destruct (_ && _)%bool; [discriminate|apply Hl; reflexivity].
  Qed.

  Lemma runnable_ready (c : inputs R) (nb : S) (np : N) : runnable c ->
    exists m np', construct (A:=XA) c nb np = Ok (m, np') /\ model_ready (m_P m) (m_st m).
  Proof.
    intros HR. pose proof (construct_outcome c nb np) as H.
    destruct HR as [RA' Rr Rc Ri Ru Rh RC Rit [Rs Rs'] Rst (Rt1 & Rt2 & Rt3)].
    destruct (construct c nb np) as [[m np']|e].
    2:{ exfalso. destruct H as [[_ H]|[(_ & _ & H)|(_ & _ & _ & x & Ex & H)]]; auto.
        - destruct H as [H|[H|[H|H]]]; try lra; lia.
        - specialize (Rst x Ex). pose proof (Ztrunc_le 4 x Rst) as K. change 4 with (IZR 4) in K. rewrite Ztrunc_IZR in K. lia. }
    exists m, np'. split; [reflexivity|].
    destruct H as (_ & _ & _ & z & _ & _ & _ & _ & HD & HI & HLy & HC & _).
    revert HD HI HLy HC. generalize (m_P m) (m_st m). clear m. intros P st HD HI HLy HC.
    destruct HD as [[D1 D1'] [D2 D2'] (n & D3 & D3') (n' & _ & D4) _ _ _ Dg _ _ _ _ _ _ _ [_ Ddt] _ _ _ _ Dst (Dt1 & Dt2 & Dt3) _ _ _ _ _ Dc].
    assert (EL : (8 <= p_L P)%Z) by (eapply rounded_ge_even; [exact D1|reflexivity|lra]).
    assert (EW : (5 <= p_W P)%Z) by (eapply rounded_ge; [exact D2|lra]).
    destruct (HLy EW) as [first HL].
    assert (E4 : (2 <= p_L P / 4)%Z) by (apply Z.div_le_lower_bound; lia).
    assert (E4' : (4 * (p_L P / 4) <= p_L P)%Z) by (apply Z.mul_div_le; lia).
    assert (En : (2 <= n)%Z) by (eapply rounded_ge_even; [exact D3|reflexivity|lra]).
    assert (HL0 : (2 <= p_L0 P <= p_L P - 2)%Z) by lia.
    assert (HN0 : (3 <= p_N0 P)%Z) by lia.
    assert (HWd : walk_domain (p_L P) (p_W P) (p_L0 P) (s_cell_type st) (p_inlet P))
      by (eapply layout_walk; eauto; lia).
    assert (Hsm : (4 <= p_stepmax P)%Z).
    { rewrite Dst. unfold step_limit. destruct (i_stepmax c) as [x|]; [|lia].
      specialize (Rst x eq_refl). pose proof (Ztrunc_le 4 x Rst) as K. change 4 with (IZR 4) in K. rewrite Ztrunc_IZR in K. lia. }
    destruct Dc as (C1 & _ & C3 & _ & _ & C6 & _).
    destruct RA' as [A1 A2 (A3 & A4 & A5) A6 A7 A8 A9 A10 A11 A12 A13 A14].
    split; [|split].
    - constructor; auto; try lia.
      + destruct (la_columns _ _ _ HL) as (K1 & K2 & K3). lia.
      + rewrite (in_width _ _ _ HI). assert (Z.quot 4 2 <= Z.quot (p_stepmax P) 2)%Z by (apply Z.quot_le_mono; lia).
        cbn in H. lia.
      + rewrite Dg. assert (0 < i_u0 c * i_u0 c) by (apply Rmult_lt_0_compat; auto). split.
        * apply Rmult_le_pos; [|left; apply Rinv_0_lt_compat; auto].
          apply Rmult_le_pos; [|lra]. apply Rmult_le_pos; lra.
        * apply Rmult_le_reg_r with (i_u0 c * i_u0 c); auto. unfold Rdiv. rewrite Rmult_assoc, Rinv_l by lra. lra.
    - constructor; auto; [|lia]. eapply layout_open; eauto; lia.
    - constructor.
      + rewrite Ddt. assert (0 < IZR (p_N0 P)) by (apply IZR_lt; lia).
        apply Rgt_not_eq. apply Rdiv_lt_0_compat; [apply Rmult_lt_0_compat; auto|].
        apply Rmult_lt_0_compat; [apply Rmult_lt_0_compat; lra|]. lra.
      + rewrite C1. lra.
      + rewrite C1. apply Rmult_integral_contrapositive_currified; lra.
      + rewrite C3. apply Rgt_not_eq, npow_pos; auto.
      + rewrite Dt3. apply Rgt_not_eq, npow_pos. apply Rmult_lt_0_compat; auto.
      + rewrite Dt2. apply Rgt_not_eq, npow_pos. apply Rmult_lt_0_compat; auto.
      + rewrite Dt1. apply Rgt_not_eq, npow_pos. apply Rmult_lt_0_compat; auto.
  Qed.
End Construct.

(** ** Basin without ocean *)
Section Ocean.
  Context {S : Type}.
  Lemma outside_true (P : params R) i j :
    Rmin (IZR (p_L P - 5)) (IZR (p_W P) / 2 - 5) <= sqrt (IZR ((i - 3) * (i - 3) + (j - p_CTR P) * (j - p_CTR P))) ->
    outside_radius (A:=RA (fun x => x)) P i j = true.
  Proof.
    intros H. rewrite outside_spec. match goal with |- Rleb ?a ?b = _ => destruct (Rleb_spec a b); [reflexivity|exfalso; lra] end.
  Qed.

  Lemma distance_row (i j c : Z) : (3 <= i)%Z -> IZR (i - 3) <= sqrt (IZR ((i - 3) * (i - 3) + (j - c) * (j - c))).
  Proof.
    intros H. rewrite <- (sqrt_square (IZR (i - 3))) at 1 by (apply IZR_le; lia).
    rewrite <- mult_IZR. apply sqrt_le_1_alt. apply IZR_le. pose proof (Z.square_nonneg (j - c)). lia.
  Qed.

  Lemma ocean_iff (P : params R) (st : state R S) first : layout P st first -> (1 <= p_L P)%Z ->
    (1 <= p_L0 P <= Z.max 1 (p_L P / 4))%Z ->
    ((exists i j, inb (p_L P) (p_W P) i j /\ s_cell_type st i j = OCEAN) <->
     IZR (Z.max (p_L0 P) 3 - 3) < Rmin (IZR (p_L P - 5)) (IZR (p_W P) / 2 - 5)).
  Proof.
    intros HL HL1 HL0. pose proof (la_columns _ _ _ HL) as (K1 & K2 & K3). split.
    - intros (i & j & Hb & Ho).
      destruct (Z_lt_le_dec i (p_L0 P)) as [Hi|Hi].
      { rewrite (la_strip _ _ _ HL i j Hb Hi) in Ho. destruct (_ && _)%bool; discriminate. }
      apply Rnot_le_lt. intros Hr. destruct (Z_lt_le_dec i 3) as [H3|H3].
      + assert (E : s_cell_type st i j = EDGE); [|rewrite E in Ho; discriminate].
        apply (la_radius _ _ _ HL); auto. eapply Rle_trans; [exact Hr|]. replace (Z.max (p_L0 P) 3 - 3)%Z with 0%Z by lia.
        apply sqrt_pos.
      + assert (E : s_cell_type st i j = EDGE); [|rewrite E in Ho; discriminate].
        apply (la_radius _ _ _ HL); auto. eapply Rle_trans; [exact Hr|].
        eapply Rle_trans; [|apply distance_row; auto]. apply IZR_le. lia.
    - intros Hr. exists (Z.max (p_L0 P) 3), (p_CTR P).
      assert (H0 : 0 <= IZR (Z.max (p_L0 P) 3 - 3)) by (apply IZR_le; lia).
      assert (H5 : (5 < p_L P)%Z).
      { assert (0 < IZR (p_L P - 5)) by (eapply Rlt_le_trans; [|apply Rmin_l]; eapply Rle_lt_trans; eauto).
        apply lt_IZR in H. lia. }
      assert (H10 : (10 < p_W P)%Z).
      { assert (0 < IZR (p_W P) / 2 - 5) by (eapply Rlt_le_trans; [|apply Rmin_r]; eapply Rle_lt_trans; eauto).
        apply lt_IZR. lra. }
      assert (4 * (p_L P / 4) <= p_L P)%Z by (apply Z.mul_div_le; lia).
      assert (Hb : inb (p_L P) (p_W P) (Z.max (p_L0 P) 3) (p_CTR P)) by (unfold inb; lia).
      split; auto. apply (la_ocean _ _ _ HL); auto; try lia.
      replace (_ + _)%Z with ((Z.max (p_L0 P) 3 - 3) * (Z.max (p_L0 P) 3 - 3))%Z by lia.
      rewrite mult_IZR, sqrt_square; auto.
  Qed.
End Ocean.

(** ** Setters *)
Section SetterSpecs.
  Context (rnd : R -> R) {HR : Rounding rnd}.
  Notation A := (RA rnd).
  Ltac setter f := intros x c; unfold f; cbn [fleb fltb fz RA]; rewrite ?(rnd_0 (rnd:=rnd)), ?(rnd_1 (rnd:=rnd));
    repeat match goal with
      | |- context [Rleb ?a ?b] => destruct (Rleb_spec a b)
      | |- context [Rltb ?a ?b] => destruct (Rltb_spec a b)
      | |- context [(?a <? ?b)%Z] => destruct (Z.ltb_spec a b)
      | |- context [(?a <=? ?b)%Z] => destruct (Z.leb_spec a b) end;
    cbn [orb]; split; intros; try reflexivity; exfalso; first [lra|lia].
  Lemma setters_accept :
    accepts (set_Length (A:=A)) seti_Length (fun x _ => 0 < x) /\
    accepts (set_Width (A:=A)) seti_Width (fun x _ => 0 < x) /\
    accepts (set_dx (A:=A)) seti_dx (fun x c => 0 < x /\ x <= i_Length c /\ x <= i_Width c) /\
    accepts (set_L0_meters (A:=A)) seti_L0_meters (fun x _ => 0 <= x) /\
    accepts (set_itermax (F:=R)) seti_itermax (fun n _ => (0 <= n)%Z) /\
    accepts (set_Np_water (F:=R)) seti_Np_water (fun n _ => (0 < n)%Z) /\
    accepts (set_N0_meters (A:=A)) seti_N0_meters (fun x _ => 0 < x) /\
    accepts (set_Np_sed (F:=R)) seti_Np_sed (fun n _ => (0 < n)%Z) /\
    accepts (set_f_bedload (A:=A)) seti_f_bedload (fun x _ => 0 <= x <= 1) /\
    accepts (fun x => set_active_layer_thickness (A:=A) (Some x)) (fun x => seti_active_layer_thickness (Some x)) (fun x _ => 0 <= x) /\
    accepts (set_C0_percent (A:=A)) seti_C0_percent (fun x _ => 0 <= x) /\
    accepts (set_Csmooth (A:=A)) seti_Csmooth (fun x _ => 0 <= x) /\
    accepts (set_If (A:=A)) (fun x _ => Some x) (fun x _ => 0 < x <= 1).
  Proof.
    repeat match goal with |- _ /\ _ => split end.
    - setter @set_Length.
    - setter @set_Width.
    - setter @set_dx.
    - setter @set_L0_meters.
    - setter @set_itermax.
    - setter @set_Np_water.
    - setter @set_N0_meters.
    - setter @set_Np_sed.
    - setter @set_f_bedload.
    - setter @set_active_layer_thickness.
    - setter @set_C0_percent.
    - setter @set_Csmooth.
    - setter @set_If.
  Qed.
End SetterSpecs.

(** ** Seeds *)
Section Seeds.
  Context {F : Type} {A : Arith F} {S N : Type} {G : Rng F S} {GN : NpRng N}.

  Definition rmap {T U} (f : T -> U) (r : result T) : result U := match r with Ok x => Ok (f x) | Err e => Err e end.

  Lemma process_seed (c : inputs F) z : process_input_to_model (seti_seed z c) = rmap (seti_seed z) (process_input_to_model c).
  Proof.
    rewrite !process_chain.
    change (i_Length (seti_seed z c)) with (i_Length c). change (i_Width (seti_seed z c)) with (i_Width c).
    change (i_dx (seti_seed z c)) with (i_dx c). change (i_L0_meters (seti_seed z c)) with (i_L0_meters c).
    change (i_itermax (seti_seed z c)) with (i_itermax c). change (i_Np_water (seti_seed z c)) with (i_Np_water c).
    change (i_N0_meters (seti_seed z c)) with (i_N0_meters c). change (i_Np_sed (seti_seed z c)) with (i_Np_sed c).
    change (i_f_bedload (seti_seed z c)) with (i_f_bedload c).
    change (i_active_layer_thickness (seti_seed z c)) with (i_active_layer_thickness c).
    repeat match goal with |- (if ?b then _ else _) = _ => destruct b; [reflexivity|] end.
    unfold set_active_layer_thickness. change (i_h0 (seti_seed z c)) with (i_h0 c).
    destruct (i_active_layer_thickness c) as [t|].
    - destruct (fltb t _); [reflexivity|]. cbn [rbind].
      change (i_C0_percent (seti_active_layer_thickness (Some t) (seti_seed z c))) with (i_C0_percent c).
      change (i_Csmooth (seti_active_layer_thickness (Some t) (seti_seed z c))) with (i_Csmooth c).
      change (i_C0_percent (seti_active_layer_thickness (Some t) c)) with (i_C0_percent c).
      change (i_Csmooth (seti_active_layer_thickness (Some t) c)) with (i_Csmooth c).
      destruct (fltb _ _); [reflexivity|]. destruct (fltb _ _); reflexivity.
    - cbn [rbind]. generalize (Some (fdiv (i_h0 c) (fz 2))). intros t.
      change (i_C0_percent (seti_active_layer_thickness t (seti_seed z c))) with (i_C0_percent c).
      change (i_Csmooth (seti_active_layer_thickness t (seti_seed z c))) with (i_Csmooth c).
      change (i_C0_percent (seti_active_layer_thickness t c)) with (i_C0_percent c).
      change (i_Csmooth (seti_active_layer_thickness t c)) with (i_Csmooth c).
      destruct (fltb _ _); [reflexivity|]. destruct (fltb _ _); reflexivity.
  Qed.

  Lemma process_keeps_seed (c c' : inputs F) : process_input_to_model c = Ok c' -> i_seed c' = i_seed c.
  Proof.
    intros E. pose proof (process_seed c (i_seed c)) as K.
    assert (E0 : seti_seed (i_seed c) c = c) by (destruct c; reflexivity). rewrite E0, E in K. cbn in K.
    injection K as K. rewrite K. reflexivity.
  Qed.

  (** A seeded construction does not depend on the generators. *)
  Lemma construct_seeded (c : inputs F) z : i_seed c = Some z -> forall nb nb' np np',
    construct (G:=G) (GN:=GN) c nb np = rmap (fun '(m, _) => (m, np)) (construct (G:=G) (GN:=GN) c nb' np').
  Proof.
    intros Hz nb nb' np np'. unfold construct.
    destruct (process_input_to_model c) as [c'|] eqn:E; [|reflexivity]. cbn [rbind].
    apply process_keeps_seed in E. unfold determine_random_seed. rewrite E, Hz.
    destruct (create_boundary_conditions _ _); [|reflexivity]. cbn [rbind].
    destruct (create_domain _ _ _) as [[]|]; reflexivity.
  Qed.

  (** Constructing again with the seed that was drawn gives the same model. *)
  Lemma construct_again (c : inputs F) nb nb' np np0 (m : model (F:=F) S) np' : construct (G:=G) (GN:=GN) c nb np = Ok (m, np') ->
    exists z, i_seed (m_in m) = Some z /\
    construct (G:=G) (GN:=GN) (seti_seed (Some z) c) nb' np0 = Ok (m, np0).
  Proof.
    unfold construct. rewrite process_seed || idtac.
    intros E. apply rbind_Ok in E as (c' & E1 & E).
    assert (K : exists z s np1, determine_random_seed (G:=G) c' np = (seti_seed (Some z) c', s, np1) /\ s = seed_rng z).
    { unfold determine_random_seed. destruct (i_seed c') as [z|] eqn:Ez.
      - exists z, (seed_rng z), np. split; auto. assert (E0 : seti_seed (i_seed c') c' = c') by (destruct c'; reflexivity).
        rewrite <- Ez, E0. reflexivity.
      - destruct (randint np) as [z np1]. eauto. }
    destruct K as (z & s & np1 & K & ->). rewrite K in E.
    apply rbind_Ok in E as (P & E2 & E). apply rbind_Ok in E as ([P' st] & E3 & E). injection E as <- <-.
    exists z. split; [reflexivity|]. rewrite process_seed, E1. cbn [rmap rbind].
    unfold determine_random_seed. change (i_seed (seti_seed (Some z) c')) with (Some z). cbn iota.
    rewrite E2. cbn [rbind]. rewrite E3. reflexivity.
  Qed.

  (** The recorded seed is the configured one or the one drawn. *)
  Lemma construct_drawn (c : inputs F) nb np (m : model (F:=F) S) np' : construct (G:=G) (GN:=GN) c nb np = Ok (m, np') ->
    exists z, i_seed (m_in m) = Some z /\ (i_seed c = None -> z = fst (randint np)).
  Proof.
    unfold construct. intros E. apply rbind_Ok in E as (c' & E1 & E). apply process_keeps_seed in E1.
    unfold determine_random_seed in E. rewrite E1 in E. destruct (i_seed c) as [z|].
    - apply rbind_Ok in E as (P & E2 & E). apply rbind_Ok in E as ([P' st] & E3 & E). injection E as <- <-.
      exists z. split; [exact E1|discriminate].
    - destruct (randint np) as [z np1] eqn:Er.
      apply rbind_Ok in E as (P & E2 & E). apply rbind_Ok in E as ([P' st] & E3 & E). injection E as <- <-.
      exists z. split; [reflexivity|]. intros _. reflexivity.
  Qed.
End Seeds.

Section Runs.
  Context {F : Type} {A : Arith F} {S N : Type} {G : Rng F S} {GN : NpRng N}.
  Lemma run_model_seeded (c : inputs F) z : i_seed c = Some z -> forall nb nb' np np' n,
    run_model (G:=G) (GN:=GN) c nb np n = run_model (G:=G) (GN:=GN) c nb' np' n.
  Proof.
    intros Hz nb nb' np np' n. unfold run_model, new_model. rewrite (construct_seeded c z Hz nb nb' np np').
    destruct (construct c nb' np') as [[m np1]|]; [|reflexivity]. cbn [rmap rbind].
    destruct (write_output _ _). reflexivity.
  Qed.
  Lemma run_model_again (c : inputs F) nb nb' np np' n m r : construct (G:=G) (GN:=GN) c nb np = Ok (m, r) ->
    run_model (G:=G) (GN:=GN) c nb np n = run_model (G:=G) (GN:=GN) (seti_seed (i_seed (m_in m)) c) nb' np' n.
  Proof.
    intros E. destruct (construct_again c nb nb' np np' m r E) as (z & Hz & E'). rewrite Hz.
    unfold run_model, new_model. rewrite E, E'. cbn [rbind]. destruct (write_output _ _). reflexivity.
  Qed.
  Lemma run_model_inv (c : inputs F) nb np n st o : run_model (G:=G) (GN:=GN) c nb np n = Ok (st, o) ->
    exists m np' st1 o0 o1, construct (G:=G) (GN:=GN) c nb np = Ok (m, np') /\
      write_output (m_P m) (m_st m) = (st1, o0) /\ updates (m_P m) n st1 = Ok (st, o1) /\ o = o0 ++ o1.
  Proof.
    intros E. unfold run_model, new_model in E. apply rbind_Ok in E as ([[m1 o0] np1] & E1 & E).
    apply rbind_Ok in E1 as ([m np'] & E0 & E1). destruct (write_output (m_P m) (m_st m)) as [st1 o0'] eqn:Ew.
    injection E1 as <- <- <-. cbn [m_P m_st] in E. apply rbind_Ok in E as ([st2 o1] & E2 & E). injection E as <- <-.
    exists m, np', st1, o0', o1. auto.
  Qed.
End Runs.

Section RunsExact.
  Notation XA := (RA (fun x => x)).
  Context {S N : Type} {G : Rng R S} {GN : NpRng N}.
  Lemma write_ready (P : params R) (st st' : state R S) o : write_output (A:=XA) P st = (st', o) ->
    model_ready P st -> model_ready P st'.
  Proof.
    intros E (Hw & Hs & Hd). unfold write_output, output_data, output_checkpoint in E.
    assert (K : s_cell_type st' = s_cell_type st /\ s_width st' = s_width st).
    { revert E. repeat match goal with |- context [if ?b then _ else _] => destruct b end; intros E; injection E as <- _; split; reflexivity. }
    destruct K as [K1 K2]. split; [|split]; auto.
    - destruct Hw. constructor; rewrite ?K1, ?K2; auto.
    - destruct Hs. constructor; rewrite ?K1; auto.
  Qed.

  Lemma runnable_runs (c : inputs R) (nb : S) (np : N) n : runnable c -> uniform_range G -> (forall s : S, 0 < fst (draw s)) ->
    exists st o, run_model (A:=XA) (G:=G) (GN:=GN) c nb np n = Ok (st, o).
  Proof.
    intros HR HG Hu. destruct (runnable_ready (G:=G) c nb np HR) as (m & np' & E & Hm).
    unfold run_model, new_model. rewrite E. cbn [rbind].
    destruct (write_output (m_P m) (m_st m)) as [st1 o0] eqn:Ew. cbn [rbind m_P m_st].
    destruct (updates_total (m_P m) n st1) as (st' & o & Eu & _); auto.
    { eapply write_ready; eauto. }
    rewrite Eu. cbn [rbind]. eauto.
  Qed.
End RunsExact.
