(** Whole water iterations: proofs for C09-C11. *)
From Coq Require Import ZArith List Bool Reals Lra Lia FunctionalExtensionality FinFun Permutation.
From Verif Require Import Base RLemmas Shared SharedSpec SharedProofs Params State Water
  VecLemmas WaterSpec WeightProofs WalkProofs.
Import ListNotations.
Local Open Scope Z_scope.

Lemma fmemo_id {F} (P : params F) (f : Z -> F) : fmemo P f = f.
Proof.
  apply functional_extensionality; intro n. unfold fmemo.
  destruct (Z.leb_spec 0 n) as [Hn|]; [|reflexivity].
  destruct (nth_error _ _) as [x|] eqn:E; [|reflexivity].
  rewrite nth_error_map, zrange_nth_error in E.
  destruct (Nat.ltb _ _); [|discriminate]. cbn in E. rewrite Z2Nat.id in E by auto. congruence.
Qed.

Section Run.
  Context (rnd : R -> R) {HR : Rounding rnd}.
  Notation A := (RA rnd).
  Context {S : Type} {G : Rng R S}.
  Context (P : params R).
  Notation L := (p_L P).
  Notation W := (p_W P).
  Context (ct : grid Z).
  Context (WD : walk_domain L W (p_L0 P) ct (p_inlet P)).
  Context (w : Z -> Z -> vec R).
  Context (HW : forall i j, inb L W i j -> ct i j <> LAND ->
     (forall k, (k < 9)%nat -> (0 <= w i j k)%R) /\
     (forall k, (k < 9)%nat -> at_nb L W ct i j k = LAND -> w i j k = 0%R)).
  Context (HG : uniform_range G).
  Context (HP : forall i j s, inb L W i j -> ct i j <> LAND ->
     (0 < rnd (last (cumsum (A:=A) (map (w i j) D9)) 0 * fst (draw s)))%R).
  Context (HL0 : 2 <= p_L0 P) (HCTR : 0 <= p_CTR P < W) (Hstep : 4 <= p_stepmax P).

  Notation step_rel := (step_rel rnd P ct w).
  Notation standing := (standing P ct).

  Local Notation steps := (WaterSpec.steps rnd P ct w).

  (** The states the routing loop goes through. *)
  Inductive chain (stage : grid R) (H_SL : R) : Z -> (list parcel * qfields * Z * S) ->
      list (list parcel) -> (list parcel * qfields * Z * S) -> Prop :=
  | chain_nil step st : chain stage H_SL step st [] st
  | chain_cons step st ps1 q1 wd1 s1 tr st' :
      water_step (A:=A) P w stage H_SL ct (step + 1) st = Ok (ps1, q1, wd1, s1) ->
      chain stage H_SL (step + 1) (ps1, q1, wd1, s1) tr st' ->
      chain stage H_SL step st (ps1 :: tr) st'.

  Lemma width_grows width step : step <= width ->
    step < check_size_of_indices_matrix P width step.
  Proof.
    intros H. unfold check_size_of_indices_matrix.
    assert (1 <= p_stepmax P / 4) by (apply Z.div_le_lower_bound; lia).
    destruct (Z.leb_spec width step); lia.
  Qed.

  Lemma width_mono width step : width <= check_size_of_indices_matrix P width step.
  Proof.
    unfold check_size_of_indices_matrix.
    assert (1 <= p_stepmax P / 4) by (apply Z.div_le_lower_bound; lia).
    destruct (Z.leb_spec width step); lia.
  Qed.

  Lemma fold_cur_nonneg ps acc : Forall standing ps -> 0 <= acc ->
    let t := fold_left (fun acc p => acc + cur p) ps acc in
    acc <= t /\ (t = acc -> Forall (fun p => cur p = 0) ps).
  Proof.
    intros H; revert acc. induction H as [|p ps Hp Hps IH]; intros acc Ha; cbn [fold_left].
    - cbn; split; auto; lia.
    - assert (Hc : 0 <= cur p).
      { destruct Hp as [Hp|Hp]; [lia|]. apply (active_pos P ct WD) in Hp. lia. }
      destruct (IH (acc + cur p) ltac:(lia)) as [H1 H2]. split; [lia|].
      intros E. assert (cur p = 0) by lia. constructor; auto. apply H2. lia.
  Qed.

  Lemma any_active_false ps : Forall standing ps -> any_active ps = false ->
    Forall (fun p => cur p = 0) ps.
  Proof.
    intros H. unfold any_active. destruct (fold_cur_nonneg ps 0 H ltac:(lia)) as [H1 H2].
    intros E. apply Z.ltb_ge in E. apply H2. lia.
  Qed.

  Lemma steps_standing stage H_SL step ps tr ps' : Forall standing ps ->
    steps stage H_SL step ps tr ps' -> Forall standing ps'.
  Proof.
    intros H Hs. revert H. induction Hs; intros Hst; auto. apply IHHs.
    eapply Forall2_Forall_r; [exact H|]. intros x y Hr. apply Hr.
  Qed.

  Lemma water_loop_ok stage H_SL fuel : forall step ps q width s,
    Forall standing ps -> 0 <= step -> step + 1 <= width ->
    exists ps' q' width' s' tr,
      water_loop (A:=A) P w stage H_SL ct fuel step (ps, q, width, s) = Ok (ps', q', width', s') /\
      chain stage H_SL step (ps, q, width, s) tr (ps', q', width', s') /\
      steps stage H_SL step ps tr ps' /\ (List.length tr <= fuel)%nat /\
      (List.length tr = fuel \/ Forall (fun p => cur p = 0) ps') /\ width <= width' /\
      step + Z.of_nat (List.length tr) + 1 <= width'.
  Proof.
    induction fuel as [|fuel IH]; intros step ps q width s Hps Hst Hw; cbn [water_loop].
    - exists ps, q, width, s, []. split; auto. do 2 (split; [constructor|]). cbn. repeat split; auto; lia.
    - cbn [fst]. destruct (any_active ps) eqn:Ea.
      + assert (Hw' := width_grows width (step + 1) ltac:(lia)).
        destruct (water_step_ok rnd P ct WD w HW HG HP HL0 HCTR stage H_SL (step + 1) ps q width s Hps Hw')
          as (ps1 & q1 & s1 & E & F1).
        rewrite E. cbn [rbind].
        assert (Hps1 : Forall standing ps1).
        { eapply Forall2_Forall_r; [exact F1|]. intros x y Hr. apply Hr. }
        pose proof (width_mono width (step + 1)) as Hm.
        destruct (IH (step + 1) ps1 q1 (check_size_of_indices_matrix P width (step + 1)) s1 Hps1 ltac:(lia) ltac:(lia))
          as (ps' & q' & width' & s' & tr & E' & Hch & Hs & Hl & He & Hmw & Hle).
        exists ps', q', width', s', (ps1 :: tr). split; [exact E'|].
        do 2 (split; [econstructor; eauto|]). cbn [List.length].
        repeat split; try lia. destruct He; auto.
      + exists ps, q, width, s, []. split; auto. do 2 (split; [constructor|]). cbn [List.length].
        repeat split; auto; try lia. right. apply any_active_false; auto.
  Qed.

  (** *** Consequences for single parcels *)

  Lemma move_zero n d n' : n = 0 -> move P ct w n d n' -> d = 4%nat /\ n' = 0.
  Proof.
    intros -> H. inversion H; subst; auto; exfalso;
      match goal with H : at_cell L W 0 ?i ?j, H1 : ct ?i ?j <> LAND, H2 : ct ?i ?j <> EDGE |- _ =>
        assert (Hx : active L W ct 0) by (exists i, j; auto); apply (active_pos P ct WD) in Hx; lia end.
  Qed.

  Lemma step_retired stage H_SL step p p' : cur p = 0 -> step_rel stage H_SL step p p' ->
    cur p' = 0 /\ dir p' = 4%nat /\ new p' = 0.
  Proof.
    intros Hc Hr. destruct Hr as [_ _ (n1 & Hm & Hl) _ _ (b & Ec & _)].
    destruct (move_zero _ _ _ Hc Hm) as [Hd ->].
    assert (En : new p' = 0).
    { destruct Hl as [(_ & E & _)|(_ & Hl)]; auto. inversion Hl; subst; auto.
      match goal with H : revisits _ 0 _ |- _ => destruct H as [? _]; lia end. }
    rewrite Ec, En. destruct b; auto.
  Qed.

  Lemma steps_In stage H_SL step ps tr ps' : steps stage H_SL step ps tr ps' ->
    forall n p, nth_error ps n = Some p -> cur p = 0 ->
    (forall qs, In qs tr -> exists p', nth_error qs n = Some p' /\ cur p' = 0 /\ dir p' = 4%nat) /\
    exists p', nth_error ps' n = Some p' /\ cur p' = 0.
  Proof.
    induction 1 as [|step ps ps1 tr ps' HF Hs IH]; intros n p Hn Hc.
    - split; [intros ? []|eauto].
    - assert (H1 : exists p1, nth_error ps1 n = Some p1 /\ step_rel stage H_SL (step + 1) p p1).
      { clear - HF Hn. revert n Hn. induction HF; intros n Hn; destruct n; cbn in *; try discriminate.
        - inversion Hn; subst. eauto.
        - eauto. }
      destruct H1 as (p1 & Hn1 & Hr). destruct (step_retired _ _ _ _ _ Hc Hr) as (Hc1 & Hd1 & _).
      destruct (IH n p1 Hn1 Hc1) as [H1 H2]. split; auto.
      intros qs [<-|Hin]; eauto.
  Qed.

  Lemma steps_walk stage H_SL step ps tr ps' : steps stage H_SL step ps tr ps' ->
    Forall2 (fun p p' => List.length (walk p') = (List.length (walk p) + List.length tr)%nat /\
       exists l, walk p' = l ++ walk p /\ Forall (next_ok P ct) l) ps ps'.
  Proof.
    induction 1 as [|step ps ps1 tr ps' HF Hs IH].
    - induction ps; constructor; auto. split; [cbn; lia|]. exists []. split; auto.
    - eapply Forall2_trans3; [exact HF|exact IH|]. cbn.
      intros x y z Hr (Hl & l & El & Hn).
      destruct Hr as [_ _ _ Hnx _ (b & _ & Ew & _)].
      rewrite Hl, Ew. cbn [List.length]. split; [lia|].
      exists (l ++ [if looped y && b then 0 else new y]). rewrite El, Ew, <- app_assoc. split; auto.
      apply Forall_app. split; auto. constructor; auto.
      destruct (looped y && b); auto. left; auto.
  Qed.
End Run.

(** ** Discharge budget (exact arithmetic) *)

Section Budget.
  Context {S : Type} {G : Rng R S}.
  Context (P : params R).
  Notation L := (p_L P).
  Notation W := (p_W P).
  Notation XA := (RA (fun x => x)).
  Local Notation denotes := (WaterSpec.denotes P).
  Local Notation edge_at := (WaterSpec.edge_at P).
  Local Notation arrived := (WaterSpec.arrived P).
  Local Notation gain := (WaterSpec.gain P).
  Local Notation trace_gain := (WaterSpec.trace_gain P).
  Notation half := (half_flux (A:=XA) P).

  Lemma flat_ix_inv n n' : flat_ix P n = Ok n' -> n' = wrap (L * W) n /\ 0 <= n' < L * W.
  Proof.
    unfold flat_ix. destruct (Z.leb_spec 0 (wrap (L * W) n)); [|discriminate].
    destruct (Z.ltb_spec (wrap (L * W) n) (L * W)); [|discriminate]. intros E; inversion E; auto.
  Qed.

  Lemma count_cons {T} (f : T -> bool) x l : count f (x :: l) = (if f x then 1 else 0) + count f l.
  Proof. unfold count. cbn [filter]. destruct (f x); cbn [List.length]; lia. Qed.

  Local Open Scope R_scope.

  Lemma absQ_cell ps : Forall (fun p => (dir p < 9)%nat) ps -> forall q ix q' m,
    update_absQfield (A:=XA) P q ix ps = Ok q' ->
    q' m = q m + half * IZR (count (fun p => moved p && denotes (ix p) m) ps).
  Proof.
    induction 1 as [|p ps Hd Hps IH]; intros q ix q' m; cbn [update_absQfield].
    - intros E; inversion E; subst. cbn. lra.
    - pose proof (astep_spec (fun x => x) (dir p) Hd) as Ha.
      destruct (get_steps (A:=XA) (dir p)) as [[[dist is] js] a] eqn:E. cbn in Ha. subst a.
      rewrite count_cons. unfold moved at 1. destruct (Nat.eqb (dir p) 4); cbn [negb andb].
      + apply IH.
      + destruct (flat_ix P (ix p)) as [n|] eqn:En; [|discriminate]. cbn [rbind].
        intros Eq. apply (IH _ _ _ m) in Eq. rewrite Eq. apply flat_ix_inv in En as [-> _].
        unfold fset, denotes at 2. ra. rewrite (Z.eqb_sym m).
        destruct (Z.eqb_spec (wrap (L * W) (ix p)) m) as [->|]; rewrite plus_IZR; lra.
  Qed.

  Lemma rsum_app l l' : rsum (l ++ l') = rsum l + rsum l'.
  Proof. induction l; cbn; lra. Qed.

  Lemma rsum_fset q n x l : NoDup l -> In n l ->
    rsum (map (fset q n (q n + x)) l) = rsum (map q l) + x.
  Proof.
    induction l as [|m l IH]; intros Hnd Hin; [contradiction|]. cbn [map rsum].
    inversion Hnd as [|? ? Hm Hnd']; subst. unfold fset at 1.
    destruct (Z.eqb_spec m n) as [->|Hne].
    - rewrite (map_ext_in _ q); [lra|].
      intros a Ha. unfold fset. destruct (Z.eqb_spec a n); [subst; contradiction|auto].
    - rewrite IH; auto; [lra|]. destruct Hin; [congruence|auto].
  Qed.

  Lemma zrange_NoDup n : NoDup (zrange n).
  Proof.
    unfold zrange. apply Injective_map_NoDup; [|apply seq_NoDup].
    intros a b E. lia.
  Qed.

  Lemma fsum_fset q n x N : (0 <= n < N)%Z -> fsum N (fset q n (q n + x)) = fsum N q + x.
  Proof. intros H. apply rsum_fset; [apply zrange_NoDup|apply zrange_In; auto]. Qed.

  Lemma absQ_total ps : Forall (fun p => (dir p < 9)%nat) ps -> forall q ix q',
    update_absQfield (A:=XA) P q ix ps = Ok q' ->
    fsum (L * W) q' = fsum (L * W) q + half * IZR (count moved ps).
  Proof.
    induction 1 as [|p ps Hd Hps IH]; intros q ix q'; cbn [update_absQfield].
    - intros E; inversion E; subst. cbn. lra.
    - pose proof (astep_spec (fun x => x) (dir p) Hd) as Ha.
      destruct (get_steps (A:=XA) (dir p)) as [[[dist is] js] a] eqn:E. cbn in Ha. subst a.
      rewrite count_cons. unfold moved at 1. destruct (Nat.eqb (dir p) 4); cbn [negb andb].
      + apply IH.
      + destruct (flat_ix P (ix p)) as [n|] eqn:En; [|discriminate]. cbn [rbind].
        intros Eq. apply IH in Eq. rewrite Eq. apply flat_ix_inv in En as [_ Hn].
        ra. rewrite fsum_fset by auto. rewrite plus_IZR. lra.
  Qed.

  (** *** Directions survive the later parts of the step *)

  Lemma rbind_Ok {T U} (m : result T) (f : T -> result U) y :
    rbind m f = Ok y -> exists x, m = Ok x /\ f x = Ok y.
  Proof. destruct m; cbn; [eauto|discriminate]. Qed.

  Lemma choose_same w ps : forall s ps' s',
    choose_next_directions (A:=XA) P w ps s = Ok (ps', s') ->
    Forall2 (fun p p' => cur p' = cur p /\ new p' = new p) ps ps'.
  Proof.
    induction ps as [|p ps IH]; intros s ps' s'; cbn [choose_next_directions].
    - intros E; inversion E; constructor.
    - intros E. apply rbind_Ok in E as ([d s1] & _ & E).
      apply rbind_Ok in E as ([rest s2] & E1 & E). inversion E; subst.
      constructor; eauto.
  Qed.

  Lemma check_loops_dirs stage H_SL ps : forall stale ps',
    check_loops_from (A:=XA) P stage H_SL stale ps = Ok ps' ->
    Forall2 (fun p p' => dir p' = dir p /\ cur p' = cur p) ps ps'.
  Proof.
    induction ps as [|p ps IH]; intros stale ps'; cbn [check_loops_from].
    - intros E; inversion E; constructor.
    - destruct (_ && _).
      + intros E. apply rbind_Ok in E as ([px0 py0] & _ & E).
        apply rbind_Ok in E as ([px py] & _ & E). apply rbind_Ok in E as (nind & _ & E).
        destruct (inbb L W px0 py0); [|discriminate].
        apply rbind_Ok in E as (rest & E1 & E). inversion E; subst. constructor; eauto.
      + intros E. apply rbind_Ok in E as (rest & E1 & E). inversion E; subst. constructor; eauto.
  Qed.

  Lemma check_for_loops_dirs stage H_SL step ps ps' :
    check_for_loops (A:=XA) P stage H_SL step ps = Ok ps' ->
    Forall2 (fun p p' => dir p' = dir p /\ cur p' = cur p) ps ps'.
  Proof.
    unfold check_for_loops. destruct (_ <? _)%Z; [apply check_loops_dirs|].
    intros E; inversion E; subst. clear E. induction ps; cbn; constructor; auto.
  Qed.

  Lemma record_inv ct p p' b : record_step P ct p = Ok (p', b) ->
    dir p' = dir p /\ new p' = new p /\ b = edge_at ct (new p').
  Proof.
    unfold record_step, at_boundary. intros E. apply rbind_Ok in E as (b' & Eb & E).
    apply rbind_Ok in Eb as (n' & En & Eb). inversion E; inversion Eb; subst. cbn.
    apply flat_ix_inv in En as [-> _]. repeat split; auto.
  Qed.

  Lemma mapM_inv {T U} (f : T -> result U) l ys : mapM f l = Ok ys ->
    Forall2 (fun x y => f x = Ok y) l ys.
  Proof.
    revert ys. induction l as [|x l IH]; intros ys; cbn [mapM].
    - intros E; inversion E; constructor.
    - intros E. apply rbind_Ok in E as (y & Ey & E). apply rbind_Ok in E as (ys' & Es & E).
      inversion E; subst. constructor; auto.
  Qed.

  Lemma count_filter {T} (f g : T -> bool) l : count f (filter g l) = count (fun x => f x && g x) l.
  Proof.
    unfold count. f_equal. induction l as [|x l IH]; cbn; auto.
    destruct (g x) eqn:Eg; cbn; rewrite ?andb_true_r, ?andb_false_r; [destruct (f x); cbn; rewrite ?IH; auto|auto].
  Qed.
  Lemma count_map {T U} (f : U -> bool) (g : T -> U) l : count f (map g l) = count (fun x => f (g x)) l.
  Proof.
    unfold count. f_equal. induction l as [|x l IH]; cbn; auto. destruct (f (g x)); cbn; auto.
  Qed.
  Lemma count_F2 {T U} (f : T -> bool) (g : U -> bool) l l' :
    Forall2 (fun x y => f x = g y) l l' -> count f l = count g l'.
  Proof.
    unfold count. intros H. f_equal. induction H as [|x y l l' E H IH]; cbn; auto. rewrite E.
    destruct (g y); cbn; auto.
  Qed.

  Lemma Forall2_diag {T} (Rl : T -> T -> Prop) l : (forall x, Rl x x) -> Forall2 Rl l l.
  Proof. intros H. induction l; constructor; auto. Qed.

  Lemma dirs_back ps ps' : Forall2 (fun p2 p' : parcel => dir p' = dir p2) ps ps' ->
    Forall (fun p => (dir p < 9)%nat) ps' -> Forall (fun p => (dir p < 9)%nat) ps.
  Proof.
    induction 1 as [|x y l l' E H IH]; intros Hd; auto. inversion Hd; subst.
    constructor; auto. congruence.
  Qed.

  Lemma count_gain ct (m : Z) ps ps2 ps' :
    Forall2 (fun p p2 => cur p2 = cur p /\ new p2 = calculate_new_ind P (cur p) (dir p2)) ps ps2 ->
    Forall2 (fun p2 p' => dir p' = dir p2) ps2 ps' ->
    (count (fun p => moved p && denotes (cur p) m) ps2
     + count (fun p => moved p && denotes (new p) m) ps2
     + count (fun p => (moved p && edge_at ct (new p)) && denotes (new p) m) ps'
     = fold_right Z.add 0 (map (fun pp => gain ct pp m) (combine ps ps')))%Z.
  Proof.
    intros H; revert ps'. induction H as [|p p2 ps ps2 [Ec En] HF IH]; intros ps' H2;
      inversion H2 as [|? p' ? ps'' Ed H2']; subst; [reflexivity|].
    cbn [combine map fold_right]. rewrite <- (IH _ H2'). rewrite !count_cons.
    unfold gain, arrived, moved. rewrite Ed, Ec, En. unfold calculate_new_ind.
    destruct (Nat.eqb (dir p2) 4); cbn [negb andb]; lia.
  Qed.

  Lemma step_budget w stage H_SL ct step ps qx qy qw width s ps' qx' qy' qw' width' s' :
    water_step (A:=XA) P w stage H_SL ct step (ps, (qx, qy, qw), width, s)
      = Ok (ps', (qx', qy', qw'), width', s') ->
    Forall (fun p => (dir p < 9)%nat) ps' ->
    (forall m, qw' m = qw m + half * IZR (fold_right Z.add 0%Z
        (map (fun pp => gain ct pp m) (combine ps ps')))) /\
    fsum (L * W) qw' = fsum (L * W) qw
      + half * IZR (2 * count moved ps' + count (arrived ct) ps').
  Proof.
    unfold water_step. intros E Hd'.
    apply rbind_Ok in E as ([ps1 s1] & E1 & E).
    set (ps2 := calculate_new_inds P ps1) in *.
    apply rbind_Ok in E as ([[qx1 qy1] qw1] & EQ1 & E).
    apply rbind_Ok in E as ([[qx2 qy2] qw2] & EQ2 & E).
    apply rbind_Ok in E as (ps3 & E3 & E).
    apply rbind_Ok in E as (pbs & E4 & E).
    destruct (step <? _)%Z; [|discriminate].
    apply rbind_Ok in E as ([[qx3 qy3] qw3] & EQ3 & E). inversion E; subst; clear E.
    apply check_for_loops_dirs in E3. apply mapM_inv in E4.
    assert (F4 : Forall2 (fun p3 pb => dir (fst pb) = dir p3 /\ snd pb = edge_at ct (new (fst pb))) ps3 pbs).
    { eapply Forall2_imp; [|exact E4]. intros p3 [p' b] Hr. apply record_inv in Hr as (Ha & Hb & Hc). auto. }
    assert (F24 : Forall2 (fun p2 p' => dir p' = dir p2) ps2 (map fst pbs)).
    { assert (F4' : Forall2 (fun p3 p' => dir p' = dir p3) ps3 (map fst pbs)).
      { clear - F4. induction F4 as [|x y l l' [Hxy _] H IH]; cbn; constructor; auto. }
      eapply Forall2_trans3; [exact E3|exact F4'|]. cbn. intros x y z [Ha _] Hb. congruence. }
    assert (Hdir2 : Forall (fun p => (dir p < 9)%nat) ps2).
    { eapply dirs_back; eauto. }
    assert (Hb : Forall (fun pb : parcel * bool => snd pb = edge_at ct (new (fst pb))) pbs).
    { eapply Forall2_Forall_r; [exact F4|]. intros x y [_ Hy]; exact Hy. }
    assert (F02 : Forall2 (fun p p2 => cur p2 = cur p /\ new p2 = calculate_new_ind P (cur p) (dir p2)) ps ps2).
    { apply choose_same in E1. clear - E1. unfold ps2, calculate_new_inds.
      induction E1 as [|x y l l' [Hc _] H IH]; cbn [map]; constructor; auto. cbn.
      rewrite Hc. auto. }
    assert (Qinv : forall q q' ix ps, update_Q (A:=XA) P q ix ps = Ok q' ->
       update_absQfield (A:=XA) P (snd q) ix ps = Ok (snd q')).
    { intros [[a b] c] [[a' b'] c'] ix l E. unfold update_Q in E.
      apply rbind_Ok in E as (? & _ & E). apply rbind_Ok in E as (? & _ & E).
      apply rbind_Ok in E as (? & Ec & E). inversion E; subst. cbn [snd]. rewrite fmemo_id. exact Ec. }
    apply Qinv in EQ1, EQ2, EQ3. cbn [snd] in *.
    assert (Hdir3 : Forall (fun p => (dir p < 9)%nat) (map fst (filter snd pbs))).
    { rewrite Forall_map in *. rewrite Forall_forall in *. intros pb Hpb.
      apply filter_In in Hpb as [Hpb _]. apply Hd'; auto. }
    assert (Hcnt : forall f, count f (map fst (filter snd pbs))
              = count (fun p => f p && edge_at ct (new p)) (map fst pbs)).
    { intros f. rewrite !count_map, count_filter. clear - Hb.
      unfold count. f_equal. induction Hb as [|x l Hx Hl IH]; cbn; auto. rewrite Hx.
      destruct (f (fst x) && edge_at ct (new (fst x))); cbn; auto. }
    split.
    - intros m.
      rewrite (absQ_cell _ Hdir3 _ _ _ m EQ3), (absQ_cell _ Hdir2 _ _ _ m EQ2),
        (absQ_cell _ Hdir2 _ _ _ m EQ1).
      rewrite <- (count_gain ct m _ _ _ F02 F24). rewrite Hcnt.
      rewrite (count_F2 (fun p => moved p && denotes (new p) m && edge_at ct (new p))
        (fun p => moved p && edge_at ct (new p) && denotes (new p) m)
        (map fst pbs) (map fst pbs)).
      + rewrite !plus_IZR. lra.
      + apply Forall2_diag. intros x.
        destruct (moved x), (denotes (new x) m), (edge_at ct (new x)); reflexivity.
    - rewrite (absQ_total _ Hdir3 _ _ _ EQ3), (absQ_total _ Hdir2 _ _ _ EQ2),
        (absQ_total _ Hdir2 _ _ _ EQ1). rewrite Hcnt.
      rewrite (count_F2 moved moved ps2 (map fst pbs)).
      + rewrite plus_IZR, mult_IZR. unfold arrived. lra.
      + eapply Forall2_imp; [|exact F24]. cbn. intros x y E. unfold moved. rewrite E. auto.
  Qed.

  Lemma chain_budget ct w stage H_SL step st tr st' :
    chain (fun x => x) P ct w stage H_SL step st tr st' ->
    Forall (Forall (fun p => (dir p < 9)%nat)) tr ->
    fsum (L * W) (snd (snd (fst (fst st'))))
    = fsum (L * W) (snd (snd (fst (fst st)))) + half * IZR (trace_gain ct tr).
  Proof.
    induction 1 as [|step st ps1 q1 wd1 s1 tr st' E Hc IH]; intros Hd.
    - cbn. lra.
    - inversion Hd as [|? ? Hd1 Hd2]; subst. rewrite (IH Hd2).
      destruct st as [[[ps [[qx qy] qw]] wd] s]. destruct q1 as [[qx1 qy1] qw1].
      cbn [fst snd]. apply step_budget in E as [_ E]; auto. rewrite E.
      unfold trace_gain. cbn [map fold_right]. rewrite (plus_IZR (2 * _ + _)). lra.
  Qed.

  Lemma rsum_indicator (f : Z -> bool) x l :
    rsum (map (fun n => if f n then 0 + x else 0) l) = x * IZR (count f l).
  Proof.
    induction l as [|n l IH]; cbn [map rsum]; [cbn; lra|]. rewrite IH, count_cons.
    destruct (f n); rewrite plus_IZR; lra.
  Qed.

  Lemma fancy_total starts x : Forall (fun n => 0 <= n < L * W)%Z starts ->
    fsum (L * W) (fancy_add (A:=XA) (zero_flat (A:=XA)) starts x)
    = x * IZR (Z.of_nat (List.length (nodup Z.eq_dec starts))).
  Proof.
    intros H. unfold fsum, fancy_add, zero_flat. ra.
    rewrite (rsum_indicator (fun n => existsb (fun m => m =? n)%Z starts)).
    apply (f_equal (fun n => x * IZR n)). unfold count. f_equal. apply Permutation_length.
    apply NoDup_Permutation.
    - apply NoDup_filter, zrange_NoDup.
    - apply NoDup_nodup.
    - intros n. rewrite filter_In, nodup_In, existsb_In, zrange_In.
      rewrite Forall_forall in H. split; [tauto|]. intros Hn. split; auto.
  Qed.
End Budget.

(** ** A whole water iteration *)

Section Whole.
  Context (rnd : R -> R) {HR : Rounding rnd}.
  Notation A := (RA rnd).
  Context {S : Type} {G : Rng R S}.
  Context (P : params R) (st : state R S).
  Notation L := (p_L P).
  Notation W := (p_W P).
  Notation ct := (s_cell_type st).

  Local Notation water_ready := (WaterSpec.water_ready P st).
  Local Notation positive_picks := (WaterSpec.positive_picks rnd P st).
  Notation weights := (get_water_weight_array (A:=A) P (s_depth st) (s_stage st)
     (s_mod_water_weight st) ct (s_qx st) (s_qy st)).

  Lemma weights_ready : water_ready -> exists w, weights = Ok w /\
     (forall i j, inb L W i j -> water_weight_cell (A:=A) P (s_depth st) (s_stage st)
         (s_mod_water_weight st) ct (s_qx st) (s_qy st) i j = Ok (w i j)) /\
     (forall i j, inb L W i j -> ct i j <> LAND ->
     (forall k, (k < 9)%nat -> (0 <= w i j k)%R) /\
     (forall k, (k < 9)%nat -> at_nb L W ct i j k = LAND -> w i j k = 0%R)).
  Proof.
    intros [WD _ _ _ _ _ Hg].
    destruct (water_array_ok rnd P (s_depth st) (s_stage st) (s_mod_water_weight st) ct
                (s_qx st) (s_qy st) Hg) as (w & E & Hc).
    exists w. split; auto. split; auto. intros i j Hin Hl.
    destruct (water_cell_spec rnd P (s_depth st) (s_stage st) (s_mod_water_weight st) ct
                (s_qx st) (s_qy st) i j Hin Hg Hl) as (w' & E' & H1 & H2 & _).
    rewrite Hc in E' by auto. inversion E'; subst. auto.
  Qed.

  Lemma start_standing starts : water_ready -> Forall (fun c => In c (p_inlet P)) starts ->
    Forall (standing P ct) (start_parcels starts) /\ Forall (fun n => 0 < n < L * W) starts.
  Proof.
    intros [WD HL0 _ _ _ _ _] H.
    assert (Ha : Forall (fun n => active L W ct n) starts).
    { eapply Forall_impl; [|exact H]. intros c Hc.
      destruct (wd_inlet _ _ _ _ _ WD c Hc) as (Hr & Hl & He).
      pose proof (wd_L0 _ _ _ _ _ WD).
      exists 0, c. split; auto. split; [lia|]. split; lia. }
    split.
    - unfold start_parcels. rewrite Forall_map. eapply Forall_impl; [|exact Ha].
      intros n Hn. right. exact Hn.
    - eapply Forall_impl; [|exact Ha]. intros n Hn. split; [apply (active_pos P ct WD); auto|].
      destruct Hn as (i & j & Hc & _). apply at_cell_range in Hc. lia.
  Qed.

  Lemma run_ok : water_ready -> uniform_range G ->
    (forall w, weights = Ok w -> positive_picks w) ->
    exists w starts s0 tr ps q width s,
      weights = Ok w /\
      get_start_indices (A:=A) (p_inlet P) (get_inlet_weights (A:=A) (p_inlet P)) (p_Np_water P) (s_rng st)
        = Ok (starts, s0) /\
      Z.of_nat (List.length starts) = p_Np_water P /\
      Forall (fun c => In c (p_inlet P)) starts /\
      run_water_iteration (A:=A) P st = Ok (ps, q, width, s) /\
      chain rnd P ct w (s_stage st) (s_H_SL st) 0
        (start_parcels starts, (fancy_add (A:=A) (zero_flat (A:=A)) starts (fz (Arith:=A) 1),
           fancy_add (A:=A) (zero_flat (A:=A)) starts (fz (Arith:=A) 0),
           fancy_add (A:=A) (zero_flat (A:=A)) starts (half_flux (A:=A) P)), s_width st, s0) tr (ps, q, width, s) /\
      steps rnd P ct w (s_stage st) (s_H_SL st) 0 (start_parcels starts) tr ps /\
      Z.of_nat (List.length tr) <= p_stepmax P /\
      (Z.of_nat (List.length tr) = p_stepmax P \/ Forall (fun p => cur p = 0) ps) /\
      Z.of_nat (List.length tr) < width.
  Proof.
    intros Hr HG HPP. pose proof Hr as [WD HL0 HC Hst Hwd HNp Hg].
    destruct (weights_ready Hr) as (w & Ew & _ & HW).
    destruct (get_start_indices_ok rnd (p_inlet P) (get_inlet_weights (A:=A) (p_inlet P))
                (p_Np_water P) (s_rng st) HG) as (starts & s0 & Es & Hlen & Hin); auto.
    { unfold nonneg, get_inlet_weights. rewrite Forall_map. apply Forall_forall. intros.
      ra. rewrite rnd_1. lra. }
    { unfold get_inlet_weights. apply map_length. }
    { apply (wd_inlet_ne _ _ _ _ _ WD). }
    destruct (start_standing starts Hr Hin) as [Hstand _].
    destruct (water_loop_ok rnd P ct WD w HW HG (HPP w Ew) HL0 HC Hst (s_stage st) (s_H_SL st)
       (Z.to_nat (p_stepmax P)) 0 (start_parcels starts)
       (fancy_add (A:=A) (zero_flat (A:=A)) starts (fz (Arith:=A) 1),
           fancy_add (A:=A) (zero_flat (A:=A)) starts (fz (Arith:=A) 0),
           fancy_add (A:=A) (zero_flat (A:=A)) starts (half_flux (A:=A) P))
       (s_width st) s0 Hstand ltac:(lia) ltac:(lia))
      as (ps & q & width & s & tr & El & Hch & Hsteps & Hn & Hend & Hm & Hw').
    exists w, starts, s0, tr, ps, q, width, s.
    split; auto. split; auto. split; auto. split; auto. split.
    { unfold run_water_iteration. rewrite Es. cbn [rbind].
      destruct (Z.leb_spec (s_width st) 0); [lia|]. rewrite Ew. cbn [rbind]. exact El. }
    split; auto. split; auto. split; [lia|]. split; [|lia].
    destruct Hend as [->|]; auto. left. lia.
  Qed.
End Whole.

(** In exact arithmetic a positive variate is enough. *)
Lemma rsum_D9 v : rsum (map v D9) = sum9 v.
Proof. unfold sum9, D9. cbn. lra. Qed.

Lemma exact_picks {S} {G : Rng R S} (P : params R) (st : state R S) w :
  (forall s, 0 < fst (draw s))%R ->
  get_water_weight_array (A:=RA (fun x => x)) P (s_depth st) (s_stage st)
     (s_mod_water_weight st) (s_cell_type st) (s_qx st) (s_qy st) = Ok w ->
  (0 <= p_gamma P <= 1)%R ->
  positive_picks (fun x => x) P st w.
Proof.
  intros Hu Ew Hg i j s Hin Hl.
  destruct (water_array_ok (fun x => x) P (s_depth st) (s_stage st) (s_mod_water_weight st)
     (s_cell_type st) (s_qx st) (s_qy st) Hg) as (w' & E' & Hc).
  rewrite Ew in E'. inversion E'; subst w'. specialize (Hc i j Hin).
  apply water_cell_sum in Hc; auto.
  unfold cumsum. pose proof (cumsum_last_sum (map (w i j) D9) 0%R) as Hs.
  change (fz (Arith:=RA (fun x => x)) 0) with 0%R.
  change (RA (fun x => x)) with RX. rewrite Hs. rewrite rsum_D9, Hc.
  specialize (Hu s). lra.
Qed.

Lemma steps_dirs rnd P ct w stage H_SL step ps tr ps' :
  steps rnd P ct w stage H_SL step ps tr ps' ->
  Forall (Forall (fun p => (dir p < 9)%nat)) tr.
Proof.
  induction 1 as [|step ps ps1 tr ps' HF Hs IH]; constructor; auto.
  eapply Forall2_Forall_r; [exact HF|]. intros x y Hr. apply Hr.
Qed.

(** The accumulated discharge of a whole iteration. *)
Lemma run_budget {S} {G : Rng R S} (P : params R) (st : state R S) :
  water_ready P st -> uniform_range G -> (forall s, 0 < fst (draw s))%R ->
  exists starts tr ps qx qy qw width s,
    run_water_iteration (A:=RX) P st = Ok (ps, (qx, qy, qw), width, s) /\
    Z.of_nat (List.length starts) = p_Np_water P /\
    Forall (fun c => In c (p_inlet P)) starts /\
    (exists w, steps (fun x => x) P (s_cell_type st) w (s_stage st) (s_H_SL st) 0
        (start_parcels starts) tr ps) /\
    (fsum (p_L P * p_W P) qw = half_flux (A:=RX) P *
      IZR (Z.of_nat (List.length (nodup Z.eq_dec starts)) + trace_gain P (s_cell_type st) tr))%R.
Proof.
  intros Hr HG Hu. change RX with (RA (fun x => x)).
  destruct (run_ok (fun x => x) P st Hr HG)
    as (w & starts & s0 & tr & ps & q & width & s & Ew & Es & Hlen & Hin & Erun & Hch & Hst & _).
  { intros w Ew. apply exact_picks; auto. apply Hr. }
  destruct q as [[qx qy] qw].
  exists starts, tr, ps, qx, qy, qw, width, s. repeat split; eauto.
  pose proof (chain_budget P _ _ _ _ _ _ _ _ Hch (steps_dirs _ _ _ _ _ _ _ _ _ _ Hst)) as Hb.
  cbn [fst snd] in Hb. rewrite Hb, fancy_total.
  - rewrite plus_IZR. lra.
  - destruct (start_standing P st starts Hr Hin) as [_ H]. eapply Forall_impl; [|exact H].
    cbn. intros; lia.
Qed.
